(** Lemmas for C83: the indices and the parents given when calls do not overlap. *)
From Verif Require Import GoInt M_ProfileConc S_ProfileConc L_ProfileConc L_ProfileConc2.
From Coq Require Import Permutation.

Section Links.
Variables (keep bulk : nat).
Definition lv (c : coll) : levels := mkLevels (c_cur c) (c_par c) (c_links c).
Definition same (v w : levels) : Prop := v_next v = v_next w /\ v_parent v = v_parent w /\ forall s, v_links v s = v_links w s.
Definition bump (v : levels) : levels := mkLevels (int32 (v_next v + 1)) (v_parent v) (v_links v).
Definition down (v : levels) : levels := mkLevels (v_next v) (v_next v) (v_links v).
Definition give_parent (s : nat) (v : levels) : levels := mkLevels (v_next v) (v_parent v) (fun x => if Nat.eqb x s then (fst (v_links v s), v_parent v) else v_links v x).
Definition give_index (s : nat) (v : levels) : levels := mkLevels (v_next v) (v_parent v) (fun x => if Nat.eqb x s then (v_next v, snd (v_links v s)) else v_links v x).
(** the levels once the rest of the call is done *)
Definition finish (p : pc) (c : coll) : levels :=
  let v := lv c in
  match p with
  | AIndex s => bump (give_parent s (give_index s v))
  | AParent s => bump (give_parent s v)
  | ALevel s => bump v
  | ALevel2 s n => mkLevels (int32 (n + 1)) (v_parent v) (v_links v)
  | UIndex s => bump (down (give_parent s (give_index s v)))
  | UParent s => bump (down (give_parent s v))
  | UDown s => bump (down v)
  | UDown2 s n => bump (mkLevels (v_next v) n (v_links v))
  | ULevel s => bump v
  | ULevel2 s n => mkLevels (int32 (n + 1)) (v_parent v) (v_links v)
  | OParent s => mkLevels (v_next v) (snd (v_links v s)) (v_links v)
  | _ => v
  end.
Lemma finish_act p c : p <> Out -> same (finish (fst (act keep bulk p c)) (snd (act keep bulk p c))) (finish p c).
Proof.
  intros NO. destruct p; try (elim (NO eq_refl)); cbn [act];
    try (destruct (Nat.ltb _ _)); try (destruct (Nat.leb _ _)); try (destruct (_ || _)); repeat split; intros; cbn; try reflexivity.
Qed.
(** the same with a counter that does not wrap *)
Definition op32 (v : levels) (o : pop_call) : levels :=
  match o with
  | OAdd s => mkLevels (int32 (v_next v + 1)) (v_parent v) (number s v)
  | OPush s => mkLevels (int32 (v_next v + 1)) (v_next v) (number s v)
  | OPop s => mkLevels (v_next v) (snd (v_links v s)) (v_links v)
  | OClose => v
  end.
Lemma finish_begin o c : same (finish (begin o) c) (op32 (lv c) o).
Proof.
  destruct o; repeat split; intros; cbn; try reflexivity; unfold number; cbn; destruct (Nat.eqb _ s); cbn; rewrite ?Nat.eqb_refl; reflexivity.
Qed.
Lemma same_refl v : same v v. Proof. repeat split. Qed.
Lemma same_trans u v w : same u v -> same v w -> same u w.
Proof. intros (A1 & A2 & A3) (B1 & B2 & B3). split; [congruence|]. split; [congruence|]. intros s. rewrite A3. apply B3. Qed.
Lemma op32_same v w o : same v w -> same (op32 v o) (op32 w o).
Proof.
  intros (A1 & A2 & A3). destruct o; cbn; (split; [cbn; congruence|]); (split; [cbn; congruence|]); intros x; cbn; unfold number; rewrite ?A1, ?A2, ?A3; reflexivity.
Qed.

(** the calls taken so far, and those left *)
Inductive taken : list (list pop_call) -> list pop_call -> list (list pop_call) -> Prop :=
| taken_nil progs : taken progs [] progs
| taken_snoc progs h l1 o p l2 : taken progs h (l1 ++ (o :: p) :: l2) -> taken progs (h ++ [o]) (l1 ++ p :: l2).
Lemma taken_merged progs h q k : taken progs h q -> merged q k -> merged progs (h ++ k).
Proof.
  intros T. revert k. induction T as [|progs h l1 o p l2 T IH]; intros k M; [exact M|]. rewrite <- app_assoc. apply IH. cbn. constructor. exact M.
Qed.
Lemma taken_started progs h q : taken progs h q -> Permutation (started h ++ all_started q) (all_started progs).
Proof.
  intros T. induction T as [|progs h l1 o p l2 T IH]; [reflexivity|]. rewrite <- IH. clear. unfold all_started, started. rewrite !flat_map_app. cbn [flat_map]. rewrite app_nil_r, <- app_assoc.
  apply Permutation_app_head. rewrite <- !app_assoc. symmetry. rewrite app_assoc, (Permutation_app_comm (flat_map _ l1)), <- app_assoc. reflexivity.
Qed.
Definition links32 (h : list pop_call) : levels := fold_left op32 h (mkLevels 0 0 (fun _ => (0, 0))).
Lemma links32_ok h : Z.of_nat (length (started h)) < 2^31 -> links32 h = record_all h /\ v_next (record_all h) = Z.of_nat (length (started h)).
Proof.
  induction h as [|o h IH] using rev_ind; intros L; [split; reflexivity|]. unfold started in *. rewrite flat_map_app in *. cbn [flat_map] in *. rewrite app_nil_r in *. rewrite app_length in *.
  destruct IH as (E & N); [lia|]. unfold links32, record_all in *. rewrite !fold_left_app. cbn [fold_left]. rewrite E.
  assert (length (flat_map (fun o => match o with OAdd s | OPush s => [s] | _ => [] end) h) = length (flat_map (fun o => match o with OAdd s | OPush s => [s] | OPop _ | OClose => [] end) h)) as _ by reflexivity.
  destruct o; cbn [length] in *; (split; [cbn [op32 record_one]; rewrite ?N|cbn [record_one v_next]; rewrite ?N; lia]); rewrite ?int32_id; try reflexivity; unfold in_int32; lia.
Qed.

Record linked (progs : list (list pop_call)) (y : psys) (h : list pop_call) : Prop := {
  li_taken : taken progs h (map snd (y_thr y));
  li_levels : same (finish (active (y_thr y)) (y_coll y)) (links32 h) }.
Lemma linked_step progs y i h : linked progs y h -> (length (filter busy (y_thr y)) <= 1)%nat -> (length (filter busy (y_thr (sys_step keep bulk i y))) <= 1)%nat ->
  exists h', linked progs (sys_step keep bulk i y) h'.
Proof.
  intros [T V] B1. unfold sys_step. destruct (nth_error (y_thr y) i) as [[p r]|] eqn:E; [|intros _; exists h; constructor; assumption].
  destruct (put_split _ _ _ E) as (l1 & l2 & El & _ & Pt).
  assert ((p = Out) \/ p <> Out) as [Po|Po] by (destruct p; (left; reflexivity) || (right; discriminate)).
  - subst p. destruct r as [|o r]; cbn [step_thread].
    + rewrite Pt, <- El. intros _. exists h. constructor; assumption.
    + rewrite Pt. cbn [y_thr y_coll]. rewrite El in B1, T, V. rewrite !filter_app in *. cbn [filter] in *. assert (busy (begin o, r) = true) as Bo by (destruct o; reflexivity). rewrite Bo. cbn [busy fst] in B1. rewrite !app_length. cbn [length]. intros B2.
      destruct (filter busy l1) as [|] eqn:F1; [|cbn in B2; lia]. destruct (filter busy l2) as [|] eqn:F2; [|cbn in B2; lia].
      assert (active (l1 ++ (Out, o :: r) :: l2) = Out) as A1 by (unfold active; rewrite filter_app, F1; cbn; rewrite F2; reflexivity).
      assert (active (l1 ++ (begin o, r) :: l2) = begin o) as A2 by (unfold active; rewrite filter_app, F1; cbn [filter app]; rewrite Bo; reflexivity).
      exists (h ++ [o]). constructor; cbn [y_thr y_coll].
      * rewrite map_app in *. cbn [map snd] in *. constructor. exact T.
      * rewrite A2. rewrite A1 in V. unfold links32. rewrite fold_left_app. cbn [fold_left]. eapply same_trans; [apply finish_begin|]. apply op32_same. exact V.
  - rewrite step_busy by exact Po. rewrite Pt. cbn [y_thr y_coll]. rewrite El in B1, T, V. rewrite filter_app in B1. cbn [filter] in B1. rewrite busy_ne, app_length in B1 by exact Po. cbn [length] in B1.
    intros _. destruct (filter busy l1) as [|] eqn:F1; [|cbn in B1; lia]. destruct (filter busy l2) as [|] eqn:F2; [|cbn in B1; lia].
    assert (forall q, active (l1 ++ (q, r) :: l2) = q) as A.
    { intros q. unfold active. rewrite filter_app, F1. cbn [filter app]. rewrite F2. destruct q; reflexivity. }
    rewrite A in V. exists h. constructor; cbn [y_thr y_coll].
    + rewrite map_app in *. exact T.
    + rewrite A. eapply same_trans; [apply finish_act; exact Po|exact V].
Qed.
Lemma linked_run progs sched : one_at_a_time keep bulk progs sched -> exists h, linked progs (sys_run keep bulk sched (psys0 keep progs)) h.
Proof.
  induction sched as [|i sched IH] using rev_ind; intros O.
  - exists []. constructor; cbn [sys_run fold_left psys0 y_thr y_coll].
    + rewrite map_map. cbn [snd]. rewrite map_id. constructor.
    + unfold active. rewrite start_idle. apply same_refl.
  - assert (sys_run keep bulk (sched ++ [i]) (psys0 keep progs) = sys_step keep bulk i (sys_run keep bulk sched (psys0 keep progs))) as E by (unfold sys_run; rewrite fold_left_app; reflexivity).
    destruct IH as (h & Hh); [intros p r Er; apply (O p (r ++ [i])); rewrite Er, app_assoc; reflexivity|]. rewrite E. apply (linked_step progs _ i h Hh).
    + apply (O sched [i] eq_refl).
    + rewrite <- E. apply (O _ []). rewrite app_nil_r. reflexivity.
Qed.
Lemma linked_finished progs sched : Z.of_nat (length (all_started progs)) < 2^31 -> one_at_a_time keep bulk progs sched -> let y := sys_run keep bulk sched (psys0 keep progs) in finished y ->
  exists h, merged progs h /\ forall s, c_links (y_coll y) s = v_links (record_all h) s.
Proof.
  intros L O y F. destruct (linked_run progs sched O) as (h & [T V]). fold y in T, V. exists h.
  assert (forall q, In q (map snd (y_thr y)) -> q = []) as Hq by (intros q Hq; apply in_map_iff in Hq as (t & <- & Ht); rewrite (F t Ht); reflexivity).
  split.
  - rewrite <- (app_nil_r h). eapply taken_merged; [exact T|]. constructor. exact Hq.
  - assert (idle y) as Id by (intros t H; rewrite (F t H); reflexivity). unfold active in V. rewrite (idle_filter y Id) in V. cbn [finish] in V. destruct V as (_ & _ & V).
    destruct (links32_ok h) as (E & _); [|intros s; rewrite <- E; apply V].
    pose proof (Permutation_length (taken_started _ _ _ T)) as P. rewrite app_length in P. lia.
Qed.
End Links.
