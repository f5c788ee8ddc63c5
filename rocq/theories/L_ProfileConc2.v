(** Lemmas for C83: calls that do not overlap. *)
From Verif Require Import GoInt M_ProfileConc S_ProfileConc L_ProfileConc.
From Coq Require Import Permutation.

Section Serial.
Variables (keep bulk : nat).
Hypotheses (Hk : (1 <= keep)%nat) (Hb : (1 <= bulk)%nat).

(** c.steps holds exactly w *)
Definition buffer (c : coll) (w : list nat) : Prop :=
  (c_steps c < length (c_arrays c))%nat /\ arr (c_steps c) c = map Some w ++ repeat None (keep - length w) /\ (length w <= keep)%nat /\ c_panics c = 0%nat.
(** what is sent or held, at each point of a call *)
Definition desc (p : pc) (c : coll) (D : list nat) : Prop :=
  match p with
  | Sending o hi i acc => buffer c [] /\ c_pos c = 0%nat /\ exists w, arr o c = map Some w /\ length w = hi /\ (i <= hi)%nat /\ (i = hi -> acc = []) /\ D = concat (c_sent c) ++ acc ++ skipn i w
  | RZero o => buffer c [] /\ exists w, arr o c = map Some w /\ length w = keep /\ D = concat (c_sent c) ++ w
  | CTest | CSlice | CPos _ => False
  | _ => exists w, buffer c w /\ D = concat (c_sent c) ++ w /\
      match p with
      | RPos _ a => a = c_steps c /\ c_pos c = length w /\ (length w < keep)%nat
      | RStore _ a i => a = c_steps c /\ i = length w /\ c_pos c = length w /\ (length w < keep)%nat
      | RInc => S (c_pos c) = length w
      | RInc2 v => S v = length w
      | RTest => c_pos c = length w
      | RTest2 v => v = length w /\ c_pos c = length w
      | ROld => length w = keep
      | RNew o => length w = keep /\ o = c_steps c
      | _ => c_pos c = length w /\ (length w < keep)%nat
      end
  end.

Lemma buffer_len c w : buffer c w -> length (arr (c_steps c) c) = keep.
Proof. intros (_ & -> & L & _). rewrite app_length, map_length, repeat_length. lia. Qed.
Lemma put_mid {A} (a : list A) x y b : put (length a) x (a ++ y :: b) = a ++ x :: b.
Proof. induction a as [|z a IH]; cbn; [reflexivity|rewrite IH; reflexivity]. Qed.
Lemma arr_store_same a i s c : (a < length (c_arrays c))%nat -> arr a (store a i s c) = put i (Some s) (arr a c).
Proof. intros H. unfold arr at 1. cbn [store c_arrays]. rewrite nth_put, Nat.eqb_refl. apply Nat.ltb_lt in H. rewrite H. reflexivity. Qed.

Lemma desc_act p c D : p <> Out -> desc p c D -> exists D', desc (fst (act keep bulk p c)) (snd (act keep bulk p c)) D' /\ Permutation (D' ++ hand (fst (act keep bulk p c))) (D ++ hand p).
Proof.
  intros NO H. destruct p; try (elim (NO eq_refl)); try (elim H); cbn [act fst snd].
  all: cbn [desc] in H; lazymatch type of H with ex _ => destruct H as (w & B & -> & H) | _ => idtac end.
  all: try (exists (concat (c_sent c) ++ w); split; [exists w; repeat split; (exact B || apply B || intuition lia || reflexivity) | reflexivity]; fail).
  - (* RStore *) destruct H as (-> & -> & P & L). pose proof (buffer_len _ _ B) as Bl. destruct (Nat.ltb_spec (length w) (length (arr (c_steps c) c))) as [Q|Q]; [|lia]. cbn [fst snd hand].
    destruct B as (B1 & B2 & B3 & B4). exists (concat (c_sent c) ++ w ++ [s]). split; [|rewrite app_nil_r, app_assoc; reflexivity].
    exists (w ++ [s]). split; [|split; [reflexivity|cbn [store c_pos]; rewrite app_length; cbn; lia]].
    split; [cbn [store c_arrays c_steps]; rewrite put_length; exact B1|]. split; [|split; [rewrite app_length; cbn; lia|exact B4]].
    change (c_steps (store (c_steps c) (length w) s c)) with (c_steps c). rewrite arr_store_same by exact B1. rewrite B2. rewrite app_length. cbn [length].
    replace (keep - length w)%nat with (S (keep - (length w + 1)))%nat by lia. cbn [repeat]. rewrite <- (map_length Some w) at 1. rewrite put_mid, map_app, <- app_assoc. reflexivity.
  - (* RTest2 *) destruct H as (-> & P). rewrite (buffer_len _ _ B). pose proof B as (_ & _ & B3 & _). destruct (Nat.leb_spec keep (length w)); cbn [fst snd hand]; exists (concat (c_sent c) ++ w); (split; [|reflexivity]); exists w; repeat split; try apply B; lia.
  - (* RNew *) destruct H as (L & ->). exists (concat (c_sent c) ++ w). split; [|reflexivity]. destruct B as (B1 & B2 & B3 & B4). split.
    + split; [cbn [fresh_slice c_steps c_arrays]; rewrite app_length; cbn; lia|]. split; [|split; [cbn; lia|exact B4]]. unfold arr. cbn [fresh_slice c_steps c_arrays]. rewrite arr_fresh, Nat.eqb_refl. cbn [length map app]. rewrite Nat.sub_0_r. reflexivity.
    + exists w. split; [|split; [exact L|reflexivity]]. unfold arr. cbn [fresh_slice c_arrays]. rewrite arr_fresh. destruct (Nat.eqb_spec (c_steps c) (length (c_arrays c))); [lia|]. rewrite B2. rewrite L, Nat.sub_diag. cbn. apply app_nil_r.
  - (* RZero *) destruct H as (B & w & A & L & ->). exists (concat (c_sent c) ++ w). split; [|reflexivity]. split; [exact B|]. split; [reflexivity|]. exists w. change (arr o (set_pos 0 c)) with (arr o c). rewrite A, map_length. repeat split; try lia.
  - (* Sending *) destruct H as (B & P & w & A & L & Le & Z0 & ->). destruct (Nat.ltb_spec i hi) as [Lt|Ge].
    + assert (exists s, nth i (arr o c) None = Some s /\ skipn i w = s :: skipn (S i) w) as (s & E1 & E2).
      { rewrite A. assert (i < length w)%nat as Lw by lia. clear - Lw. revert i Lw. induction w as [|x w IH]; cbn; intros i Lw; [lia|]. destruct i as [|i]; [exists x; split; reflexivity|]. apply (IH i). lia. }
      rewrite E1. cbv zeta. assert (concat (c_sent c) ++ acc ++ skipn i w = concat (c_sent c) ++ (acc ++ [s]) ++ skipn (S i) w) as -> by (rewrite E2, <- !app_assoc; reflexivity).
      exists (concat (c_sent c) ++ (acc ++ [s]) ++ skipn (S i) w). destruct (Nat.eqb_spec (S i mod bulk) 0) as [M|M]; [|destruct (Nat.eqb_spec (S i) hi) as [Q|Q]]; cbn [orb fst snd hand]; (split; [|reflexivity]).
      all: split; [exact B|]; split; [exact P|]; exists w; split; [exact A|]; split; [exact L|]; split; [lia|]; (split; [intros; lia || reflexivity|]); cbn [add_sent c_sent]; rewrite ?concat_app; cbn [concat]; rewrite ?app_nil_r, <- ?app_assoc; reflexivity.
    + cbn [fst snd hand]. assert (i = hi) by lia. rewrite (Z0 H), skipn_all2 by lia. exists (concat (c_sent c)). split; [|cbn; rewrite !app_nil_r; reflexivity]. exists []. split; [exact B|]. split; [rewrite app_nil_r; reflexivity|]. cbn. lia.
Qed.

Definition active (l : list (pc * list pop_call)) : pc := match filter busy l with (p, _) :: _ => p | [] => Out end.
Record serial (U : list nat) (y : psys) : Prop := {
  se_no : Forall (fun t => ~ In OClose (snd t)) (y_thr y);
  se_desc : exists D, desc (active (y_thr y)) (y_coll y) D /\ Permutation (D ++ flat_map pending_of (y_thr y)) U }.

Lemma idle_hand l : filter busy l = [] -> flat_map pending_of l = flat_map (fun t => recorded (snd t)) l.
Proof.
  induction l as [|[p r] l IH]; cbn; [reflexivity|]. unfold busy at 1. destruct p; cbn; try discriminate. intros H. rewrite (IH H). reflexivity.
Qed.
Lemma busy_ne p r : p <> Out -> busy (p, r) = true.
Proof. destruct p; intros N; try reflexivity. elim (N eq_refl). Qed.
Lemma step_busy p r c : p <> Out -> step_thread keep bulk (p, r) c = ((fst (act keep bulk p c), r), snd (act keep bulk p c)).
Proof. intros N. destruct p; try (elim (N eq_refl)); unfold step_thread; destruct (act keep bulk _ c); reflexivity. Qed.
Lemma serial_step U y i : serial U y -> (length (filter busy (y_thr y)) <= 1)%nat -> (length (filter busy (y_thr (sys_step keep bulk i y))) <= 1)%nat -> serial U (sys_step keep bulk i y).
Proof.
  intros [N (D & Hd & Hp)] B1. unfold sys_step. destruct (nth_error (y_thr y) i) as [[p r]|] eqn:E; [|intros _; constructor; [exact N|exists D; auto]].
  destruct (put_split _ _ _ E) as (l1 & l2 & El & _ & Pt).
  assert ((p = Out) \/ p <> Out) as [Po|Po] by (destruct p; (left; reflexivity) || (right; discriminate)).
  - subst p. destruct r as [|o r]; cbn [step_thread].
    + rewrite Pt, <- El. intros _. constructor; [exact N|exists D; auto].
    + rewrite Pt. cbn [y_thr y_coll]. rewrite El in B1, Hd, Hp, N. rewrite !filter_app in *. cbn [filter] in *. assert (busy (begin o, r) = true) as Bo by (destruct o; reflexivity). rewrite Bo. cbn [busy fst] in B1. rewrite !app_length. cbn [length]. intros B2.
      destruct (filter busy l1) as [|] eqn:F1; [|cbn in B2; lia]. destruct (filter busy l2) as [|] eqn:F2; [|cbn in B2; lia].
      assert (active (l1 ++ (Out, o :: r) :: l2) = Out) as A1 by (unfold active; rewrite filter_app, F1; cbn; rewrite F2; reflexivity).
      assert (active (l1 ++ (begin o, r) :: l2) = begin o) as A2 by (unfold active; rewrite filter_app, F1; cbn [filter app]; rewrite Bo; reflexivity).
      apply Forall_app in N as (N1 & N). inversion_clear N as [|? ? Np N2]. constructor; cbn [y_thr y_coll].
      * apply Forall_app. split; [exact N1|]. constructor; [|exact N2]. intros H. apply Np. right. exact H.
      * rewrite A2. rewrite A1 in Hd. exists D. split; [destruct o; cbn [begin]; try exact Hd; elim Np; left; reflexivity|].
        rewrite flat_map_app in *. cbn [flat_map] in *. assert (pending_of (Out, o :: r) = pending_of (begin o, r)) as <- by (destruct o; reflexivity). exact Hp.
  - rewrite step_busy by exact Po. rewrite Pt. cbn [y_thr y_coll]. rewrite El in B1, Hd, Hp, N. rewrite filter_app in B1. cbn [filter] in B1. rewrite busy_ne, app_length in B1 by exact Po. cbn [length] in B1.
    intros _. destruct (filter busy l1) as [|] eqn:F1; [|cbn in B1; lia]. destruct (filter busy l2) as [|] eqn:F2; [|cbn in B1; lia].
    assert (forall q, active (l1 ++ (q, r) :: l2) = q) as A.
    { intros q. unfold active. rewrite filter_app, F1. cbn [filter app]. rewrite F2. destruct q; reflexivity. }
    rewrite A in Hd. destruct (desc_act _ _ _ Po Hd) as (D' & Hd' & Hp'). constructor; cbn [y_thr y_coll].
    + apply Forall_app in N as (N1 & N). inversion_clear N as [|? ? Np N2]. apply Forall_app. split; [exact N1|]. constructor; [exact Np|exact N2].
    + rewrite A. exists D'. split; [exact Hd'|]. rewrite <- Hp. rewrite !flat_map_app. cbn [flat_map]. unfold pending_of at 2 5. cbn [fst snd].
      rewrite (Permutation_app_comm (flat_map pending_of l1)). rewrite (Permutation_app_comm (flat_map pending_of l1) ((hand p ++ recorded r) ++ flat_map pending_of l2)). rewrite <- !app_assoc, !(app_assoc D), !(app_assoc D'). apply Permutation_app_tail. exact Hp'.
Qed.
Lemma start_desc : desc Out (coll0 keep) [].
Proof. exists []. split; [|cbn; split; [reflexivity|lia]]. unfold buffer. cbn [length map app]. rewrite Nat.sub_0_r. cbn. split; [lia|]. split; [reflexivity|]. split; [lia|reflexivity]. Qed.
Lemma start_idle progs : filter busy (map (fun p => (Out, p)) progs) = [].
Proof. induction progs; cbn; auto. Qed.
Lemma serial_start progs : (forall p, In p progs -> ~ In OClose p) -> serial (all_recorded progs) (psys0 keep progs).
Proof.
  intros N. constructor.
  - apply Forall_forall. intros t H. apply in_map_iff in H as (p & <- & Hp). exact (N p Hp).
  - exists []. cbn [psys0 y_thr y_coll]. unfold active. rewrite start_idle. split; [exact start_desc|]. rewrite idle_hand by apply start_idle. cbn [app]. unfold all_recorded. clear. induction progs; cbn; [constructor|]. apply Permutation_app_head. assumption.
Qed.
Lemma serial_run progs sched : (forall p, In p progs -> ~ In OClose p) -> one_at_a_time keep bulk progs sched -> serial (all_recorded progs) (sys_run keep bulk sched (psys0 keep progs)).
Proof.
  intros N. induction sched as [|i sched IH] using rev_ind; intros O; [apply serial_start, N|].
  assert (sys_run keep bulk (sched ++ [i]) (psys0 keep progs) = sys_step keep bulk i (sys_run keep bulk sched (psys0 keep progs))) as E by (unfold sys_run; rewrite fold_left_app; reflexivity).
  rewrite E. apply serial_step.
  - apply IH. intros p r Er. apply (O p (r ++ [i])). rewrite Er, app_assoc. reflexivity.
  - apply (O sched [i] eq_refl).
  - rewrite <- E. apply (O _ []). rewrite app_nil_r. reflexivity.
Qed.
Lemma idle_filter y : idle y -> filter busy (y_thr y) = [].
Proof. unfold idle. intros H. induction (y_thr y) as [|t l IH]; [reflexivity|]. cbn. rewrite (H t (or_introl eq_refl)). apply IH. intros u Hu. apply H. right. exact Hu. Qed.
Lemma some_elems (w : list nat) n : flat_map (fun o => match o with Some s => [s] | None => [] end) (firstn (length w) (map Some w ++ repeat None n)) = w.
Proof. induction w as [|x w IH]; cbn; [reflexivity|rewrite IH; reflexivity]. Qed.
Lemma out_waiting c D : desc Out c D -> D = concat (c_sent c) ++ waiting c /\ c_panics c = 0%nat.
Proof. intros (w & B & -> & P & L). unfold waiting. pose proof B as (_ & -> & _ & Bp). rewrite P, some_elems. auto. Qed.

(** * Close *)
Fixpoint acts (n : nat) (p : pc) (c : coll) : pc * coll := match n with O => (p, c) | S n => let '(p', c') := act keep bulk p c in acts n p' c' end.
Lemma acts_S n p c : acts (S n) p c = acts n (fst (act keep bulk p c)) (snd (act keep bulk p c)).
Proof. cbn [acts]. destruct (act keep bulk p c). reflexivity. Qed.
Lemma send_all (w : list nat) o c0 : forall n i acc c, arr o c = arr o c0 -> (forall j, (j < length w)%nat -> nth j (arr o c0) None = nth_error w j) -> (length w - i = n)%nat -> (i <= length w)%nat ->
  (i = length w -> acc = []) ->
  exists c', acts (S n) (Sending o (length w) i acc) c = (Out, c') /\ concat (c_sent c') = concat (c_sent c) ++ acc ++ skipn i w /\ c_panics c' = c_panics c.
Proof.
  induction n as [|n IH]; intros i acc c Ea En El Hi Hz.
  - assert (i = length w) as Q by lia. cbn [acts act]. destruct (Nat.ltb_spec i (length w)); [lia|]. exists c. rewrite (Hz Q), skipn_all2 by lia. cbn. rewrite app_nil_r. auto.
  - change (acts (S (S n)) (Sending o (length w) i acc) c) with (let '(p', c') := act keep bulk (Sending o (length w) i acc) c in acts (S n) p' c'). cbn [act]. destruct (Nat.ltb_spec i (length w)) as [Lt|]; [|lia].
    assert (exists s, nth_error w i = Some s /\ skipn i w = s :: skipn (S i) w) as (s & E1 & E2).
    { clear - Lt. revert i Lt. induction w as [|x w IH]; cbn; intros i Lw; [lia|]. destruct i as [|i]; [exists x; split; reflexivity|]. apply (IH i). lia. }
    rewrite Ea, (En i Lt), E1. cbv zeta. destruct (Nat.eqb_spec (S i mod bulk) 0) as [M|M]; [|destruct (Nat.eqb_spec (S i) (length w)) as [Q|Q]]; cbn [orb].
    3:{ destruct (IH (S i) (acc ++ [s]) c Ea En) as (c' & R & S1 & S2); try lia. exists c'. split; [exact R|]. rewrite S1, E2, <- !app_assoc. auto. }
    all: destruct (IH (S i) [] (add_sent (acc ++ [s]) c)) as (c' & R & S1 & S2); try assumption; try lia; [reflexivity|]; exists c'; split; [exact R|]; rewrite S1, E2; cbn [add_sent c_sent c_panics] in *; rewrite concat_app; cbn; rewrite app_nil_r, <- !app_assoc; auto.
Qed.
(** stuttering at the end does no harm *)
Lemma run_out n c : sys_run keep bulk (repeat 0%nat n) (mkPsys c [(Out, [])]) = mkPsys c [(Out, [])].
Proof. induction n as [|n IH]; [reflexivity|]. exact IH. Qed.
Lemma acts_run' n : forall p c, sys_run keep bulk (repeat 0%nat n) (mkPsys c [(p, [])]) = mkPsys (snd (acts n p c)) [(fst (acts n p c), [])].
Proof.
  induction n as [|n IH]; intros p c; [reflexivity|]. assert ((p = Out) \/ p <> Out) as [->|Po] by (destruct p; (left; reflexivity) || (right; discriminate)).
  - rewrite run_out. assert (acts (S n) Out c = (Out, c)) as ->; [|reflexivity]. generalize (S n). intros k. induction k as [|k IHk]; [reflexivity|exact IHk].
  - cbn [repeat sys_run fold_left]. fold (sys_run keep bulk (repeat 0%nat n)). unfold sys_step. cbn [y_thr nth_error y_coll]. rewrite step_busy by exact Po. cbn [put]. cbn [acts]. destruct (act keep bulk p c) as [p' c']. cbn [fst snd]. apply IH.
Qed.
Lemma close_sends c D : desc Out c D -> exists n c', sys_run keep bulk (repeat 0%nat n) (mkPsys c [(Out, [OClose])]) = mkPsys c' [(Out, [])] /\ concat (c_sent c') = D /\ c_panics c' = 0%nat.
Proof.
  intros Hd. pose proof Hd as (w & B & -> & P & L). pose proof (buffer_len _ _ B) as Bl. destruct B as (B1 & B2 & B3 & B4).
  assert (forall n, sys_run keep bulk (repeat 0%nat (S n)) (mkPsys c [(Out, [OClose])]) = mkPsys (snd (acts n CTest c)) [(fst (acts n CTest c), [])]) as R by (intros n; rewrite <- acts_run'; reflexivity).
  destruct w as [|x w'] eqn:Ew.
  - exists 2%nat, c. rewrite R. cbn [acts act fst snd]. rewrite P. cbn. rewrite app_nil_r. auto.
  - rewrite <- Ew in *. assert (1 <= length w)%nat as Lw by (rewrite Ew; cbn; lia).
    destruct (send_all w (c_steps c) c (length w) 0 [] c) as (c' & S1 & S2 & S3); auto; try lia.
    { intros j Hj. rewrite B2, app_nth1 by (rewrite map_length; lia). clear - Hj. revert j Hj. induction w as [|y w IH]; cbn; intros j Hj; [lia|]. destruct j as [|j]; [reflexivity|]. cbn. apply IH. lia. }
    exists (S (S (S (S (S (length w)))))), c'. rewrite R.
    assert (acts (S (S (S (S (length w))))) CTest c = acts (S (length w)) (Sending (c_steps c) (length w) 0 []) c) as E.
    { rewrite acts_S. cbn [act]. rewrite P. destruct (Nat.ltb_spec 0 (length w)); [|lia]. cbn [fst snd]. rewrite acts_S. cbn [act fst snd]. rewrite acts_S. cbn [act]. rewrite P, Bl. destruct (Nat.leb_spec (length w) keep); [|lia]. reflexivity. }
    rewrite E, S1. cbn [fst snd]. rewrite S2, S3. cbn. auto.
Qed.
End Serial.
