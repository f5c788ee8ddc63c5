(** Lemmas for C83: the indices given when calls do not overlap. *)
From Verif Require Import GoInt M_ProfileConc S_ProfileConc L_ProfileConc L_ProfileConc2.
From Coq Require Import Permutation.

Section Indices.
Variables (keep bulk : nat).
Definition first_hand (p : pc) : list nat := match p with AIndex s | UIndex s => [s] | _ => [] end.
Definition to_start (t : pc * list pop_call) : list nat := first_hand (fst t) ++ started (snd t).
(** the counter at each point of a call, d the steps numbered so far *)
Definition level (p : pc) (c : coll) (n : Z) : Prop :=
  match p with
  | AParent _ | ALevel _ | UParent _ | UDown _ | UDown2 _ _ | ULevel _ => c_cur c = n - 1
  | ALevel2 _ v | ULevel2 _ v => v = n - 1 /\ c_cur c = n - 1
  | _ => c_cur c = n
  end.
Definition numbered (c : coll) (d : list nat) : Prop := forall k s, nth_error d k = Some s -> index_of c s = Z.of_nat k.
Record numbers (U : list nat) (y : psys) (d : list nat) : Prop := {
  nu_all : Permutation (d ++ flat_map to_start (y_thr y)) U;
  nu_num : numbered (y_coll y) d;
  nu_lev : level (active (y_thr y)) (y_coll y) (Z.of_nat (length d)) }.

Lemma act_level p c d U : p <> Out -> numbered c d -> level p c (Z.of_nat (length d)) -> NoDup (d ++ first_hand p) -> (length (d ++ first_hand p) <= U)%nat -> Z.of_nat U < 2^31 ->
  let r := act keep bulk p c in exists d', d' ++ first_hand (fst r) = d ++ first_hand p /\ numbered (snd r) d' /\ level (fst r) (snd r) (Z.of_nat (length d')).
Proof.
  intros NO Nd Lv D Lu Hu r. rewrite app_length in Lu.
  assert (forall (s : nat), (forall c', c_cur c' = c_cur c -> (forall x, index_of c' x = if Nat.eqb x s then c_cur c else index_of c x) -> c_cur c = Z.of_nat (length d) -> NoDup (d ++ [s]) ->
    numbered c' (d ++ [s]))) as Idx.
  { intros s c' _ Hi Hc Ds k x Hx. rewrite Hi. destruct (Nat.lt_ge_cases k (length d)) as [L|G].
    - rewrite nth_error_app1 in Hx by exact L. destruct (Nat.eqb_spec x s) as [->|]; [|apply Nd; exact Hx]. exfalso. apply NoDup_remove_2 in Ds. rewrite app_nil_r in Ds. apply Ds. eapply nth_error_In; exact Hx.
    - rewrite nth_error_app2 in Hx by exact G. assert (k - length d = 0)%nat as Q by (destruct (k - length d)%nat as [|[|m]]; cbn in Hx; congruence). rewrite Q in Hx. cbn in Hx. injection Hx as <-. rewrite Nat.eqb_refl, Hc. lia. }
  assert (forall c', c_links c' = c_links c -> numbered c' d) as Keep by (intros c' E k x Hx; unfold index_of; rewrite E; apply Nd; exact Hx).
  unfold r; clear r. destruct p; try (elim (NO eq_refl)); cbn [act first_hand level] in *.
  all: try (exists d; cbn [fst snd first_hand level]; split; [reflexivity|]; split; [apply Keep; reflexivity|]; cbn; intuition lia).
  - exists (d ++ [s]). cbn [fst snd first_hand level]. split; [apply app_nil_r|]. split; [apply (Idx s); auto; intros x; unfold index_of; cbn; destruct (Nat.eqb x s); reflexivity|]. rewrite app_length. cbn [length set_index c_cur]. lia.
  - exists d. cbn [fst snd first_hand level]. split; [reflexivity|]. split; [|cbn; exact Lv]. intros k x Hx. unfold index_of. cbn. destruct (Nat.eqb_spec x s) as [->|]; [cbn|]; apply Nd; exact Hx.
  - exists d. cbn [fst snd first_hand level]. split; [reflexivity|]. split; [apply Keep; reflexivity|]. cbn [set_cur c_cur]. destruct Lv as (-> & _). replace (Z.of_nat (length d) - 1 + 1) with (Z.of_nat (length d)) by lia. apply int32_id. unfold in_int32. cbn [first_hand length] in Lu. lia.
  - exists (d ++ [s]). cbn [fst snd first_hand level]. split; [apply app_nil_r|]. split; [apply (Idx s); auto; intros x; unfold index_of; cbn; destruct (Nat.eqb x s); reflexivity|]. rewrite app_length. cbn [length set_index c_cur]. lia.
  - exists d. cbn [fst snd first_hand level]. split; [reflexivity|]. split; [|cbn; exact Lv]. intros k x Hx. unfold index_of. cbn. destruct (Nat.eqb_spec x s) as [->|]; [cbn|]; apply Nd; exact Hx.
  - exists d. cbn [fst snd first_hand level]. split; [reflexivity|]. split; [apply Keep; reflexivity|]. cbn [set_cur c_cur]. destruct Lv as (-> & _). replace (Z.of_nat (length d) - 1 + 1) with (Z.of_nat (length d)) by lia. apply int32_id. unfold in_int32. cbn [first_hand length] in Lu. lia.
  - destruct (Nat.ltb _ _); exists d; cbn [fst snd first_hand level]; (split; [reflexivity|]); (split; [apply Keep; reflexivity|]); exact Lv.
  - destruct (Nat.leb _ _); exists d; cbn [fst snd first_hand level]; (split; [reflexivity|]); (split; [apply Keep; reflexivity|]); exact Lv.
  - destruct (Nat.ltb _ _); [|exists d; cbn [fst snd first_hand level]; (split; [reflexivity|]); (split; [apply Keep; reflexivity|]); exact Lv]. cbv zeta. destruct (_ || _); exists d; cbn [fst snd first_hand level]; (split; [reflexivity|]); (split; [apply Keep; reflexivity|]); exact Lv.
  - destruct (Nat.ltb _ _); exists d; cbn [fst snd first_hand level]; (split; [reflexivity|]); (split; [apply Keep; reflexivity|]); exact Lv.
  - destruct (Nat.leb _ _); exists d; cbn [fst snd first_hand level]; (split; [reflexivity|]); (split; [apply Keep; reflexivity|]); exact Lv.
Qed.

Lemma numbers_step U y i d : NoDup U -> Z.of_nat (length U) < 2^31 -> numbers U y d -> (length (filter busy (y_thr y)) <= 1)%nat -> (length (filter busy (y_thr (sys_step keep bulk i y))) <= 1)%nat -> exists d', numbers U (sys_step keep bulk i y) d'.
Proof.
  intros ND LU [Na Nn Nl] B1. unfold sys_step. destruct (nth_error (y_thr y) i) as [[p r]|] eqn:E; [|intros _; exists d; constructor; assumption].
  destruct (put_split _ _ _ E) as (l1 & l2 & El & _ & Pt).
  assert ((p = Out) \/ p <> Out) as [Po|Po] by (destruct p; (left; reflexivity) || (right; discriminate)).
  - subst p. destruct r as [|o r]; cbn [step_thread].
    + rewrite Pt, <- El. intros _. exists d. constructor; assumption.
    + rewrite Pt. cbn [y_thr y_coll]. rewrite El in B1, Na, Nl. rewrite !filter_app in *. cbn [filter] in *. assert (busy (begin o, r) = true) as Bo by (destruct o; reflexivity). rewrite Bo. cbn [busy fst] in B1. rewrite !app_length. cbn [length]. intros B2.
      destruct (filter busy l1) as [|] eqn:F1; [|cbn in B2; lia]. destruct (filter busy l2) as [|] eqn:F2; [|cbn in B2; lia].
      assert (active (l1 ++ (Out, o :: r) :: l2) = Out) as A1 by (unfold active; rewrite filter_app, F1; cbn; rewrite F2; reflexivity).
      assert (active (l1 ++ (begin o, r) :: l2) = begin o) as A2 by (unfold active; rewrite filter_app, F1; cbn [filter app]; rewrite Bo; reflexivity).
      exists d. constructor; cbn [y_thr y_coll].
      * rewrite flat_map_app in *. cbn [flat_map] in *. assert (to_start (Out, o :: r) = to_start (begin o, r)) as <- by (destruct o; reflexivity). exact Na.
      * exact Nn.
      * rewrite A2. rewrite A1 in Nl. destruct o; exact Nl.
  - rewrite step_busy by exact Po. rewrite Pt. cbn [y_thr y_coll]. rewrite El in B1, Na, Nl. rewrite filter_app in B1. cbn [filter] in B1. rewrite busy_ne, app_length in B1 by exact Po. cbn [length] in B1.
    intros _. destruct (filter busy l1) as [|] eqn:F1; [|cbn in B1; lia]. destruct (filter busy l2) as [|] eqn:F2; [|cbn in B1; lia].
    assert (forall q, active (l1 ++ (q, r) :: l2) = q) as A.
    { intros q. unfold active. rewrite filter_app, F1. cbn [filter app]. rewrite F2. destruct q; reflexivity. }
    rewrite A in Nl.
    assert (forall d p, Permutation (d ++ flat_map to_start (l1 ++ (p, r) :: l2)) ((d ++ first_hand p) ++ flat_map to_start l1 ++ started r ++ flat_map to_start l2)) as Rt.
    { clear. intros d p. rewrite flat_map_app. cbn [flat_map]. unfold to_start at 2. cbn [fst snd]. rewrite <- !app_assoc. apply Permutation_app_head. rewrite app_assoc, (Permutation_app_comm (flat_map to_start l1)), <- app_assoc. reflexivity. }
    rewrite Rt in Na.
    destruct (act_level p (y_coll y) d (length U) Po Nn Nl) as (d' & E1 & E2 & E3).
    + apply (Permutation_NoDup (Permutation_sym Na)) in ND. apply nodup_left in ND. exact ND.
    + apply Permutation_length in Na. rewrite <- Na. rewrite (app_length (d ++ first_hand p)). lia.
    + exact LU.
    + exists d'. constructor; cbn [y_thr y_coll]; [rewrite Rt, E1; exact Na|exact E2|rewrite A; exact E3].
Qed.
Lemma numbers_run progs sched : NoDup (all_started progs) -> Z.of_nat (length (all_started progs)) < 2^31 -> one_at_a_time keep bulk progs sched ->
  exists d, numbers (all_started progs) (sys_run keep bulk sched (psys0 keep progs)) d.
Proof.
  intros ND LU. induction sched as [|i sched IH] using rev_ind; intros O.
  - exists []. constructor; cbn [sys_run fold_left psys0 y_thr y_coll].
    + cbn [app]. unfold all_started. clear. induction progs; cbn; [constructor|]. apply Permutation_app_head. assumption.
    + intros [|k] s H; discriminate.
    + unfold active. rewrite start_idle. reflexivity.
  - assert (sys_run keep bulk (sched ++ [i]) (psys0 keep progs) = sys_step keep bulk i (sys_run keep bulk sched (psys0 keep progs))) as E by (unfold sys_run; rewrite fold_left_app; reflexivity).
    destruct IH as (d & Hd); [intros p r Er; apply (O p (r ++ [i])); rewrite Er, app_assoc; reflexivity|]. rewrite E. apply (numbers_step _ _ _ d ND LU Hd).
    + apply (O sched [i] eq_refl).
    + rewrite <- E. apply (O _ []). rewrite app_nil_r. reflexivity.
Qed.
End Indices.
