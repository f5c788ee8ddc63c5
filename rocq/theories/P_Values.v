(** C84: listing the active services (or any cache) while others are added and removed. *)
From Verif Require Import GoInt M_Cache S_Cache L_Cache M_Values S_Values L_Values P_Cache.
From Coq Require Import Permutation.

Lemma run_wf cap log c : lra_run cap log c -> wf c.
Proof. intros R. destruct (lra_run_inv _ _ _ R) as (W & _). exact W. Qed.

(** what is listed was in the cache at some moment between the call and the return *)
Theorem C84_nothing_else cap log c0 cs s v : lra_run cap log c0 -> listing c0 cs s -> In v (i_out (v_it s)) -> exists k, sometime cs k v.
Proof.
  intros R L H. destruct (listing_inv _ _ _ (run_wf _ _ _ R) L) as (ps & [_ B _ D _ _ G _ _]). rewrite D in H. unfold non_nil in H. apply filter_In in H as (H & _).
  apply in_map_iff in H as ([a x] & <- & Hp). destruct (G a x Hp) as (c & k & Hc & Hl). exists k, c. split; [exact Hc|]. apply (in_list_held c a k x (proj1 (Forall_forall _ _) B _ Hc) Hl).
Qed.
(** what was in the cache all the time is listed *)
Theorem C84_all cap log c0 cs s k v : lra_run cap log c0 -> listing c0 cs s -> v_ends s -> throughout cs k (Some v) -> In (Some v) (i_out (v_it s)).
Proof.
  intros R L (E1 & E2) T. pose proof (run_wf _ _ _ R) as W0. destruct (listing_inv _ _ _ W0 L) as (ps & [A B _ D E _ G _ _]).
  destruct (listing_same _ _ _ k W0 L ltac:(intros c Hc; apply (T c Hc))) as (O & St & I & Sm).
  destruct (T c0 I) as (Tc & _). unfold lra_contains in Tc. destruct (alook k (table c0)) as [a0|] eqn:E0; [|discriminate].
  assert (In a0 (i_seen (v_it s))) as Hs. { apply (E2 (k, a0)); [rewrite St; apply alook_In; exact E0|]. unfold i_table. rewrite O. apply alook_In. apply Sm. exact A. }
  rewrite E1 in E. cbn [cur_list app] in E. apply (Permutation_in _ E) in Hs. apply in_map_iff in Hs as ([a x] & E3 & Hp). cbn in E3. subst a. destruct (G a0 x Hp) as (c & k' & Hc & Hl).
  pose proof (proj1 (Forall_forall _ _) B _ Hc) as Wc. pose proof (table_lookup c k Wc) as TL. rewrite (Sm c Hc) in TL. destruct TL as (v' & l1 & l2 & _ & _ & El). destruct (T c Hc) as (_ & Tv). unfold lra_get in Tv. rewrite (Sm c Hc), El in Tv. cbn in Tv. subst v'.
  rewrite elem_at_alook in El. apply (alook_in a0 _ _ (wf_addr c Wc)) in Hl. rewrite Hl in El. injection El as -> ->. rewrite D. apply in_non_nil, in_map_iff. exists (a0, Some v). auto.
Qed.
(** once, if no other key held the same value *)
Theorem C84_once cap log c0 cs s k v : lra_run cap log c0 -> listing c0 cs s -> v_ends s -> throughout cs k (Some v) -> (forall k', sometime cs k' (Some v) -> k' = k) ->
  times (Some v) (i_out (v_it s)) = 1%nat.
Proof.
  intros R L En T U. pose proof (C84_all _ _ _ _ _ _ _ R L En T) as H. pose proof (run_wf _ _ _ R) as W0. destruct (listing_inv _ _ _ W0 L) as (ps & [A B _ D E F G _ _]).
  destruct (listing_same _ _ _ k W0 L ltac:(intros c Hc; apply (T c Hc))) as (_ & _ & I & Sm). destruct En as (E1 & _). rewrite E1 in E. cbn [cur_list app] in E.
  rewrite D in *. unfold non_nil in H. apply filter_In in H as (H & _). apply in_map_iff in H as ([a0 x] & Ex & Hp). cbn in Ex. subst x. apply (times_one v ps a0); [apply (Permutation_NoDup E); exact F|exact Hp|].
  assert (forall a, In (a, Some v) ps -> alook k (table c0) = Some a) as Q.
  { intros a Ha. destruct (G a _ Ha) as (c & k' & Hc & Hl). destruct (in_list_held c a k' _ (proj1 (Forall_forall _ _) B _ Hc) Hl) as (Q & Hh). assert (k' = k) as -> by (apply U; exists c; auto). rewrite <- (Sm c Hc). exact Q. }
  intros a Ha. apply Q in Ha. apply Q in Hp. congruence.
Qed.
(** the call is never stuck: it can return, or go to the next entry, or handle the one it has *)
Theorem C84_goes_on cap log c0 cs s : lra_run cap log c0 -> listing c0 cs s ->
  v_ends s \/ (exists k a, i_cur (v_it s) = None /\ In (k, a) (i_table s) /\ ~ In a (i_seen (v_it s))) \/ exists a e, i_cur (v_it s) = Some a /\ element s a = Some e.
Proof.
  intros R L. destruct (listing_inv _ _ _ (run_wf _ _ _ R) L) as (ps & [_ _ _ _ _ _ _ _ I]). destruct (i_cur (v_it s)) as [a|] eqn:E.
  - right. right. destruct (element_some s a (I a eq_refl)) as (e & He). exists a, e. auto.
  - assert ((forall e, In e (i_table s) -> In (snd e) (i_seen (v_it s))) \/ exists e, In e (i_table s) /\ ~ In (snd e) (i_seen (v_it s))) as [H|((k & a) & H1 & H2)].
    { induction (i_table s) as [|e l IH]; [left; intros e []|]. destruct (in_dec Z.eq_dec (snd e) (i_seen (v_it s))) as [Y|N]; [|right; exists e; split; [left; reflexivity|exact N]].
      destruct IH as [IH|(e' & H1 & H2)]; [left; intros e' [<-|H']; auto|right; exists e'; split; [right; exact H1|exact H2]]. }
    + left. split; [exact E|]. intros e _ He. apply H. exact He.
    + right. left. exists k, a. auto.
Qed.

(** ** but the list need not have been true at any moment: 1 is listed, removed, 2 is added and listed *)
Definition one : lra := fst (lra_add (lra_new 10) 1 (Some 11)).
Definition mixed : vsys := v_take (mkEntry 2 (Some 22)) (v_next 1 (v_write (CAdd 2 (Some 22)) (v_write (CRemove 1) (v_take (mkEntry 1 (Some 11)) (v_next 0 (v_begin one)))))).
Lemma mixed_listing : exists cs, listing one cs mixed /\ v_ends mixed /\ forall c, In c cs -> ~ (held c 1 (Some 11) /\ held c 2 (Some 22)).
Proof.
  assert (listing one [one] (v_take (mkEntry 1 (Some 11)) (v_next 0 (v_begin one)))) as L1.
  { eapply (li_take _ _ _ 0); [eapply (li_next _ _ _ 1); [apply li_begin|reflexivity|left; reflexivity|intros []]|reflexivity|reflexivity]. }
  pose proof (li_write _ _ _ (CAdd 2 (Some 22)) (li_write _ _ _ (CRemove 1) L1)) as L2.
  eexists. split; [|split].
  - eapply (li_take _ _ _ 1); [eapply (li_next _ _ _ 2 1); [exact L2|reflexivity|left; reflexivity|intros [H|[]]; discriminate]|reflexivity|reflexivity].
  - split; [reflexivity|]. intros e He Ht. vm_compute in He, Ht. destruct He as [<-|[]]. destruct Ht as [H|[]]. discriminate.
  - intros c [<-|[<-|[<-|[]]]] ((H1 & H2) & H3 & H4); vm_compute in *; discriminate.
Qed.
Theorem C84_snapshot_refuted : exists c0 cs s log, lra_run 10 log c0 /\ listing c0 cs s /\ v_ends s /\ i_out (v_it s) = [Some 11; Some 22] /\ forall c, In c cs -> ~ (held c 1 (Some 11) /\ held c 2 (Some 22)).
Proof. destruct mixed_listing as (cs & L & En & N). exists one, cs, mixed. eexists. split; [apply run_add, run_new|]. split; [exact L|]. split; [exact En|]. split; [reflexivity|exact N]. Qed.

(** ** a listing during which one entry stays and another is replaced *)
Definition pair : lra := fst (lra_add one 5 (Some 55)).
Example C84_case : exists cs s, listing pair cs s /\ v_ends s /\ throughout cs 5 (Some 55) /\ (forall k, sometime cs k (Some 55) -> k = 5) /\ i_out (v_it s) = [Some 11; Some 55].
Proof.
  assert (listing pair [pair] (v_take (mkEntry 1 (Some 11)) (v_next 0 (v_begin pair)))) as L1.
  { eapply (li_take _ _ _ 0); [eapply (li_next _ _ _ 1); [apply li_begin|reflexivity|right; left; reflexivity|intros []]|reflexivity|reflexivity]. }
  pose proof (li_write _ _ _ (CRemove 1) L1) as L2.
  eexists. exists (v_take (mkEntry 5 (Some 55)) (v_next 1 (v_write (CRemove 1) (v_take (mkEntry 1 (Some 11)) (v_next 0 (v_begin pair)))))). split; [|split; [|split; [|split]]].
  - eapply (li_take _ _ _ 1); [eapply (li_next _ _ _ 5 1); [exact L2|reflexivity|left; reflexivity|intros [H|[]]; discriminate]|reflexivity|reflexivity].
  - split; [reflexivity|]. intros e He Ht. vm_compute in Ht |- *. destruct Ht as [<-|[]]. left. reflexivity.
  - intros c [<-|[<-|[]]]; split; reflexivity.
  - intros k (c & [<-|[<-|[]]] & _ & H); unfold lra_get in H; cbn in H; destruct (Z.eqb_spec k 5) as [Ek|]; try exact Ek; try discriminate; destruct (k =? 1); discriminate.
  - reflexivity.
Qed.

Print Assumptions C84_nothing_else.
Print Assumptions C84_all.
Print Assumptions C84_once.
Print Assumptions C84_goes_on.
Print Assumptions C84_snapshot_refuted.
