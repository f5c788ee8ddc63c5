From Verif Require Import GoInt M_OutX L_Codec M_Value S_Wire S_Value L_Value M_Packs S_Packs L_Packs M_Udp S_Udp L_Udp M_Net S_Net L_Net P_Net M_NetLimit S_NetLimit L_NetLimit.
From Coq Require Import ZifyBool Permutation.

Record linv (qcap lo : Z) (qs ps : list pack) (s : lnet) (cq cd : list tparcel) (kept : list pack) : Prop := {
  li_len : length (l_max s) = length (x_clients (l_net s)) /\ (0 < length (l_max s))%nat;
  li_max : Forall (fun m => lo <= m <= 2147483647) (l_max s);
  li_u : uinv2 qcap lo (x_u (l_net s));
  li_acc : Permutation (accepted (x_u (l_net s))) (flat_map tbufs cq ++ held_of (x_u (l_net s)) ++ queue (x_u (l_net s)));
  li_kept : part_of kept qs;
  li_keptb : accepted (x_u (l_net s)) = map bytes_of kept;
  li_drop : (length (dropped (x_u (l_net s))) + length kept = length qs)%nat;
  li_dir : Forall2 (fun c p => tbufs c = [bytes_of p]) cd ps;
  li_qs : Forall (proper lo) qs;
  li_ps : Forall (proper lo) ps;
  li_okq : Forall tok cq;
  li_okd : Forall tok cd;
  li_keys : NoDup (flat_map tkey cq ++ flat_map tkey cd);
  li_made : Permutation (x_made (l_net s)) (flat_map tgrams cq ++ flat_map tgrams cd);
  li_where : Permutation (map snd (x_sent (l_net s) ++ x_lost (l_net s) ++ x_uout (l_net s) ++ concat (x_jobs (l_net s)))) (x_made (l_net s))
}.

Lemma cur_in lo s : length (l_max s) = length (x_clients (l_net s)) /\ (0 < length (l_max s))%nat -> Forall (fun m => lo <= m <= 2147483647) (l_max s) -> lo <= cur_max s <= 2147483647.
Proof.
  intros (L & P) F. rewrite Forall_forall in F. apply F. unfold cur_max, current. apply nth_In. lia.
Qed.
Lemma tparcel_in_keys cs k : Forall tok cs -> In k (flat_map tkey cs) -> In k (keys_of (flat_map tgrams cs)).
Proof.
  intros O I. apply in_flat_map in I as (c & Ic & Ik). rewrite Forall_forall in O. destruct (O c Ic) as (Hm & Oc).
  pose proof (parcel_in_keys (fst c) [snd c] k Hm ltac:(constructor; [exact Oc|constructor]) ltac:(cbn [flat_map]; rewrite app_nil_r; exact Ik)) as H. cbn [flat_map] in H. rewrite app_nil_r in H.
  unfold keys_of in *. apply in_flat_map in H as (d & Id & Ed). apply in_flat_map. exists d. split; [|exact Ed]. apply in_flat_map. exists c. split; [exact Ic|exact Id].
Qed.
Lemma tkeys_join made cq cd cs : Forall tok cq -> Forall tok cd -> Forall tok cs -> NoDup (flat_map tkey cs) ->
  NoDup (flat_map tkey cq ++ flat_map tkey cd) -> Permutation made (flat_map tgrams cq ++ flat_map tgrams cd) ->
  (forall k, In k (keys_of (flat_map tgrams cs)) -> ~ In k (keys_of made)) ->
  NoDup (flat_map tkey cs ++ flat_map tkey cq ++ flat_map tkey cd).
Proof.
  intros Oq Od Os Ns N P F.
  assert (forall k, In k (flat_map tkey cs) -> ~ In k (flat_map tkey cq ++ flat_map tkey cd)) as D.
  { intros k Ik I. apply (F k); [apply tparcel_in_keys; assumption|]. apply (keys_perm _ _ _ (Permutation_sym P)). unfold keys_of. rewrite flat_map_app. apply in_or_app.
    apply in_app_or in I as [I|I]; [left|right]; apply tparcel_in_keys; assumption. }
  clear - Ns N D. induction (flat_map tkey cs) as [|k l IH]; [exact N|]. apply NoDup_cons_iff in Ns as (N1 & N2). cbn [app]. constructor.
  - intros I. apply in_app_or in I as [I|I]; [exact (N1 I)|]. apply (D k); [left; reflexivity|exact I].
  - apply IH; [exact N2|]. intros x X. apply D. right. exact X.
Qed.
Lemma tag_all m cs : Forall (parcel_ok m) cs -> 0 < m <= 2147483647 -> Forall tok (map (pair m) cs).
Proof. intros O H. apply Forall_map. eapply Forall_impl; [|exact O]. intros c Oc. split; assumption. Qed.
Lemma tag_grams m cs : flat_map tgrams (map (pair m) cs) = flat_map (grams m) cs.
Proof. induction cs as [|c cs IH]; [reflexivity|]. cbn [map flat_map]. rewrite IH. reflexivity. Qed.
Lemma tag_bufs m cs : flat_map tbufs (map (pair m) cs) = flat_map bufs cs.
Proof. induction cs as [|c cs IH]; [reflexivity|]. cbn [map flat_map]. rewrite IH. reflexivity. Qed.
Lemma tag_keys m cs : flat_map tkey (map (pair m) cs) = flat_map parcel_key cs.
Proof. induction cs as [|c cs IH]; [reflexivity|]. cbn [map flat_map]. rewrite IH. reflexivity. Qed.
Lemma keys_nodup (pkids : nat -> Z) k : (forall i j, Z.of_nat i < 32768 -> Z.of_nat j < 32768 -> pkids i = pkids j -> i = j) -> Z.of_nat k < 32768 -> NoDup (map pkids (seq 0 k)).
Proof.
  intros Inj L. assert (forall n a, Z.of_nat (a + n) < 32768 -> NoDup (map pkids (seq a n))) as H; [|apply H; exact L].
  induction n as [|n IH]; intros a La; cbn [seq map]; constructor.
  - intros I. apply in_map_iff in I as (j & E & I). apply in_seq in I. apply Inj in E; lia.
  - apply IH. lia.
Qed.

Ltac keep_all := constructor; cbn [l_net l_max x_u x_uout x_jobs x_sent x_lost x_made x_clients]; try assumption.
Lemma changing_inv qcap lo qs ps s : 0 < lo -> qcap <= 32767 -> changing qcap lo qs ps s -> exists cq cd kept, linv qcap lo qs ps s cq cd kept.
Proof.
  intros H0 Hq H. induction H as [conn max Hx|qs ps p s H IH Pp|qs ps p pkid s s' H IH Pp Hk E F|qs ps thr pkids s s' H IH Hk Inj E F|qs ps s H IH|qs ps i s H IH|qs ps conn max s H IH Hx|qs ps c s H IH].
  - exists [], [], []. constructor; try constructor; try reflexivity; try assumption; try constructor; try (cbn; lia).
  - destruct IH as (cq & cd & kept & I). destruct I as [Ln Mx U A K Kb D Di Q P Oq Od N M W]. pose proof Pp as (G & V & L).
    assert (good lo (bytes_of p)) as Gb by (split; [apply bytes_nonempty; assumption|exact L]).
    pose proof (u2_add qcap lo (bytes_of p) _ Gb U) as U'.
    assert (Forall (proper lo) (qs ++ [p])) as Q' by (apply Forall_app; split; [exact Q|constructor; [exact Pp|constructor]]).
    unfold l_add_pack, net_add_pack in *. destruct (zlen (queue (x_u (l_net s))) <? qcap) eqn:Z.
    + exists cq, cd, (kept ++ [p]). keep_all.
      * unfold add_buffer. rewrite Z. cbn [accepted queue]. unfold held_of in *. cbn [snd_state]. rewrite A, <- !app_assoc. reflexivity.
      * apply part_snoc, K.
      * unfold add_buffer. rewrite Z. cbn [accepted]. rewrite Kb, map_app. reflexivity.
      * unfold add_buffer. rewrite Z. cbn [dropped]. rewrite !app_length. cbn [length]. lia.
    + exists cq, cd, kept. keep_all.
      * unfold add_buffer. rewrite Z. exact A.
      * apply part_snoc_drop, K.
      * unfold add_buffer. rewrite Z. exact Kb.
      * unfold add_buffer. rewrite Z. cbn [dropped]. rewrite !app_length. cbn [length]. lia.
  - destruct IH as (cq & cd & kept & I). destruct I as [Ln Mx U A K Kb D Di Q P Oq Od N M W]. pose proof Pp as (G & V & L).
    pose proof (cur_in lo s Ln Mx) as Hm. set (m := cur_max s) in *. assert (0 < m <= 2147483647) as Hm' by lia.
    assert (good m (bytes_of p)) as Gb by (apply (good_mono lo); [lia|lia|]; split; [apply bytes_nonempty; assumption|exact L]).
    destruct (single_parcel m pkid _ Hm' Hk Gb) as (c & Ec & Bc & Oc & Kc). unfold l_direct, net_direct in E. fold m in E. rewrite Ec in E. cbn [option_map] in E. injection E as <-.
    unfold new_keys in F. cbn [l_net x_made] in F. rewrite skip_app in F.
    exists cq, (cd ++ [(m, c)]), kept. keep_all.
    * apply Forall2_app; [exact Di|constructor; [exact Bc|constructor]].
    * apply Forall_app; split; [exact P|constructor; [exact Pp|constructor]].
    * apply Forall_app; split; [exact Od|constructor; [split; assumption|constructor]].
    * assert (NoDup (flat_map tkey [(m, c)] ++ flat_map tkey cq ++ flat_map tkey cd)) as N'.
      { apply (tkeys_join (x_made (l_net s)) cq cd [(m, c)]); try assumption; [constructor; [split; assumption|constructor]| |].
        - cbn [flat_map]. rewrite app_nil_r. unfold tkey. cbn [snd]. destruct Kc as [-> | ->]; [constructor|constructor; [intros []|constructor]].
        - cbn [flat_map]. rewrite app_nil_r. exact F. }
      eapply Permutation_NoDup; [|exact N']. rewrite flat_map_app, !app_assoc. rewrite <- app_assoc. apply Permutation_app_comm.
    * rewrite flat_map_app. cbn [flat_map]. rewrite app_nil_r, app_assoc. apply Permutation_app_tail, M.
    * rewrite concat_app. cbn [concat]. rewrite app_nil_r, !app_assoc, map_app, map_pair_snd. apply Permutation_app_tail. rewrite <- !app_assoc. exact W.
  - destruct IH as (cq & cd & kept & I). destruct I as [Ln Mx U A K Kb D Di Q P Oq Od N M W]. unfold l_sender in E. cbv zeta in E.
    destruct (x_uout (l_net s)) as [|? ?] eqn:Eo; [|injection E as <-; exists cq, cd, kept; constructor; try assumption; rewrite Eo; exact W].
    pose proof (cur_in lo s Ln Mx) as Hm. set (m := cur_max s) in *. assert (0 < m <= 2147483647) as Hm' by lia.
    destruct (u2_step qcap lo thr m pkids (x_u (l_net s)) H0 Hm Hq Hk U) as (u & cs & k & Eu & U' & Ew & Eb & Oc & Kc & Lk & Ea & Ed & _).
    rewrite Eu in E. injection E as <-.
    rewrite Ew, skip_app in *. unfold new_keys in F. cbn [l_net x_made] in F. rewrite skip_app in F.
    exists (cq ++ map (pair m) cs), cd, kept. keep_all.
    * rewrite Ea, A, Eb, flat_map_app, tag_bufs, <- !app_assoc. reflexivity.
    * rewrite Ea. exact Kb.
    * rewrite Ed. exact D.
    * apply Forall_app; split; [exact Oq|apply tag_all; assumption].
    * assert (NoDup (flat_map tkey (map (pair m) cs) ++ flat_map tkey cq ++ flat_map tkey cd)) as N'.
      { apply (tkeys_join (x_made (l_net s)) cq cd); try assumption; [apply tag_all; assumption|rewrite tag_keys, Kc; apply keys_nodup; assumption|rewrite tag_grams; exact F]. }
      eapply Permutation_NoDup; [|exact N']. rewrite flat_map_app, !app_assoc. apply Permutation_app_tail, Permutation_app_comm.
    * rewrite flat_map_app, M, tag_grams. rewrite <- !app_assoc. apply Permutation_app_head, Permutation_app_comm.
    * rewrite <- W. rewrite !map_app, map_pair_snd. cbn [map app]. rewrite <- !app_assoc. do 2 apply Permutation_app_head. apply Permutation_app_comm.
  - destruct IH as (cq & cd & kept & I). exists cq, cd, kept. destruct I as [Ln Mx U A K Kb D Di Q P Oq Od N M W]. unfold l_move, net_write_sender.
    destruct (x_uout (l_net s)) as [|d more] eqn:Eo; [constructor; cbn [l_net l_max]; rewrite ?Eo; assumption|].
    set (s1 := mkNet _ _ _ _ _ _ _). destruct (put_rest d s1) as (R1 & R2 & R3 & R4 & R5). constructor; cbn [l_net l_max]; rewrite ?R1, ?R2, ?R3, ?R4, ?R5; subst s1; cbn [x_u x_uout x_jobs x_sent x_lost x_made x_clients]; try assumption.
    rewrite put_where. exact W.
  - destruct IH as (cq & cd & kept & I). exists cq, cd, kept. destruct I as [Ln Mx U A K Kb D Di Q P Oq Od N M W]. unfold l_move, net_write_job. destruct (nth_error (x_jobs (l_net s)) i) as [[|d more]|] eqn:Eo; try (constructor; cbn [l_net l_max]; assumption).
    set (s1 := mkNet _ _ _ _ _ _ _). destruct (put_rest d s1) as (R1 & R2 & R3 & R4 & R5). constructor; cbn [l_net l_max]; rewrite ?R1, ?R2, ?R3, ?R4, ?R5; subst s1; cbn [x_u x_uout x_jobs x_sent x_lost x_made x_clients]; try assumption.
    rewrite put_where. etransitivity; [|exact W]. apply Permutation_map. cbn [x_sent x_lost]. do 2 apply Permutation_app_head. rewrite (job_split _ _ _ _ Eo). apply Permutation_middle.
  - destruct IH as (cq & cd & kept & I). exists cq, cd, kept. destruct I as [Ln Mx U A K Kb D Di Q P Oq Od N M W]. unfold l_reload, net_reload. keep_all.
    + rewrite !app_length. cbn [length]. lia.
    + apply Forall_app. split; [exact Mx|constructor; [exact Hx|constructor]].
  - destruct IH as (cq & cd & kept & I). exists cq, cd, kept. destruct I as [Ln Mx U A K Kb D Di Q P Oq Od N M W]. unfold l_move, net_close. destruct (c <? current (l_net s))%nat; [|constructor; cbn [l_net l_max]; assumption].
    destruct (nth_error (x_clients (l_net s)) c) eqn:Ec; [|constructor; cbn [l_net l_max]; assumption]. keep_all.
    assert (length (firstn c (x_clients (l_net s)) ++ mkClient (cl_conn c0) false :: skipn (S c) (x_clients (l_net s))) = length (x_clients (l_net s))) as ->; [|exact Ln].
    assert (c < length (x_clients (l_net s)))%nat as Lc by (apply nth_error_Some; congruence). rewrite app_length, firstn_length. cbn [length]. rewrite skipn_length. lia.
Qed.

Lemma tparcels_of qcap lo qs ps s cq cd kept : linv qcap lo qs ps s cq cd kept ->
  exists pss waiting, Forall2 tholds (cq ++ cd) pss /\ Permutation (concat pss ++ waiting) (kept ++ ps) /\ held_of (x_u (l_net s)) ++ queue (x_u (l_net s)) = map bytes_of waiting /\
    exists pq pd, pss = pq ++ pd /\ concat pd = ps /\ Forall2 tholds cq pq /\ Forall2 tholds cd pd /\ some_of (concat pq) kept.
Proof.
  intros I. destruct I as [Ln Mx U A K Kb D Di Q P Oq Od N M W].
  assert (Forall sane kept) as Sk by (eapply Forall_impl; [|eapply part_Forall; [exact K|exact Q]]; intros p Hp; apply (proper_sane lo), Hp).
  rewrite Kb in A. symmetry in A. apply Permutation_map_inv in A as (kept' & E & Pk).
  assert (Forall sane kept') as Sk' by (rewrite Forall_forall in *; intros x X; apply Sk; eapply Permutation_in; [symmetry; exact Pk|exact X]).
  assert (flat_map tbufs cq = flat_map bufs (map snd cq)) as Eb by (clear; induction cq as [|c cs IH]; [reflexivity|]; cbn [map flat_map]; rewrite IH; reflexivity).
  rewrite Eb in E. symmetry in E. destruct (parcels_hold (map snd cq) kept' _ E Sk') as (pq & k2 & Ek & Hq & Et).
  assert (forall (cs : list tparcel) pss, Forall2 holds (map snd cs) pss -> Forall2 tholds cs pss) as Up.
  { induction cs as [|c cs IH]; intros pss F; inversion_clear F; constructor; [assumption|]. apply IH. assumption. }
  destruct (dir_holds lo (map snd cd) ps) as (pd & Hd & Ed); [|exact P|].
  { clear - Di. induction Di; constructor; assumption. }
  exists (pq ++ pd), k2. split; [apply Forall2_app; apply Up; assumption|]. split; [|split; [exact Et|]].
  - rewrite concat_app, Ed, Pk, Ek. rewrite <- !app_assoc. apply Permutation_app_head, Permutation_app_comm.
  - exists pq, pd. split; [reflexivity|]. split; [exact Ed|]. split; [apply Up; exact Hq|]. split; [apply Up; exact Hd|]. exists k2. rewrite Pk, Ek. reflexivity.
Qed.
