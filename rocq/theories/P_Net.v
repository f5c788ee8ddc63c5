(** Property C77: packs handed to the sender, by either of its paths, and what the collector makes of the datagrams. *)
From Verif Require Import GoInt M_OutX L_Codec M_Value S_Wire S_Value L_Value M_Packs S_Packs L_Packs M_Udp S_Udp L_Udp M_Net S_Net L_Net.
From Coq Require Import ZifyBool Permutation.

Lemma proper_sane max p : proper max p -> sane p.
Proof. intros (G & N & _). split; assumption. Qed.
Lemma dir_holds max cd ps : Forall2 (fun c p => bufs c = [bytes_of p]) cd ps -> Forall (proper max) ps -> exists pss, Forall2 holds cd pss /\ concat pss = ps.
Proof.
  induction 1 as [|c p cd ps H F IH]; intros P; [exists []; split; [constructor|reflexivity]|]. inversion_clear P as [|? ? P1 P2]. destruct (IH P2) as (pss & H2 & E).
  exists ([p] :: pss). split; [constructor; [split; [exact H|constructor; [apply (proper_sane max), P1|constructor]]|exact H2]|]. cbn [concat app]. rewrite E. reflexivity.
Qed.
Lemma parcels_of qcap max qs ps s cq cd kept : ninv qcap max qs ps s cq cd kept ->
  exists pss waiting, Forall2 holds (cq ++ cd) pss /\ Permutation (concat pss ++ waiting) (kept ++ ps) /\ held_of (x_u s) ++ queue (x_u s) = map bytes_of waiting.
Proof.
  intros I. destruct I as [U A K Kb D Di Q P Oq Od N M W].
  assert (Forall sane kept) as Sk by (eapply Forall_impl; [|eapply part_Forall; [exact K|exact Q]]; intros p Hp; apply (proper_sane max), Hp).
  rewrite Kb in A. destruct (parcels_hold cq kept _ A Sk) as (pq & k2 & E & Hq & Et). destruct (dir_holds max cd ps Di P) as (pd & Hd & Ed).
  exists (pq ++ pd), k2. split; [apply Forall2_app; assumption|]. split; [|exact Et]. rewrite concat_app, Ed, E. rewrite <- !app_assoc. apply Permutation_app_head, Permutation_app_comm.
Qed.

(** Whatever the schedule, whatever happens to the sockets and whichever datagrams arrive in whatever order: the collector reads only packs
    that were handed over, each at most as often as it was. *)
Theorem C77_no_invention qcap max qs ps s received : 0 < max <= 2147483647 -> qcap <= 32767 -> history qcap max qs ps s ->
  some_of received (map snd (x_sent s)) -> some_of (collector received) (map collector_pack (qs ++ ps)).
Proof.
  intros Hm Hq H R. destruct (history_inv _ _ _ _ _ Hm Hq H) as (cq & cd & kept & I). destruct (parcels_of _ _ _ _ _ _ _ _ I) as (pss & wt & Hh & Ep & _).
  destruct I as [U A K Kb D Di Q P Oq Od N M W].
  assert (some_of received (flat_map (grams max) (cq ++ cd))) as Sr.
  { eapply some_trans; [exact R|]. eapply some_perm; [reflexivity|rewrite flat_map_app, <- M; exact W|]. rewrite map_app. eexists. reflexivity. }
  destruct (collector_reads max (cq ++ cd) pss received Hm) as (C & _); [apply Forall_app; split; assumption|exact Hh|rewrite flat_map_app; exact N|exact Sr|].
  eapply some_trans; [exact C|]. apply some_trans with (map collector_pack (kept ++ ps)).
  - exists (map collector_pack wt). rewrite <- map_app. apply Permutation_map, Ep.
  - rewrite !map_app. apply some_app; [|apply some_refl]. destruct (part_some _ _ K) as (r & Pr). exists (map collector_pack r). rewrite <- map_app. apply Permutation_map, Pr.
Qed.

(** When nothing is under way, nothing was refused by the queue and no datagram was without a socket, the collector reads every pack, as often
    as it was handed over. *)
Theorem C77_nothing_missing qcap max qs ps s received : 0 < max <= 2147483647 -> qcap <= 32767 -> history qcap max qs ps s ->
  at_rest s -> dropped (x_u s) = [] -> x_lost s = [] -> Permutation received (map snd (x_sent s)) ->
  Permutation (collector received) (map collector_pack (qs ++ ps)).
Proof.
  intros Hm Hq H (Q1 & Q2 & Q3 & Q4) D0 L0 R. destruct (history_inv _ _ _ _ _ Hm Hq H) as (cq & cd & kept & I). destruct (parcels_of _ _ _ _ _ _ _ _ I) as (pss & wt & Hh & Ep & Ew).
  destruct I as [U A K Kb D Di Q P Oq Od N M W]. rewrite D0 in D. cbn [length Nat.add] in D. apply (part_length _ _ K) in D. subst kept.
  unfold held_of in Ew. rewrite Q3, Q4 in Ew. destruct wt; [|discriminate]. rewrite app_nil_r in Ep.
  rewrite Q1, Q2, L0, !app_nil_r in W. assert (Permutation received (flat_map (grams max) (cq ++ cd))) as Sr by (rewrite flat_map_app, R, W; exact M).
  destruct (collector_reads max (cq ++ cd) pss received Hm) as (_ & C); [apply Forall_app; split; assumption|exact Hh|rewrite flat_map_app; exact N|exists []; rewrite app_nil_r; exact Sr|].
  rewrite (C Sr). apply Permutation_map, Ep.
Qed.

(** Packs handed over directly do not depend on the queue: once the goroutines have written their datagrams, and none was without a socket, the
    collector reads each of them, besides some of the packs given to the queue. *)
Theorem C77_direct_arrives qcap max qs ps s received : 0 < max <= 2147483647 -> qcap <= 32767 -> history qcap max qs ps s ->
  x_lost s = [] -> concat (x_jobs s) = [] -> x_uout s = [] -> Permutation received (map snd (x_sent s)) ->
  exists queued, part_of queued qs /\ Permutation (collector received) (map collector_pack (queued ++ ps)).
Proof.
  intros Hm Hq H L0 J0 U0 R. destruct (history_inv _ _ _ _ _ Hm Hq H) as (cq & cd & kept & I).
  destruct I as [U A K Kb D Di Q P Oq Od N M W]. rewrite U0, J0, L0, !app_nil_r in W.
  destruct (dir_holds max cd ps Di P) as (pd & Hd & Ed).
  assert (Forall sane kept) as Sk by (eapply Forall_impl; [|eapply part_Forall; [exact K|exact Q]]; intros q Hq'; apply (proper_sane max), Hq').
  rewrite Kb in A. destruct (parcels_hold cq kept _ A Sk) as (pq & k2 & E & Hq2 & Et).
  assert (Permutation received (flat_map (grams max) (cq ++ cd))) as Sr by (rewrite flat_map_app, R, W; exact M).
  destruct (collector_reads max (cq ++ cd) (pq ++ pd) received Hm) as (_ & C); [apply Forall_app; split; assumption|apply Forall2_app; assumption|rewrite flat_map_app; exact N|exists []; rewrite app_nil_r; exact Sr|].
  exists (concat pq). split; [eapply part_trans; [exact K|rewrite E; apply part_prefix]|]. rewrite (C Sr), concat_app, Ed. reflexivity.
Qed.

(** While there is a socket and it is not exchanged, no datagram is lost. *)
Theorem C77_no_loss_with_socket qcap max qs ps s : history qcap max qs ps s -> x_clients s = [mkClient true true] -> x_lost s = [].
Proof.
  assert (forall d s, x_clients s = [mkClient true true] -> x_lost s = [] -> Forall (fun cd => fst cd = 0%nat) [d] -> x_lost (put_datagram d s) = []) as Put.
  { intros d s0 C L F. inversion_clear F as [|? ? F1 _]. unfold put_datagram, usable. rewrite C, F1. cbn [nth_error cl_conn cl_open andb x_lost]. exact L. }
  intros H. enough (x_clients s = [mkClient true true] -> x_lost s = [] /\ Forall (fun cd => fst cd = 0%nat) (x_uout s ++ concat (x_jobs s))) as G by (intros C; apply G, C).
  induction H as [conn|qs ps p s H IH Pp|qs ps p pkid s s' H IH Pp Hk E F|qs ps pkids s s' H IH Hk E F|qs ps s H IH|qs ps i s H IH|qs ps conn s H IH|qs ps c s H IH].
  - intros _. split; [reflexivity|constructor].
  - exact IH.
  - unfold net_direct in E. destruct (write_buffer max pkid (bytes_of p)) as [ds|]; [|discriminate]. injection E as <-. cbn [x_clients x_lost x_uout x_jobs]. intros C. destruct (IH C) as (L & Fa). split; [exact L|].
    rewrite concat_app. cbn [concat]. rewrite app_nil_r, app_assoc. apply Forall_app. split; [exact Fa|]. apply Forall_map, Forall_forall. intros d _. unfold current. rewrite C. reflexivity.
  - unfold net_sender in E. destruct (x_uout s) as [|? ?] eqn:Eo; [|injection E as <-; rewrite Eo; exact IH]. destruct (sender_step max pkids (x_u s)) as [u|]; [|discriminate]. injection E as <-.
    cbn [x_clients x_lost x_uout x_jobs]. intros C. destruct (IH C) as (L & Fa). split; [exact L|]. apply Forall_app. split; [apply Forall_map, Forall_forall; intros d _; unfold current; rewrite C; reflexivity|exact Fa].
  - unfold net_write_sender. destruct (x_uout s) as [|d more] eqn:Eo; [rewrite Eo; exact IH|]. set (s1 := mkNet _ _ _ _ _ _ _). destruct (put_rest d s1) as (R1 & R2 & R3 & R4 & R5). rewrite R5, R2, R3. intros C.
    destruct (IH C) as (L & Fa). cbn [app] in Fa. inversion_clear Fa as [|? ? F1 F2]. split; [apply Put; [exact C|exact L|constructor; [exact F1|constructor]]|exact F2].
  - unfold net_write_job. destruct (nth_error (x_jobs s) i) as [[|d more]|] eqn:Eo; try exact IH. set (s1 := mkNet _ _ _ _ _ _ _). destruct (put_rest d s1) as (R1 & R2 & R3 & R4 & R5). rewrite R5, R2, R3. intros C.
    destruct (IH C) as (L & Fa). apply Forall_app in Fa as (F1 & F2). rewrite (job_split _ _ _ _ Eo) in F2. inversion_clear F2 as [|? ? F3 F4].
    split; [apply Put; [exact C|exact L|constructor; [exact F3|constructor]]|]. apply Forall_app. split; assumption.
  - cbn [net_reload x_clients]. intros C. assert (forall A (l : list A) x y, l ++ [x] = [y] -> l = []) as Q by (intros A [|z [|w l]] x y; cbn; congruence).
    apply Q in C. exfalso. clear - H C. induction H; cbn [net0 net_add_pack net_reload x_clients] in C; try discriminate; try (apply IHhistory; assumption).
    + unfold net_direct in H2. destruct (write_buffer max pkid (bytes_of p)); [|discriminate]. injection H2 as <-. apply IHhistory, C.
    + unfold net_sender in H1. destruct (x_uout s); [destruct (sender_step max pkids (x_u s)); [|discriminate]|]; injection H1 as <-; apply IHhistory, C.
    + unfold net_write_sender in C. destruct (x_uout s); [apply IHhistory, C|]. rewrite (proj2 (proj2 (proj2 (proj2 (put_rest _ _))))) in C. apply IHhistory, C.
    + unfold net_write_job in C. destruct (nth_error (x_jobs s) i) as [[|? ?]|]; try (apply IHhistory, C). rewrite (proj2 (proj2 (proj2 (proj2 (put_rest _ _))))) in C. apply IHhistory, C.
    + destruct (x_clients s); discriminate.
    + unfold net_close in C. destruct (c <? current s)%nat; [|apply IHhistory, C]. destruct (nth_error (x_clients s) c); [|apply IHhistory, C]. cbn [x_clients] in C. destruct (firstn c (x_clients s)); discriminate.
  - unfold net_close. destruct (c <? current s)%nat eqn:Ec; [|exact IH]. destruct (nth_error (x_clients s) c) as [cl|] eqn:En; [|exact IH]. cbn [x_clients]. intros C. exfalso.
    assert (length (x_clients s) = 1%nat) as L1.
    { apply (f_equal (@length client)) in C. rewrite app_length in C. cbn [length] in C. rewrite firstn_length, skipn_length in C. pose proof (proj1 (nth_error_Some (x_clients s) c) ltac:(congruence)). lia. }
    unfold current in Ec. rewrite L1 in Ec. cbn [pred] in Ec. apply Nat.ltb_lt in Ec. lia.
Qed.

(** Handing over never fails: every pack is taken by SendPackDirect in every state. *)
(** Nothing counts as sent that did not go through a socket: without one, every datagram is lost. *)
Theorem C77_only_through_sockets qcap max qs ps s c d : history qcap max qs ps s -> In (c, d) (x_sent s) -> exists cl, nth_error (x_clients s) c = Some cl /\ cl_conn cl = true.
Proof.
  intros H. revert c d. set (ok := fun s : netsys => forall c d, In (c, d) (x_sent s) -> exists cl, nth_error (x_clients s) c = Some cl /\ cl_conn cl = true).
  change (ok s). assert (forall cd s, ok s -> ok (put_datagram cd s)) as P.
  { intros [c0 d0] s0 K c d. unfold put_datagram. destruct (usable s0 (fst (c0, d0))) eqn:U; cbn [x_sent x_clients]; [|apply K]. intros I. apply in_app_or in I as [I|[I|[]]]; [eapply K, I|].
    injection I as <- <-. unfold usable in U. cbn [fst] in U. destruct (nth_error (x_clients s0) c0) as [cl|]; [|discriminate]. exists cl. split; [reflexivity|]. apply andb_prop in U. apply U. }
  induction H as [conn|qs ps p s H IH Pp|qs ps p pkid s s' H IH Pp Hk E F|qs ps pkids s s' H IH Hk E F|qs ps s H IH|qs ps i s H IH|qs ps conn s H IH|qs ps c0 s H IH].
  - intros c d [].
  - exact IH.
  - unfold net_direct in E. destruct (write_buffer _ _ _); [|discriminate]. injection E as <-. exact IH.
  - unfold net_sender in E. destruct (x_uout s); [|injection E as <-; exact IH]. destruct (sender_step _ _ _); [|discriminate]. injection E as <-. exact IH.
  - unfold net_write_sender. destruct (x_uout s) as [|cd more]; [exact IH|]. apply P. exact IH.
  - unfold net_write_job. destruct (nth_error (x_jobs s) i) as [[|cd more]|]; [exact IH| |exact IH]. apply P. exact IH.
  - intros c d I. destruct (IH c d I) as (cl & E & K). exists cl. split; [|exact K]. cbn [net_reload x_clients]. rewrite nth_error_app1; [exact E|]. apply nth_error_Some. congruence.
  - intros c d. unfold net_close. destruct (c0 <? current s)%nat; [|apply IH]. destruct (nth_error (x_clients s) c0) as [cl0|] eqn:E0; [|apply IH]. cbn [x_sent x_clients]. intros I.
    destruct (IH c d I) as (cl & E & K). assert (c0 < length (x_clients s))%nat as L by (apply nth_error_Some; congruence). destruct (Nat.lt_trichotomy c c0) as [Lc|[->|Lc]].
    + exists cl. split; [|exact K]. rewrite nth_error_app1 by (rewrite firstn_length; lia). rewrite <- E. rewrite <- (firstn_skipn c0 (x_clients s)) at 2. rewrite nth_error_app1 by (rewrite firstn_length; lia). reflexivity.
    + rewrite E0 in E. injection E as ->. exists (mkClient (cl_conn cl) false). split; [|exact K]. rewrite nth_error_app2 by (rewrite firstn_length; lia). rewrite firstn_length. replace (c0 - Nat.min c0 (length (x_clients s)))%nat with O by lia. reflexivity.
    + exists cl. split; [|exact K]. rewrite nth_error_app2 by (rewrite firstn_length; lia). rewrite firstn_length. replace (Nat.min c0 (length (x_clients s))) with c0 by lia.
      destruct (c - c0)%nat as [|k] eqn:Ek; [lia|]. cbn [nth_error]. rewrite <- E. rewrite <- (firstn_skipn (S c0) (x_clients s)) at 2.
      rewrite nth_error_app2 by (rewrite firstn_length; lia). rewrite firstn_length. f_equal. lia.
Qed.

Theorem C77_direct_never_refused max pkid p s : 0 < max -> exists s', net_direct max pkid p s = Some s' /\ length (x_jobs s') = S (length (x_jobs s)).
Proof.
  intros Hm. unfold net_direct, write_buffer. destruct (max <? zlen (bytes_of p)); [rewrite write_mtu_map by lia|]; eexists; (split; [reflexivity|]); cbn [x_jobs]; rewrite app_length; cbn [length]; lia.
Qed.

(* ------------------------------------------------------------------ *)
(** The goroutines, left alone, finish. *)
Lemma write_all qcap max qs ps n : forall s, (length (x_uout s) + length (concat (x_jobs s)) <= n)%nat -> history qcap max qs ps s ->
  exists s', history qcap max qs ps s' /\ x_uout s' = [] /\ concat (x_jobs s') = [] /\ x_u s' = x_u s /\ x_clients s' = x_clients s.
Proof.
  induction n as [|n IH]; intros s L H.
  - exists s. split; [exact H|]. destruct (x_uout s), (concat (x_jobs s)); try discriminate; cbn [length] in L; try lia. auto.
  - destruct (x_uout s) as [|d more] eqn:Eo.
    + destruct (concat (x_jobs s)) as [|d r] eqn:Ej; [exists s; auto|].
      assert (exists i d more, nth_error (x_jobs s) i = Some (d :: more)) as (i & d' & more & Ei).
      { clear - Ej. induction (x_jobs s) as [|j js IHj]; [discriminate|]. destruct j as [|x j]; [|exists 0%nat, x, j; reflexivity]. destruct (IHj Ej) as (i & d' & m & E). exists (S i), d', m. exact E. }
      pose proof (hi_write_job qcap max qs ps i s H) as H'. unfold net_write_job in H'. rewrite Ei in H'. set (s1 := mkNet _ _ _ _ _ _ _) in H'. destruct (put_rest d' s1) as (R1 & R2 & R3 & R4 & R5).
      destruct (IH _ ltac:(rewrite R2, R3; subst s1; cbn [x_uout x_jobs]; rewrite Eo; cbn [length] in *; pose proof (Permutation_length (job_split _ _ _ _ Ei)) as Lj; cbn [length] in Lj; rewrite Ej in Lj; cbn [length] in Lj; lia) H') as (s' & A & B & C & D & E).
      exists s'. split; [exact A|]. split; [exact B|]. split; [exact C|]. rewrite D, E, R1, R5. auto.
    + pose proof (hi_write_sender qcap max qs ps s H) as H'. unfold net_write_sender in H'. rewrite Eo in H'. set (s1 := mkNet _ _ _ _ _ _ _) in H'. destruct (put_rest d s1) as (R1 & R2 & R3 & R4 & R5).
      destruct (IH _ ltac:(rewrite R2, R3; subst s1; cbn [x_uout x_jobs length] in *; lia) H') as (s' & A & B & C & D & E).
      exists s'. split; [exact A|]. split; [exact B|]. split; [exact C|]. rewrite D, E, R1, R5. auto.
Qed.
Lemma no_cut_keys max cs : 0 < max <= 2147483647 -> Forall (parcel_ok max) cs -> Forall (fun b => zlen b <= max) (flat_map bufs cs) -> keys_of (flat_map (grams max) cs) = [].
Proof.
  intros Hm. induction cs as [|c cs IH]; intros O B; [reflexivity|]. inversion_clear O as [|? ? O1 O2]. cbn [flat_map] in *. apply Forall_app in B as (B1 & B2).
  unfold keys_of. rewrite flat_map_app. fold (keys_of (flat_map (grams max) cs)). rewrite (IH O2 B2), app_nil_r. destruct c as [b|g|pk b]; cbn [grams flat_map].
  - rewrite one_not_frag. reflexivity.
  - rewrite many_not_frag. reflexivity.
  - destruct O1 as (_ & _ & _ & O4). inversion_clear B1. lia.
Qed.
Lemma zero_keys : forall n : nat, in_int64 ((fun _ : nat => 0) n).
Proof. intros n. unfold in_int64. lia. Qed.
Lemma drains qcap max qs ps n : 0 < max <= 2147483647 -> qcap <= 32767 -> Forall (fun p => zlen (bytes_of p) <= max) qs ->
  forall s, (effort (x_u s) <= n)%nat -> history qcap max qs ps s ->
  exists s', history qcap max qs ps s' /\ at_rest s' /\ dropped (x_u s') = dropped (x_u s) /\ x_clients s' = x_clients s.
Proof.
  intros Hm Hq Sm. induction n as [|n IH]; intros s L H.
  - destruct (write_all qcap max qs ps _ s (le_n _) H) as (s' & A & B & C & D & E). exists s'. split; [exact A|]. rewrite D, E. split; [|auto]. split; [exact B|]. split; [exact C|]. rewrite D. unfold effort in L.
    destruct (snd_state (x_u s)); [|lia]. destruct (queue (x_u s)); [auto|cbn [length] in L; lia].
  - destruct (write_all qcap max qs ps _ s (le_n _) H) as (s1 & A & B & C & D & E).
    destruct (queue (x_u s)) as [|b q] eqn:Eq; [destruct (snd_state (x_u s)) as [|k h z] eqn:Es|].
    + exists s1. split; [exact A|]. rewrite D, E. split; [|auto]. split; [exact B|]. split; [exact C|]. rewrite D. auto.
    + assert (queue (x_u s) <> [] \/ snd_state (x_u s) <> Idle) as NE by (right; rewrite Es; discriminate). clear Eq Es.
      destruct (history_inv _ _ _ _ _ Hm Hq A) as (cq & cd & kept & I).
      revert NE L. rewrite <- D, <- E. intros NE L. pose proof (ni_u _ _ _ _ _ _ _ _ I) as (done & U).
      destruct (sender_effort qcap max (fun _ => 0) _ _ Hm Hq zero_keys U NE) as (u & Eu & Lu).
      destruct (sender_parcels qcap max (fun _ => 0) _ _ _ Hm Hq zero_keys U Eu) as (cs & Ew & Eb & Oc & _).
      assert (keys_of (flat_map (grams max) cs) = []) as Kc.
      { apply no_cut_keys; [assumption|assumption|]. pose proof (ni_acc _ _ _ _ _ _ _ _ I) as A1. rewrite Eb, (ni_keptb _ _ _ _ _ _ _ _ I) in A1.
        assert (Forall (fun b => zlen b <= max) (map bytes_of kept)) as Fk by (apply Forall_map; eapply part_Forall; [apply (ni_kept _ _ _ _ _ _ _ _ I)|exact Sm]).
        rewrite A1 in Fk. apply Forall_app in Fk as (_ & Fk). apply Forall_app in Fk as (Fk & _). exact Fk. }
      eassert (history qcap max qs ps _) as H2.
      { eapply (hi_sender qcap max qs ps (fun _ => 0) s1); [exact A|exact zero_keys|unfold net_sender; rewrite B, Eu; reflexivity|].
        unfold new_keys. cbn [x_made]. rewrite skip_app, Ew, skip_app, Kc. intros k0 []. }
      destruct (fun X => IH _ X H2) as (s' & H3 & Qu & Dr & Cl); [cbn [x_u]; clear - Lu L; lia|]. exists s'. split; [exact H3|]. split; [exact Qu|]. cbn [x_u x_clients] in Dr, Cl. split; [|exact Cl]. rewrite Dr.
      clear - Eu. revert Eu. unfold sender_step. repeat match goal with |- context [match ?e with _ => _ end] => destruct e; try discriminate end; intros X; injection X as <-; reflexivity.
    + assert (queue (x_u s) <> [] \/ snd_state (x_u s) <> Idle) as NE by (left; rewrite Eq; discriminate). clear Eq.
      destruct (history_inv _ _ _ _ _ Hm Hq A) as (cq & cd & kept & I).
      revert NE L. rewrite <- D, <- E. intros NE L. pose proof (ni_u _ _ _ _ _ _ _ _ I) as (done & U).
      destruct (sender_effort qcap max (fun _ => 0) _ _ Hm Hq zero_keys U NE) as (u & Eu & Lu).
      destruct (sender_parcels qcap max (fun _ => 0) _ _ _ Hm Hq zero_keys U Eu) as (cs & Ew & Eb & Oc & _).
      assert (keys_of (flat_map (grams max) cs) = []) as Kc.
      { apply no_cut_keys; [assumption|assumption|]. pose proof (ni_acc _ _ _ _ _ _ _ _ I) as A1. rewrite Eb, (ni_keptb _ _ _ _ _ _ _ _ I) in A1.
        assert (Forall (fun b => zlen b <= max) (map bytes_of kept)) as Fk by (apply Forall_map; eapply part_Forall; [apply (ni_kept _ _ _ _ _ _ _ _ I)|exact Sm]).
        rewrite A1 in Fk. apply Forall_app in Fk as (_ & Fk). apply Forall_app in Fk as (Fk & _). exact Fk. }
      eassert (history qcap max qs ps _) as H2.
      { eapply (hi_sender qcap max qs ps (fun _ => 0) s1); [exact A|exact zero_keys|unfold net_sender; rewrite B, Eu; reflexivity|].
        unfold new_keys. cbn [x_made]. rewrite skip_app, Ew, skip_app, Kc. intros k0 []. }
      destruct (fun X => IH _ X H2) as (s' & H3 & Qu & Dr & Cl); [cbn [x_u]; clear - Lu L; lia|]. exists s'. split; [exact H3|]. split; [exact Qu|]. cbn [x_u x_clients] in Dr, Cl. split; [|exact Cl]. rewrite Dr.
      clear - Eu. revert Eu. unfold sender_step. repeat match goal with |- context [match ?e with _ => _ end] => destruct e; try discriminate end; intros X; injection X as <-; reflexivity.
Qed.
(** From every state with a working socket a continuation without further packs ends with everything read, except what the queue refused. *)
Theorem C77_completes qcap max qs ps s : 0 < max <= 2147483647 -> qcap <= 32767 -> Forall (fun p => zlen (bytes_of p) <= max) qs ->
  history qcap max qs ps s -> x_clients s = [mkClient true true] -> dropped (x_u s) = [] ->
  exists s', history qcap max qs ps s' /\ at_rest s' /\ forall received, Permutation received (map snd (x_sent s')) -> Permutation (collector received) (map collector_pack (qs ++ ps)).
Proof.
  intros Hm Hq Sm H C D. destruct (drains qcap max qs ps _ Hm Hq Sm s (le_n _) H) as (s' & H' & Qu & Dr & Cl). exists s'. split; [exact H'|]. split; [exact Qu|]. intros received R.
  eapply C77_nothing_missing; try eassumption; [congruence|]. eapply C77_no_loss_with_socket; [exact H'|congruence].
Qed.

(* ------------------------------------------------------------------ *)
(** Concrete histories: a script, and the check that it is one. *)
Inductive demo_op := DQueue (p : pack) | DDirect (pkid : Z) (p : pack) | DSender (pkid : Z) | DWriteSender | DWrite (i : nat) | DReload (conn : bool) | DClose (c : nat).
Definition proper_b (max : Z) (p : pack) : bool := go_pack p && negb (needs_v2 p) && (zlen (bytes_of p) <=? 32767 * max).
Definition in64 (k : Z) : bool := (-9223372036854775808 <=? k) && (k <=? 9223372036854775807).
Definition new_keys_b (s s' : netsys) : bool :=
  forallb (fun k => negb (existsb (Z.eqb k) (keys_of (x_made s)))) (keys_of (skipn (length (x_made s)) (x_made s'))).
Definition demo_step (qcap max : Z) (o : demo_op) (x : list pack * list pack * netsys) : option (list pack * list pack * netsys) :=
  let '(qs, ps, s) := x in
  match o with
  | DQueue p => if proper_b max p then Some (qs ++ [p], ps, net_add_pack qcap p s) else None
  | DDirect k p => match net_direct max k p s with
                   | Some s' => if proper_b max p && in64 k && new_keys_b s s' then Some (qs, ps ++ [p], s') else None
                   | None => None
                   end
  | DSender k => match net_sender max (fun _ => k) s with Some s' => if in64 k && new_keys_b s s' then Some (qs, ps, s') else None | None => None end
  | DWriteSender => Some (qs, ps, net_write_sender s)
  | DWrite i => Some (qs, ps, net_write_job i s)
  | DReload conn => Some (qs, ps, net_reload conn s)
  | DClose c => Some (qs, ps, net_close c s)
  end.
Fixpoint demo (qcap max : Z) (os : list demo_op) (x : list pack * list pack * netsys) : option (list pack * list pack * netsys) :=
  match os with [] => Some x | o :: r => match demo_step qcap max o x with Some y => demo qcap max r y | None => None end end.
Lemma proper_ok max p : proper_b max p = true -> proper max p.
Proof. unfold proper_b, proper. destruct (go_pack p), (needs_v2 p); cbn [andb negb]; try discriminate. intros H. repeat split. lia. Qed.
Lemma in64_ok k : in64 k = true -> in_int64 k.
Proof. unfold in64, in_int64. lia. Qed.
Lemma new_keys_ok s s' : new_keys_b s s' = true -> new_keys s s'.
Proof.
  unfold new_keys_b, new_keys. rewrite forallb_forall. intros H k I J. specialize (H k I). assert (existsb (Z.eqb k) (keys_of (x_made s)) = true) as E; [|rewrite E in H; discriminate].
  apply existsb_exists. exists k. split; [exact J|apply Z.eqb_refl].
Qed.
Lemma demo_history qcap max os : forall qs ps s x, history qcap max qs ps s -> demo qcap max os (qs, ps, s) = Some x -> let '(qs', ps', s') := x in history qcap max qs' ps' s'.
Proof.
  induction os as [|o os IH]; intros qs ps s x H E; cbn [demo] in E; [injection E as <-; exact H|].
  destruct (demo_step qcap max o (qs, ps, s)) as [[[qs1 ps1] s1]|] eqn:Eo; [|discriminate]. refine (IH qs1 ps1 s1 x _ E). clear IH E. destruct o; cbn [demo_step] in Eo.
  - destruct (proper_b max p) eqn:P; [|discriminate]. injection Eo as <- <- <-. apply hi_queue; [exact H|apply proper_ok, P].
  - destruct (net_direct max pkid p s) as [s'|] eqn:D; [|discriminate]. destruct (proper_b max p) eqn:P; [|discriminate]. destruct (in64 pkid) eqn:I; [|discriminate]. destruct (new_keys_b s s') eqn:K; [|discriminate].
    injection Eo as <- <- <-. eapply hi_direct; [exact H|apply proper_ok, P|apply in64_ok, I|exact D|apply new_keys_ok, K].
  - destruct (net_sender max (fun _ => pkid) s) as [s'|] eqn:D; [|discriminate]. destruct (in64 pkid) eqn:I; [|discriminate]. destruct (new_keys_b s s') eqn:K; [|discriminate].
    injection Eo as <- <- <-. eapply hi_sender; [exact H| |exact D|apply new_keys_ok, K]. intros i. apply in64_ok, I.
  - injection Eo as <- <- <-. apply hi_write_sender, H.
  - injection Eo as <- <- <-. apply hi_write_job, H.
  - injection Eo as <- <- <-. apply hi_reload, H.
  - injection Eo as <- <- <-. apply hi_close, H.
Qed.

Definition demo_text (n : Z) : pack := PText (mk_text_pack (of_string "service") n (of_string "GET /")).
Definition demo_object : pack := PObject (mk_object_pack (of_string "golang") 17 (of_string "/host/go1") [] (of_string "0.0.0") true 0 []).
(** two texts through the queue, an object pack (cut into two pieces, which are mixed with other datagrams) and a text handed over directly; size limit 20 *)
Definition demo_ops : list demo_op :=
  [DQueue (demo_text 1); DDirect 5 demo_object; DQueue (demo_text 2); DDirect 6 (demo_text 3); DWrite 1; DSender 7; DSender 8; DSender 9; DWrite 0; DWriteSender; DSender 10; DWrite 1;
   DWriteSender; DWriteSender; DWrite 0; DWriteSender; DWriteSender].
Example C77_case : exists qs ps s, history 8 20 qs ps s /\ qs = [demo_text 1; demo_text 2] /\ ps = [demo_object; demo_text 3] /\ x_clients s = [mkClient true true] /\
  dropped (x_u s) = [] /\ Forall (fun p => zlen (bytes_of p) <= 20) qs /\ length (x_sent s) = 5%nat /\ at_rest s /\
  collector (map snd (x_sent s)) = map collector_pack [demo_text 3; demo_object; demo_text 1; demo_text 2].
Proof.
  destruct (demo 8 20 demo_ops ([], [], net0 true)) as [[[qs ps] s]|] eqn:E; [|vm_compute in E; discriminate].
  pose proof (demo_history 8 20 demo_ops [] [] (net0 true) _ (hi_start 8 20 true) E) as H. cbn iota beta in H. exists qs, ps, s. split; [exact H|].
  vm_compute in E. injection E as <- <- <-. split; [vm_compute; reflexivity|]. split; [vm_compute; reflexivity|]. split; [reflexivity|]. split; [reflexivity|].
  split; [repeat (constructor; [vm_compute; discriminate|]); constructor|]. split; [vm_compute; reflexivity|]. split; [repeat split|vm_compute; reflexivity].
Qed.

(** Two packs handed over one after the other may arrive in the other order: each has its own goroutine. *)
Theorem C77_order_refuted : ~ (forall qcap max qs ps s, 0 < max <= 2147483647 -> qcap <= 32767 -> history qcap max qs ps s -> at_rest s -> x_lost s = [] -> qs = [] ->
  collector (map snd (x_sent s)) = map collector_pack ps).
Proof.
  intros C. destruct (demo 8 100 [DDirect 5 (demo_text 1); DDirect 6 (demo_text 2); DWrite 1; DWrite 0] ([], [], net0 true)) as [[[qs ps] s]|] eqn:E; [|vm_compute in E; discriminate].
  pose proof (demo_history 8 100 _ [] [] (net0 true) _ (hi_start 8 100 true) E) as H. cbn iota beta in H. specialize (C 8 100 qs ps s ltac:(lia) ltac:(lia) H).
  vm_compute in E. injection E as <- <- <-. specialize (C ltac:(repeat split) eq_refl eq_refl). vm_compute in C. discriminate.
Qed.
(** A pack handed over while there is a working socket, which is exchanged for another working socket, can be lost. *)
Theorem C77_exchange_refuted : ~ (forall qcap max qs ps s, 0 < max <= 2147483647 -> qcap <= 32767 -> history qcap max qs ps s -> Forall (fun c => cl_conn c = true) (x_clients s) -> x_lost s = []).
Proof.
  intros C. destruct (demo 8 100 [DDirect 5 (demo_text 1); DReload true; DClose 0; DWrite 0] ([], [], net0 true)) as [[[qs ps] s]|] eqn:E; [|vm_compute in E; discriminate].
  pose proof (demo_history 8 100 _ [] [] (net0 true) _ (hi_start 8 100 true) E) as H. cbn iota beta in H. specialize (C 8 100 qs ps s ltac:(lia) ltac:(lia) H).
  vm_compute in E. injection E as <- <- <-. specialize (C ltac:(repeat (constructor; [reflexivity|]); constructor)). vm_compute in C. discriminate.
Qed.

Print Assumptions C77_no_invention.
Print Assumptions C77_only_through_sockets.
Print Assumptions C77_nothing_missing.
Print Assumptions C77_direct_arrives.
Print Assumptions C77_no_loss_with_socket.
Print Assumptions C77_direct_never_refused.
Print Assumptions C77_completes.
Print Assumptions C77_order_refuted.
Print Assumptions C77_exchange_refuted.
