(** Property C87: the datagram size limit is changed while packs are being sent. *)
From Verif Require Import GoInt M_OutX L_Codec M_Value S_Wire S_Value L_Value M_Packs S_Packs L_Packs M_Udp S_Udp L_Udp M_Net S_Net L_Net P_Net M_NetLimit S_NetLimit L_NetLimit L_NetLimit2 P_Udp.
From Coq Require Import ZifyBool Permutation.

(** Whatever the schedule and however the limit changes: the collector reads only packs that were handed over, each at most as often as it was. *)
Theorem C87_no_invention qcap lo qs ps s received : 0 < lo -> qcap <= 32767 -> changing qcap lo qs ps s ->
  some_of received (map snd (x_sent (l_net s))) -> some_of (collector received) (map collector_pack (qs ++ ps)).
Proof.
  intros H0 Hq H R. destruct (changing_inv _ _ _ _ _ H0 Hq H) as (cq & cd & kept & I). destruct (tparcels_of _ _ _ _ _ _ _ _ I) as (pss & wt & Hh & Ep & _).
  destruct I as [Ln Mx U A K Kb D Di Q P Oq Od N M W].
  assert (some_of received (flat_map tgrams (cq ++ cd))) as Sr.
  { eapply some_trans; [exact R|]. eapply some_perm; [reflexivity|rewrite flat_map_app, <- M; exact W|]. rewrite map_app. eexists. reflexivity. }
  destruct (tcollector_reads (cq ++ cd) pss received) as (C & _); [apply Forall_app; split; assumption|exact Hh|rewrite flat_map_app; exact N|exact Sr|].
  eapply some_trans; [exact C|]. apply some_trans with (map collector_pack (kept ++ ps)).
  - exists (map collector_pack wt). rewrite <- map_app. apply Permutation_map, Ep.
  - rewrite !map_app. apply some_app; [|apply some_refl]. destruct (part_some _ _ K) as (r & Pr). exists (map collector_pack r). rewrite <- map_app. apply Permutation_map, Pr.
Qed.

(** When nothing is under way, nothing was refused by the queue and no datagram was without a socket, the collector reads every pack, as often as it was handed over. *)
Theorem C87_nothing_missing qcap lo qs ps s received : 0 < lo -> qcap <= 32767 -> changing qcap lo qs ps s ->
  at_rest (l_net s) -> dropped (x_u (l_net s)) = [] -> x_lost (l_net s) = [] -> Permutation received (map snd (x_sent (l_net s))) ->
  Permutation (collector received) (map collector_pack (qs ++ ps)).
Proof.
  intros H0 Hq H (Q1 & Q2 & Q3 & Q4) D0 L0 R. destruct (changing_inv _ _ _ _ _ H0 Hq H) as (cq & cd & kept & I). destruct (tparcels_of _ _ _ _ _ _ _ _ I) as (pss & wt & Hh & Ep & Ew & _).
  destruct I as [Ln Mx U A K Kb D Di Q P Oq Od N M W]. rewrite D0 in D. cbn [length Nat.add] in D. apply (part_length _ _ K) in D. subst kept.
  unfold held_of in Ew. rewrite Q3, Q4 in Ew. destruct wt; [|discriminate]. rewrite app_nil_r in Ep.
  rewrite Q1, Q2, L0, !app_nil_r in W. assert (Permutation received (flat_map tgrams (cq ++ cd))) as Sr by (rewrite flat_map_app, R, W; exact M).
  destruct (tcollector_reads (cq ++ cd) pss received) as (_ & C); [apply Forall_app; split; assumption|exact Hh|rewrite flat_map_app; exact N|exists []; rewrite app_nil_r; exact Sr|].
  rewrite (C Sr). apply Permutation_map, Ep.
Qed.

(** Packs handed over directly do not depend on the queue. *)
Theorem C87_direct_arrives qcap lo qs ps s received : 0 < lo -> qcap <= 32767 -> changing qcap lo qs ps s ->
  x_lost (l_net s) = [] -> concat (x_jobs (l_net s)) = [] -> x_uout (l_net s) = [] -> Permutation received (map snd (x_sent (l_net s))) ->
  exists queued, some_of queued qs /\ Permutation (collector received) (map collector_pack (queued ++ ps)).
Proof.
  intros H0 Hq H L0 J0 U0 R. destruct (changing_inv _ _ _ _ _ H0 Hq H) as (cq & cd & kept & I). destruct (tparcels_of _ _ _ _ _ _ _ _ I) as (pss & wt & Hh & Ep & Ew & pq & pd & -> & Ed & _ & _ & Sq).
  destruct I as [Ln Mx U A K Kb D Di Q P Oq Od N M W]. rewrite U0, J0, L0, !app_nil_r in W.
  assert (Permutation received (flat_map tgrams (cq ++ cd))) as Sr by (rewrite flat_map_app, R, W; exact M).
  destruct (tcollector_reads (cq ++ cd) (pq ++ pd) received) as (_ & C); [apply Forall_app; split; assumption|exact Hh|rewrite flat_map_app; exact N|exists []; rewrite app_nil_r; exact Sr|].
  exists (concat pq). split; [|rewrite (C Sr), concat_app, Ed; reflexivity]. eapply some_trans; [exact Sq|]. apply part_some, K.
Qed.

(** No change of the limit stops the sender or a direct sending, as long as the limit is never below 1. *)
Theorem C87_never_stops qcap lo qs ps s thr pkids pkid p : 0 < lo -> qcap <= 32767 -> changing qcap lo qs ps s -> (forall i, in_int64 (pkids i)) ->
  (exists s', l_sender thr pkids s = Some s') /\ (exists s', l_direct pkid p s = Some s' /\ length (x_jobs (l_net s')) = S (length (x_jobs (l_net s)))).
Proof.
  intros H0 Hq H Hk. destruct (changing_inv _ _ _ _ _ H0 Hq H) as (cq & cd & kept & I). destruct I as [Ln Mx U _ _ _ _ _ _ _ _ _ _ _ _]. pose proof (cur_in lo s Ln Mx) as Hm. split.
  - unfold l_sender. cbv zeta. destruct (x_uout (l_net s)); [|eexists; reflexivity].
    destruct (u2_step qcap lo thr (cur_max s) pkids (x_u (l_net s)) H0 Hm Hq Hk U) as (u & cs & k & Eu & _). rewrite Eu. eexists. reflexivity.
  - unfold l_direct. destruct (C77_direct_never_refused (cur_max s) pkid p (l_net s) ltac:(lia)) as (n & E & L). rewrite E. eexists. split; [reflexivity|exact L].
Qed.

(* ------------------------------------------------------------------ *)
(** * Left alone, the goroutines finish *)
Lemma l_write_all qcap lo qs ps n : forall s, (length (x_uout (l_net s)) + length (concat (x_jobs (l_net s))) <= n)%nat -> changing qcap lo qs ps s ->
  exists s', changing qcap lo qs ps s' /\ x_uout (l_net s') = [] /\ concat (x_jobs (l_net s')) = [] /\ x_u (l_net s') = x_u (l_net s) /\ x_clients (l_net s') = x_clients (l_net s).
Proof.
  induction n as [|n IH]; intros s L H.
  - exists s. split; [exact H|]. destruct (x_uout (l_net s)), (concat (x_jobs (l_net s))); try discriminate; cbn [length] in L; try lia. auto.
  - destruct (x_uout (l_net s)) as [|d more] eqn:Eo.
    + destruct (concat (x_jobs (l_net s))) as [|d r] eqn:Ej; [exists s; auto|].
      assert (exists i d more, nth_error (x_jobs (l_net s)) i = Some (d :: more)) as (i & d' & more & Ei).
      { clear - Ej. induction (x_jobs (l_net s)) as [|j js IHj]; [discriminate|]. destruct j as [|x j]; [|exists 0%nat, x, j; reflexivity]. destruct (IHj Ej) as (i & d' & m & E). exists (S i), d', m. exact E. }
      pose proof (ch_write_job qcap lo qs ps i s H) as H'. unfold l_move, net_write_job in H'. rewrite Ei in H'. set (s1 := mkNet _ _ _ _ _ _ _) in H'. destruct (put_rest d' s1) as (R1 & R2 & R3 & R4 & R5).
      destruct (fun X => IH _ X H') as (s' & A & B & C & D & E); [cbn [l_net]; rewrite R2, R3; subst s1; cbn [x_uout x_jobs]; rewrite Eo; cbn [length] in *; pose proof (Permutation_length (job_split _ _ _ _ Ei)) as Lj; cbn [length] in Lj; rewrite Ej in Lj; cbn [length] in Lj; lia|].
      exists s'. split; [exact A|]. split; [exact B|]. split; [exact C|]. rewrite D, E. cbn [l_net]. rewrite R1, R5. auto.
    + pose proof (ch_write_sender qcap lo qs ps s H) as H'. unfold l_move, net_write_sender in H'. rewrite Eo in H'. set (s1 := mkNet _ _ _ _ _ _ _) in H'. destruct (put_rest d s1) as (R1 & R2 & R3 & R4 & R5).
      destruct (fun X => IH _ X H') as (s' & A & B & C & D & E); [cbn [l_net]; rewrite R2, R3; subst s1; cbn [x_uout x_jobs length] in *; lia|].
      exists s'. split; [exact A|]. split; [exact B|]. split; [exact C|]. rewrite D, E. cbn [l_net]. rewrite R1, R5. auto.
Qed.
(** keys that have not been used: all small packs need none *)
Definition some_keys (i : nat) : Z := if Z.of_nat i <? 32768 then Z.of_nat i else 0.
Lemma some_keys_in i : in_int64 (some_keys i).
Proof. unfold some_keys, in_int64. destruct (Z.of_nat i <? 32768) eqn:E; lia. Qed.
Lemma some_keys_inj i j : Z.of_nat i < 32768 -> Z.of_nat j < 32768 -> some_keys i = some_keys j -> i = j.
Proof. unfold some_keys. intros A B. replace (Z.of_nat i <? 32768) with true by lia. replace (Z.of_nat j <? 32768) with true by lia. lia. Qed.
Lemma l_drains qcap lo qs ps n : 0 < lo -> qcap <= 32767 -> Forall (fun p => zlen (bytes_of p) <= lo) qs ->
  forall s, (effort (x_u (l_net s)) <= n)%nat -> changing qcap lo qs ps s ->
  exists s', changing qcap lo qs ps s' /\ at_rest (l_net s') /\ dropped (x_u (l_net s')) = dropped (x_u (l_net s)) /\ x_clients (l_net s') = x_clients (l_net s).
Proof.
  intros H0 Hq Sm. induction n as [|n IH]; intros s L H.
  - destruct (l_write_all qcap lo qs ps _ s (le_n _) H) as (s' & A & B & C & D & E). exists s'. split; [exact A|]. rewrite D, E. split; [|auto]. split; [exact B|]. split; [exact C|]. rewrite D. unfold effort in L.
    destruct (snd_state (x_u (l_net s))); [|lia]. destruct (queue (x_u (l_net s))); [auto|cbn [length] in L; lia].
  - destruct (l_write_all qcap lo qs ps _ s (le_n _) H) as (s1 & A & B & C & D & E).
    assert ((queue (x_u (l_net s)) = [] /\ snd_state (x_u (l_net s)) = Idle) \/ (queue (x_u (l_net s)) <> [] \/ snd_state (x_u (l_net s)) <> Idle)) as [(Eq & Es)|NE].
    { destruct (queue (x_u (l_net s))); [|right; left; discriminate]. destruct (snd_state (x_u (l_net s))); [left; auto|right; right; discriminate]. }
    + exists s1. split; [exact A|]. rewrite D, E. split; [|auto]. split; [exact B|]. split; [exact C|]. rewrite D. auto.
    + destruct (changing_inv _ _ _ _ _ H0 Hq A) as (cq & cd & kept & I). pose proof (cur_in lo s1 (li_len _ _ _ _ _ _ _ _ I) (li_max _ _ _ _ _ _ _ _ I)) as Hm.
      destruct (u2_step qcap lo 0 (cur_max s1) some_keys (x_u (l_net s1)) H0 Hm Hq some_keys_in (li_u _ _ _ _ _ _ _ _ I)) as (u & cs & k & Eu & _ & Ew & Eb & Oc & _ & _ & Ea & Ed & Ef).
      rewrite D in Ef. specialize (Ef NE).
      assert (keys_of (flat_map (grams (cur_max s1)) cs) = []) as Kc.
      { apply no_cut_keys; [lia|exact Oc|].
        assert (Forall (fun b => zlen b <= lo) (accepted (x_u (l_net s1)))) as Fk by (rewrite (li_keptb _ _ _ _ _ _ _ _ I); apply Forall_map; eapply part_Forall; [apply (li_kept _ _ _ _ _ _ _ _ I)|exact Sm]).
        pose proof (li_acc _ _ _ _ _ _ _ _ I) as Pa. rewrite Eb in Pa. rewrite Forall_forall in *. intros b Ib. enough (zlen b <= lo) by lia. apply Fk. eapply Permutation_in; [symmetry; exact Pa|].
        apply in_or_app. right. apply in_or_app. left. exact Ib. }
      eassert (changing qcap lo qs ps _) as H2.
      { eapply (ch_sender qcap lo qs ps 0 some_keys s1); [exact A|exact some_keys_in|exact some_keys_inj|unfold l_sender; cbv zeta; rewrite B, Eu; reflexivity|].
        unfold new_keys. cbn [x_made l_net]. rewrite skip_app, Ew, skip_app, Kc. intros k0 []. }
      destruct (fun X => IH _ X H2) as (s' & H3 & Qu & Dr & Cl); [cbn [x_u l_net]; clear - Ef L; lia|]. exists s'. split; [exact H3|]. split; [exact Qu|]. cbn [x_u x_clients l_net] in Dr, Cl. rewrite Dr, Cl, Ed, D, E. auto.
Qed.

(** the datagrams under way belong to clients that exist *)
Definition owned (n : netsys) : Prop := Forall (fun cd => (fst cd < length (x_clients n))%nat) (x_uout n ++ concat (x_jobs n)) /\ (0 < length (x_clients n))%nat.
Definition all_open (n : netsys) : Prop := Forall (fun c => c = mkClient true true) (x_clients n).
Lemma put_open d n : all_open n -> (fst d < length (x_clients n))%nat -> x_lost (put_datagram d n) = x_lost n.
Proof.
  intros O L. unfold put_datagram, usable. destruct (nth_error (x_clients n) (fst d)) as [c|] eqn:E; [|apply nth_error_None in E; lia].
  unfold all_open in O. rewrite Forall_forall in O. rewrite (O c (nth_error_In _ _ E)). reflexivity.
Qed.
Lemma never_lost qcap lo qs ps s : changing qcap lo qs ps s -> owned (l_net s) /\ (all_open (l_net s) -> x_lost (l_net s) = []).
Proof.
  induction 1 as [conn max Hx|qs ps p s H IH Pp|qs ps p pkid s s' H IH Pp Hk E F|qs ps thr pkids s s' H IH Hk Inj E F|qs ps s H IH|qs ps i s H IH|qs ps conn max s H IH Hx|qs ps c s H IH].
  - split; [split; [constructor|cbn; lia]|reflexivity].
  - exact IH.
  - destruct IH as ((O & P) & Z). unfold l_direct, net_direct in E. destruct (write_buffer (cur_max s) pkid (bytes_of p)) as [ds|]; [|discriminate]. cbn [option_map] in E. injection E as <-. cbn [l_net]. split; [|exact Z].
    split; [|exact P]. cbn [x_clients x_uout x_jobs]. rewrite concat_app. cbn [concat]. rewrite app_nil_r, app_assoc. apply Forall_app. split; [exact O|]. apply Forall_map, Forall_forall. intros d _. cbn [fst]. unfold current. lia.
  - destruct IH as ((O & P) & Z). unfold l_sender in E. cbv zeta in E. destruct (x_uout (l_net s)) as [|? ?] eqn:Eo; [|injection E as <-; split; [split; [rewrite Eo; exact O|exact P]|exact Z]].
    destruct (sender_step2 _ _ _ _) as [u|]; [|discriminate]. injection E as <-. cbn [l_net]. split; [|exact Z]. split; [|exact P]. cbn [x_clients x_uout x_jobs]. apply Forall_app. split; [|exact O].
    apply Forall_map, Forall_forall. intros d _. cbn [fst]. unfold current. lia.
  - destruct IH as ((O & P) & Z). unfold l_move, net_write_sender. destruct (x_uout (l_net s)) as [|d more] eqn:Eo; [cbn [l_net]; split; [split; [rewrite Eo; exact O|exact P]|exact Z]|].
    set (s1 := mkNet _ _ _ _ _ _ _). destruct (put_rest d s1) as (R1 & R2 & R3 & R4 & R5). cbn [app] in O. inversion_clear O as [|? ? O1 O2]. unfold owned, all_open. cbn [l_net]. rewrite R2, R3, R5. split; [split; [exact O2|exact P]|].
    intros Al. rewrite put_open; [apply Z; exact Al|exact Al|exact O1].
  - destruct IH as ((O & P) & Z). unfold l_move, net_write_job. destruct (nth_error (x_jobs (l_net s)) i) as [[|d more]|] eqn:Eo; try (split; [split; assumption|exact Z]).
    set (s1 := mkNet _ _ _ _ _ _ _). destruct (put_rest d s1) as (R1 & R2 & R3 & R4 & R5). apply Forall_app in O as (Oa & Ob). rewrite (job_split _ _ _ _ Eo) in Ob. inversion_clear Ob as [|? ? O1 O2].
    unfold owned, all_open. cbn [l_net]. rewrite R2, R3, R5. split; [split; [apply Forall_app; split; assumption|exact P]|]. intros Al. rewrite put_open; [apply Z; exact Al|exact Al|exact O1].
  - destruct IH as ((O & P) & Z). unfold l_reload, net_reload, owned, all_open in *. cbn [l_net x_clients x_uout x_jobs x_lost]. rewrite app_length. cbn [length]. split; [split; [eapply Forall_impl; [|exact O]; intros d Hd; cbn beta in *; lia|lia]|].
    intros Al. apply Forall_app in Al as (Al & _). apply Z, Al.
  - destruct IH as ((O & P) & Z). unfold l_move, net_close, owned, all_open in *. destruct (c <? current (l_net s))%nat; [|split; [split; assumption|exact Z]].
    destruct (nth_error (x_clients (l_net s)) c) eqn:Ec; [|split; [split; assumption|exact Z]]. cbn [l_net x_clients x_uout x_jobs x_lost].
    assert (length (firstn c (x_clients (l_net s)) ++ mkClient (cl_conn c0) false :: skipn (S c) (x_clients (l_net s))) = length (x_clients (l_net s))) as ->.
    { assert (c < length (x_clients (l_net s)))%nat as Lc by (apply nth_error_Some; congruence). rewrite app_length, firstn_length. cbn [length]. rewrite skipn_length. lia. }
    split; [split; assumption|]. intros Al. apply Forall_app in Al as (_ & Al). inversion_clear Al. discriminate.
Qed.

(** The limit alone never loses anything: from every state in which every socket used so far works and is still open, with packs no longer than the
    smallest limit, there is a continuation without further packs that ends with everything read, except what the queue refused. *)
Theorem C87_completes qcap lo qs ps s : 0 < lo -> qcap <= 32767 -> Forall (fun p => zlen (bytes_of p) <= lo) qs ->
  changing qcap lo qs ps s -> Forall (fun c => c = mkClient true true) (x_clients (l_net s)) -> dropped (x_u (l_net s)) = [] ->
  exists s', changing qcap lo qs ps s' /\ at_rest (l_net s') /\ forall received, Permutation received (map snd (x_sent (l_net s'))) -> Permutation (collector received) (map collector_pack (qs ++ ps)).
Proof.
  intros H0 Hq Sm H C D. destruct (l_drains qcap lo qs ps _ H0 Hq Sm s (le_n _) H) as (s' & H' & Qu & Dr & Cl). exists s'. split; [exact H'|]. split; [exact Qu|]. intros received R.
  eapply C87_nothing_missing; try eassumption; [congruence|]. apply (never_lost _ _ _ _ _ H'). unfold all_open. rewrite Cl. exact C.
Qed.

(** While setting and limit agree, this sender is the one of C31 and C77. *)
Theorem C87_same_limit max pkids s : cur_max s = max ->
  option_map l_net (l_sender max pkids s) = net_sender max pkids (l_net s) /\ (forall k p, option_map l_net (l_direct k p s) = net_direct max k p (l_net s)).
Proof.
  intros E. split.
  - unfold l_sender, net_sender. cbv zeta. rewrite E, same_limits. destruct (x_uout (l_net s)); [destruct (sender_step max pkids (x_u (l_net s)))|]; reflexivity.
  - intros k p. unfold l_direct. rewrite E. destruct (net_direct max k p (l_net s)); reflexivity.
Qed.

(** A new limit holds from the moment the sender takes it over: every datagram made after that obeys the limit last given, and no other. *)
Lemma cur_limited qcap lim s : limited qcap lim s -> length (l_max s) = length (x_clients (l_net s)) /\ x_clients (l_net s) <> [] /\ cur_max s = lim.
Proof.
  assert (forall s s', l_max s' = l_max s -> length (x_clients (l_net s')) = length (x_clients (l_net s)) ->
    length (l_max s) = length (x_clients (l_net s)) /\ x_clients (l_net s) <> [] /\ cur_max s = lim -> length (l_max s') = length (x_clients (l_net s')) /\ x_clients (l_net s') <> [] /\ cur_max s' = lim) as K.
  { intros s1 s2 E1 E2 (H1 & H2 & H3). unfold cur_max, current in *. rewrite E1, E2. split; [exact H1|]. split; [|exact H3]. intros E. rewrite E in E2. destruct (x_clients (l_net s1)); [congruence|discriminate E2]. }
  assert (forall cd t, x_clients (put_datagram cd t) = x_clients t) as Pc by (intros cd t; unfold put_datagram; destruct (usable t (fst cd)); reflexivity).
  intros H. revert lim s H K. intros lim s H. induction H as [conn max|lim p s _ IH|lim p pkid s s' _ IH E|lim thr pkids s s' _ IH E|lim s _ IH|lim i s _ IH|lim conn max s H IH|lim c s _ IH]; intros K; cycle 0.
  - repeat split. discriminate.
  - apply (K s); [reflexivity|reflexivity|exact (IH K)].
  - unfold l_direct, net_direct in E. destruct (write_buffer _ _ _); [|discriminate]. injection E as <-. apply (K s); [reflexivity|reflexivity|exact (IH K)].
  - unfold l_sender in E. cbv zeta in E. destruct (x_uout (l_net s)); [destruct (sender_step2 _ _ _ _); [|discriminate]|]; injection E as <-; (apply (K s); [reflexivity|reflexivity|exact (IH K)]).
  - apply (K s); [reflexivity| |exact (IH K)]. unfold l_move, net_write_sender. cbn [l_net]. destruct (x_uout (l_net s)); [reflexivity|]. rewrite Pc. reflexivity.
  - apply (K s); [reflexivity| |exact (IH K)]. unfold l_move, net_write_job. cbn [l_net]. destruct (nth_error (x_jobs (l_net s)) i) as [[|cd r]|]; [reflexivity| |reflexivity]. rewrite Pc. reflexivity.
  - clear K. assert (length (l_max s) = length (x_clients (l_net s))) as L.
    { clear IH. induction H as [conn' max'|lim' p s _ IH|lim' p pkid s s' _ IH E|lim' thr pkids s s' _ IH E|lim' s _ IH|lim' i s _ IH|lim' conn' max' s H IH|lim' c s _ IH]; cycle 0.
      - reflexivity.
      - exact IH.
      - unfold l_direct, net_direct in E. destruct (write_buffer _ _ _); [|discriminate]. injection E as <-. exact IH.
      - unfold l_sender in E. cbv zeta in E. destruct (x_uout (l_net s)); [destruct (sender_step2 _ _ _ _); [|discriminate]|]; injection E as <-; exact IH.
      - unfold l_move, net_write_sender. cbn [l_net l_max]. destruct (x_uout (l_net s)); [exact IH|]. rewrite Pc. exact IH.
      - unfold l_move, net_write_job. cbn [l_net l_max]. destruct (nth_error (x_jobs (l_net s)) i) as [[|cd r]|]; [exact IH| |exact IH]. rewrite Pc. exact IH.
      - cbn [l_reload l_net l_max net_reload x_clients]. rewrite !app_length. cbn [length]. lia.
      - unfold l_move, net_close. cbn [l_net l_max]. destruct (c <? current (l_net s))%nat eqn:Ec; [|exact IH]. destruct (nth_error (x_clients (l_net s)) c) as [cl|] eqn:En; [|exact IH].
        cbn [x_clients]. assert (nth_error (x_clients (l_net s)) c <> None) as Hn by congruence. apply nth_error_Some in Hn. rewrite app_length. cbn [length]. rewrite firstn_length, skipn_length. lia. }
    cbn [l_reload l_net l_max net_reload x_clients]. rewrite !app_length. cbn [length]. split; [lia|]. split; [destruct (x_clients (l_net s)); discriminate|].
    unfold cur_max, current. cbn [l_reload l_net l_max net_reload x_clients]. rewrite app_length. cbn [length]. replace (pred (length (x_clients (l_net s)) + 1)) with (length (l_max s)) by lia.
    rewrite app_nth2 by lia. rewrite Nat.sub_diag. reflexivity.
  - apply (K s); [reflexivity| |exact (IH K)]. unfold l_move, net_close. cbn [l_net]. destruct (c <? current (l_net s))%nat eqn:Ec; [|reflexivity]. destruct (nth_error (x_clients (l_net s)) c) as [cl|] eqn:En; [|reflexivity].
    cbn [x_clients]. assert (nth_error (x_clients (l_net s)) c <> None) as Hn by congruence. apply nth_error_Some in Hn. rewrite app_length. cbn [length]. rewrite firstn_length, skipn_length. lia.
Qed.
Theorem C87_limit_obeyed qcap lim s s' : 0 < lim <= 2147483647 -> limited qcap lim s ->
  (exists pkid p, l_direct pkid p s = Some s') \/ (exists thr pkids, l_sender thr pkids s = Some s') ->
  exists ds, x_made (l_net s') = x_made (l_net s) ++ ds /\ Forall (fun d => zlen d <= lim + 25) ds.
Proof.
  intros Hl H. destruct (cur_limited _ _ _ H) as (_ & _ & C). intros [(pkid & p & E)|(thr & pkids & E)].
  - unfold l_direct, net_direct in E. rewrite C in E. destruct (write_buffer lim pkid (bytes_of p)) as [ds|] eqn:Ew; [|discriminate]. injection E as <-. exists ds. split; [reflexivity|].
    exact (C32_single_bound lim _ _ _ (proj1 Hl) Ew).
  - unfold l_sender in E. cbv zeta in E. rewrite C in E. destruct (x_uout (l_net s)) as [|cd more]; [|injection E as <-; exists []; rewrite app_nil_r; auto].
    destruct (sender_step2 thr lim pkids (x_u (l_net s))) as [u|] eqn:Eu; [|discriminate]. injection E as <-. cbn [l_net x_made]. eexists. split; [reflexivity|].
    assert (exists ds, wire u = wire (x_u (l_net s)) ++ ds /\ Forall (fun d => zlen d <= lim + 25) ds) as (ds & -> & F).
    { revert Eu. unfold sender_step2. destruct (snd_state (x_u (l_net s))) as [|[|n] held size].
      - destruct (queue (x_u (l_net s))) as [|b [|b' q]].
        + intros [= <-]. exists []. rewrite app_nil_r. auto.
        + destruct (write_buffer lim (pkids O) b) as [ds|] eqn:Ew; [|discriminate]. intros [= <-]. exists ds. split; [reflexivity|]. exact (C32_single_bound lim _ _ _ (proj1 Hl) Ew).
        + intros [= <-]. exists []. rewrite app_nil_r. auto.
      - destruct (write_buffer_list lim pkids held) as [ds|] eqn:Ew; [|discriminate]. intros [= <-]. exists ds. split; [reflexivity|]. exact (C32_list_bound lim _ _ _ Hl Ew).
      - destruct (queue (x_u (l_net s))) as [|b q]; [intros [= <-]; exists []; rewrite app_nil_r; auto|]. destruct (thr <=? size + zlen b).
        + destruct (send_list lim pkids held) as [ds|] eqn:Ew; [|discriminate]. intros [= <-]. exists ds. split; [reflexivity|]. unfold send_list in Ew.
          destruct held as [|h1 [|h2 r]]; [injection Ew as <-; constructor|exact (C32_single_bound lim _ _ _ (proj1 Hl) Ew)|exact (C32_list_bound lim _ _ _ Hl Ew)].
        + intros [= <-]. exists []. rewrite app_nil_r. auto. }
    rewrite skipn_app, skipn_all, Nat.sub_diag. exact F.
Qed.

(* ------------------------------------------------------------------ *)
(** * Concrete histories *)
Inductive lim_op := LQueue (p : pack) | LDirect (pkid : Z) (p : pack) | LSender (thr pkid : Z) | LWriteSender | LWrite (i : nat) | LReload (max : Z) | LClose (c : nat).
Definition keys_from (k : Z) (i : nat) : Z := if Z.of_nat i <? 32768 then k + Z.of_nat i else k.
Definition lim_step (qcap lo : Z) (o : lim_op) (x : list pack * list pack * lnet) : option (list pack * list pack * lnet) :=
  let '(qs, ps, s) := x in
  match o with
  | LQueue p => if proper_b lo p then Some (qs ++ [p], ps, l_add_pack qcap p s) else None
  | LDirect k p => match l_direct k p s with
                   | Some s' => if proper_b lo p && in64 k && new_keys_b (l_net s) (l_net s') then Some (qs, ps ++ [p], s') else None
                   | None => None
                   end
  | LSender thr k => match l_sender thr (keys_from k) s with Some s' => if in64 k && in64 (k + 32768) && new_keys_b (l_net s) (l_net s') then Some (qs, ps, s') else None | None => None end
  | LWriteSender => Some (qs, ps, l_move net_write_sender s)
  | LWrite i => Some (qs, ps, l_move (net_write_job i) s)
  | LReload max => if (lo <=? max) && (max <=? 2147483647) then Some (qs, ps, l_reload true max s) else None
  | LClose c => Some (qs, ps, l_move (net_close c) s)
  end.
Fixpoint lim_run (qcap lo : Z) (os : list lim_op) (x : list pack * list pack * lnet) : option (list pack * list pack * lnet) :=
  match os with [] => Some x | o :: r => match lim_step qcap lo o x with Some y => lim_run qcap lo r y | None => None end end.
Lemma lim_history qcap lo os : forall qs ps s x, changing qcap lo qs ps s -> lim_run qcap lo os (qs, ps, s) = Some x -> let '(qs', ps', s') := x in changing qcap lo qs' ps' s'.
Proof.
  induction os as [|o os IH]; intros qs ps s x H E; cbn [lim_run] in E; [injection E as <-; exact H|].
  destruct (lim_step qcap lo o (qs, ps, s)) as [[[qs1 ps1] s1]|] eqn:Eo; [|discriminate]. refine (IH qs1 ps1 s1 x _ E). clear IH E. destruct o; cbn [lim_step] in Eo.
  - destruct (proper_b lo p) eqn:P; [|discriminate]. injection Eo as <- <- <-. apply ch_queue; [exact H|apply proper_ok, P].
  - destruct (l_direct pkid p s) as [s'|] eqn:D; [|discriminate]. destruct (proper_b lo p) eqn:P; [|discriminate]. destruct (in64 pkid) eqn:I; [|discriminate]. destruct (new_keys_b (l_net s) (l_net s')) eqn:K; [|discriminate].
    injection Eo as <- <- <-. eapply ch_direct; [exact H|apply proper_ok, P|apply in64_ok, I|exact D|apply new_keys_ok, K].
  - destruct (l_sender thr (keys_from pkid) s) as [s'|] eqn:D; [|discriminate]. destruct (in64 pkid) eqn:I; [|discriminate]. destruct (in64 (pkid + 32768)) eqn:I2; [|discriminate]. destruct (new_keys_b (l_net s) (l_net s')) eqn:K; [|discriminate].
    injection Eo as <- <- <-. eapply ch_sender; [exact H| | |exact D|apply new_keys_ok, K].
    + clear - I I2. intros i. unfold keys_from, in_int64, in64 in *. destruct (Z.of_nat i <? 32768) eqn:E; lia.
    + clear. intros i j A B. unfold keys_from. replace (Z.of_nat i <? 32768) with true by lia. replace (Z.of_nat j <? 32768) with true by lia. lia.
  - injection Eo as <- <- <-. apply ch_write_sender, H.
  - injection Eo as <- <- <-. apply ch_write_job, H.
  - destruct (lo <=? max) eqn:A; [|discriminate]. destruct (max <=? 2147483647) eqn:B; [|discriminate]. injection Eo as <- <- <-. apply ch_reload; [exact H|lia].
  - injection Eo as <- <- <-. apply ch_close, H.
Qed.

(** Limit 100, then 20, then 100: an object pack handed over under each of the first two limits (whole, then in pieces) and two texts through the queue. *)
Definition lim_ops : list lim_op :=
  [LQueue (demo_text 1); LDirect 5 demo_object; LReload 20; LQueue (demo_text 2); LDirect 6 demo_object; LSender 100 1000; LSender 20 1000; LReload 100; LSender 20 1000; LSender 100 1000;
   LWrite 0; LWrite 1; LWrite 1; LWriteSender; LWriteSender; LWriteSender; LSender 100 1000; LWriteSender; LWriteSender].
Example C87_case : exists qs ps s, changing 8 20 qs ps s /\ qs = [demo_text 1; demo_text 2] /\ ps = [demo_object; demo_object] /\ l_max s = [100; 20; 100] /\
  dropped (x_u (l_net s)) = [] /\ x_lost (l_net s) = [] /\ at_rest (l_net s) /\ Forall (fun c => c = mkClient true true) (x_clients (l_net s)) /\
  Forall (fun p => zlen (bytes_of p) <= 20) qs /\ map fst (x_sent (l_net s)) = [0; 1; 1; 2; 2]%nat.
Proof.
  destruct (lim_run 8 20 lim_ops ([], [], lnet0 true 100)) as [[[qs ps] s]|] eqn:E; [|vm_compute in E; discriminate].
  pose proof (lim_history 8 20 lim_ops [] [] (lnet0 true 100) _ (ch_start 8 20 true 100 ltac:(lia)) E) as H. cbn iota beta in H. exists qs, ps, s. split; [exact H|].
  vm_compute in E. injection E as <- <- <-. split; [vm_compute; reflexivity|]. split; [vm_compute; reflexivity|]. split; [reflexivity|]. split; [reflexivity|]. split; [reflexivity|].
  split; [repeat split|]. split; [repeat constructor|]. split; [|vm_compute; reflexivity]. apply Forall_cons; [vm_compute; discriminate|]. apply Forall_cons; [vm_compute; discriminate|]. apply Forall_nil.
Qed.

(** Not kept: the order of the queue. While the client has a lower limit than the setting says, a pack too long for it overtakes the shorter ones queued before it. *)
Theorem C87_order_refuted : ~ (forall qcap lo qs ps s, 0 < lo -> qcap <= 32767 -> changing qcap lo qs ps s -> at_rest (l_net s) -> x_lost (l_net s) = [] -> dropped (x_u (l_net s)) = [] -> ps = [] ->
  collector (map snd (x_sent (l_net s))) = map collector_pack qs).
Proof.
  intros C. destruct (lim_run 8 20 [LQueue (demo_text 1); LQueue demo_object; LSender 100 0; LSender 100 0; LSender 100 0; LSender 100 0; LWriteSender; LWriteSender; LWriteSender] ([], [], lnet0 true 20)) as [[[qs ps] s]|] eqn:E; [|vm_compute in E; discriminate].
  pose proof (lim_history 8 20 _ [] [] (lnet0 true 20) _ (ch_start 8 20 true 20 ltac:(lia)) E) as H. cbn iota beta in H. specialize (C 8 20 qs ps s ltac:(lia) ltac:(lia) H).
  vm_compute in E. injection E as <- <- <-. specialize (C ltac:(repeat split) eq_refl eq_refl eq_refl). vm_compute in C. discriminate.
Qed.
(** Not harmless: the limit 0. The next pack to be sent, by either path, divides by zero, in a goroutine without recover. *)
Theorem C87_zero_stops qcap p thr pkids k : 0 < qcap -> go_pack p = true -> needs_v2 p = false ->
  l_sender thr pkids (l_add_pack qcap p (lnet0 true 0)) = None /\ l_direct k p (lnet0 true 0) = None.
Proof.
  intros Q G V. assert (write_buffer 0 (pkids O) (bytes_of p) = None /\ write_buffer 0 k (bytes_of p) = None) as (A & B).
  { assert (0 <? zlen (bytes_of p) = true) as L. { pose proof (bytes_nonempty p G V). destruct (bytes_of p); [congruence|]. unfold zlen. cbn [length]. lia. }
    unfold write_buffer. rewrite L. split; reflexivity. }
  split.
  - unfold l_sender, l_add_pack, net_add_pack, lnet0, net0, add_buffer, usys0. cbv zeta. cbn [l_net x_uout x_u queue].
    replace (zlen (@nil bytes) <? qcap) with true by (change (zlen (@nil bytes)) with 0; lia). unfold sender_step2. cbn [snd_state queue app]. unfold cur_max, current. cbn [l_net l_max x_clients length Nat.pred nth]. rewrite A. reflexivity.
  - unfold l_direct, net_direct, cur_max, current, lnet0, net0. cbn [l_net l_max x_clients length Nat.pred nth]. rewrite B. reflexivity.
Qed.
Theorem C87_zero_refuted : ~ (forall qcap max p thr pkids, 0 < qcap -> 0 <= max -> proper 100 p -> exists s', l_sender thr pkids (l_add_pack qcap p (lnet0 true max)) = Some s').
Proof.
  intros C. assert (proper 100 (demo_text 1)) as P by (apply proper_ok; vm_compute; reflexivity).
  destruct (C 8 0 (demo_text 1) 0 (fun _ => 0) ltac:(lia) ltac:(lia) P) as (s' & E). destruct P as (G & V & _). rewrite (proj1 (C87_zero_stops 8 _ 0 (fun _ => 0) 0 ltac:(lia) G V)) in E. discriminate.
Qed.

Example C87_limit_case : exists s s', limited 8 20 s /\ l_direct 5 demo_object s = Some s' /\ x_made (l_net s) = [] /\ (2 <=? length (x_made (l_net s')))%nat = true.
Proof.
  pose (s := l_reload true 20 (lnet0 true 100)).
  assert (match l_direct 5 demo_object s with Some s' => (2 <=? length (x_made (l_net s')))%nat | None => false end = true) as T by (vm_compute; reflexivity).
  destruct (l_direct 5 demo_object s) as [s'|] eqn:E; [|discriminate]. exists s, s'. split; [apply lm_reload with (lim := 100), lm_start|]. split; [exact E|]. split; [reflexivity|exact T].
Qed.

Print Assumptions C87_no_invention.
Print Assumptions C87_nothing_missing.
Print Assumptions C87_direct_arrives.
Print Assumptions C87_never_stops.
Print Assumptions C87_completes.
Print Assumptions C87_same_limit.
Print Assumptions C87_limit_obeyed.
Print Assumptions C87_order_refuted.
Print Assumptions C87_zero_refuted.
Print Assumptions C87_zero_stops.
