(** Property C40 for whole histories: the step and byte counts of an xlog are those of the profile packs sent for the service before it
    was ended; the steps that the end itself sends are the difference to the whole profile. *)
From Verif Require Import GoInt M_Util M_Hash M_StrMatch M_Packs M_Steps M_Cache L_Cache M_Text M_Sampler M_Profile L_Profile S_Profile M_Trace
  L_Trace L_TraceRel S_Trace L_TraceInv L_TraceStart L_TraceSafe L_TraceActive L_TraceHist S_Steps S_Sampler P_Profile P_Trace P_Trace2 P_Trace3
  S_Hash L_Hash S_Ledger L_Ledger L_Ledger2 L_Ledger3 L_Ledger4 L_Ledger5 P_Ledger.
From Coq Require Import ZifyBool.

(** the profile packs that were sent for service [h] *)
Definition packs_of (h : nat) (a : agent) : list profile_pack := match nth_error (a_ctx a) h with Some x => p_sent (x_Profile x) | None => [] end.
(** what a collector reads in profile packs: the steps of each *)
Definition reads (packs : list profile_pack) (steps : list (list step)) : Prop := map (fun pk => decode_profile (pp_Profile pk)) packs = map Some steps.
Definition bytes_in (packs : list profile_pack) : Z := fold_right (fun pk n => zlen (pp_Profile pk) + n) 0 packs.

Lemma reads_app p q ds : reads (p ++ q) ds -> exists d e, ds = d ++ e /\ reads p d /\ reads q e.
Proof. unfold reads. rewrite map_app. intros H. symmetry in H. apply map_eq_app in H. destruct H as (d & e & -> & H1 & H2). eauto. Qed.
Lemma reads_same p d e : reads p d -> reads p e -> d = e.
Proof.
  unfold reads. intros H1 H2. rewrite H1 in H2. clear H1. revert e H2. induction d as [|x d IH]; intros [|y e] H; try discriminate H; [reflexivity|].
  cbn [map] in H. injection H as -> H. f_equal. apply IH, H.
Qed.
Lemma bytes_fold l : fold_right Z.add 0 (map (fun pk => zlen (pp_Profile pk)) l) = bytes_in l.
Proof. induction l as [|x l IH]; [reflexivity|]. cbn [map fold_right bytes_in]. rewrite IH. reflexivity. Qed.

Lemma groups_extend e gs : forall p, exists more, p_sent (fold_left (fun p g => send_profile0 e g p) gs p) = p_sent p ++ more.
Proof.
  induction gs as [|g gs IH]; intros p; cbn [fold_left]; [exists []; rewrite app_nil_r; reflexivity|].
  destruct (IH (send_profile0 e g p)) as (more & ->). destruct g; cbn [send_profile0 p_sent]; [exists more; reflexivity|]. rewrite <- app_assoc. eexists. reflexivity.
Qed.
Lemma close_extends e ok p p' : close e ok p = Some p' -> exists more, p_sent p' = p_sent p ++ more.
Proof.
  unfold close. destruct (p_buf p) as [|a l]; [intros H; injection H as <-; exists []; rewrite app_nil_r; reflexivity|].
  destruct ok; [|intros H; injection H as <-; exists []; rewrite app_nil_r; reflexivity].
  unfold send_profile. destruct (send_groups _ _); [|discriminate]. intros H. injection H as <-. apply groups_extend.
Qed.

(** For every ended service whose steps were each ended at most once, kept by the sampler or not. *)
Theorem C40_xlog_counts_partial c ops : well_used c ops -> Forall typed ops -> exists rs l reps, follows c ops rs l reps /\
  forall n k h acc p, good n -> nth_error l h = Some acc -> over acc = false -> ended_once 0 [] (did acc) -> is_end (CTrace h) k ->
    In (EvXlog h p) (a_log (fst (do_call n k (after c ops)))) ->
    exists ds, reads (packs_of h (after c ops)) ds /\
      xl_ProfileCount p = int32 (zlen (concat ds)) /\ xl_ProfileSize p = int32 (bytes_in (packs_of h (after c ops))) /\
      (exists more, packs_of h (fst (do_call n k (after c ops))) = packs_of h (after c ops) ++ more /\
        (profile_kept (after c ops) n acc -> exists es, reads more es /\
          zlen (concat ds) + zlen (concat es) = zlen (finished_steps (did acc)))).
Proof.
  intros W T. destruct (history_books c ops W) as (rs & l & reps & H1 & H2 & H3 & H4). exists rs, l, reps.
  split; [split; [exact H1|split; [exact H2|split; [exact H4|symmetry; exact (f2_len _ _ _ H3)]]]|].
  intros n k h acc p G E O On Hk I. destruct (f2_nth _ _ _ H3 h acc E) as (x & Ex & Mx).
  pose proof (tidy_nth _ _ _ (tidy_run _ _ _ _ _ H2 T ltac:(constructor)) E) as Td.
  assert (x_Closed x = false) as Cl by (rewrite (mt_over _ _ Mx); exact O).
  assert (Forall (fun nk => cf_bulk (n_conf (fst nk)) <> 0) ops) as Fb.
  { apply Forall_forall. intros [m q] Hin. apply in_split in Hin. destruct Hin as (o1 & o2 & Eo). destruct (W o1 m q o2 Eo) as (Gm & _). destruct Gm. cbn [fst]. lia. }
  destruct (once_run c ops Fb) as [_ _ _ Ol].
  destruct (end_call_eq n k h (after c ops) x Hk Ex Cl ltac:(destruct G; lia)) as (p' & Ep & Ed). rewrite Ed in I |- *. cbn [fst] in I |- *. cbv zeta in Ep.
  set (a := after c ops) in *. set (y := with_status k x) in *.
  assert (xl_ProfileCount p = int32 (p_count (x_Profile x)) /\ xl_ProfileSize p = int32 (p_size (x_Profile x))) as (C1 & C2).
  { cbn [end_state a_log] in I. apply in_app_iff in I. destruct I as [I|I].
    - destruct (Ol h p I) as (z & Ez & Cz & _). rewrite Ex in Ez. injection Ez as <-. rewrite Cl in Cz. discriminate Cz.
    - unfold end_events in I. destruct I as [I|I]; [discriminate I|]. destruct (sends _ _); [|destruct I]. destruct I as [I|[]]. injection I as <-.
      cbn [the_xlog xl_ProfileCount xl_ProfileSize]. unfold y, with_status. split; (destruct k; try reflexivity; destruct status; reflexivity). }
  assert (x_Profile y = x_Profile x) as Py by (unfold y, with_status; destruct k; try reflexivity; destruct status; reflexivity). rewrite Py in Ep.
  assert (packs_of h a = p_sent (x_Profile x)) as Pa by (unfold packs_of; rewrite Ex; reflexivity).
  assert (forall ev, packs_of h (end_state n h y p' ev a) = p_sent p') as Pb.
  { intros ev. unfold packs_of. cbn [end_state a_ctx]. rewrite (list_set_same (a_ctx a) h) by (apply nth_error_Some; congruence). reflexivity. }
  rewrite Pa, Pb. destruct (mt_prof _ _ Mx O) as (keep & p0 & es & Hkp & Hn & L & F & R).
  assert (Forall (fun eo => good_env (fst eo) /\ e_txid (fst eo) = num_of acc NTxid /\ plain (payload (snd eo))) (combine es (did acc))) as Fc.
  { apply Forall_forall. intros [e' o] Hin. unfold tidy in Td. rewrite Forall_forall in F, Td. destruct (F e' (in_combine_l _ _ _ _ Hin)) as (A & B). cbn [fst snd].
    split; [exact A|]. split; [exact B|]. exact (Td o (in_combine_r _ _ _ _ Hin)). }
  destruct (C40_counters_exact_partial keep p0 (combine es (did acc)) (num_of acc NTxid) Hkp Hn Fc (once_combine _ _ _ _ L On)) as (q & ds & R' & D1 & D2 & D3).
  rewrite R in R'. injection R' as <-. exists ds. split; [exact D1|]. split; [congruence|]. split; [rewrite C2, D3, bytes_fold; reflexivity|].
  destruct (close_extends _ _ _ _ Ep) as (more & Em). exists more. split; [exact Em|]. intros K.
  destruct (end_profile n k h a l acc G Hk H3 E O K Td On) as (z & Ez & ds2 & Z1 & Z2 & _). rewrite Ed in Ez. cbn [fst] in Ez.
  assert (p_sent (x_Profile z) = p_sent p') as Zp. { generalize (Pb (end_events n h y (discard_of n a y))). unfold packs_of. rewrite Ez. auto. }
  rewrite Zp, Em in Z1. destruct (reads_app _ _ _ Z1) as (d & e & -> & R1 & R2). pose proof (reads_same _ _ _ R1 D1) as ->. exists e. split; [exact R2|].
  apply (f_equal (@length _)) in Z2. rewrite !map_length, concat_app, app_length in Z2. unfold zlen. lia.
Qed.
Print Assumptions C40_xlog_counts_partial.

(** Room for two steps: of the start step and four messages, four steps are sent at once and counted, the last one only at the end. *)
Definition count_ops : list (env * call) :=
  [(env_keep 2 100 11 1000000, KStartService CNil (of_string "/a") (of_string "10.0.0.1"));
   (env_keep 2 100 12 2000000, KAddMessage (CTrace 0) (of_string "one"));
   (env_keep 2 100 13 3000000, KAddMessage (CTrace 0) (of_string "two"));
   (env_keep 2 100 14 4000000, KAddMessage (CTrace 0) (of_string "three"));
   (env_keep 2 100 14 5000000, KAddMessage (CTrace 0) (of_string "four"))].
Example C40_counts_case : exists rs l reps acc, well_used sconf0 count_ops /\ Forall typed count_ops /\ good (env_keep 2 100 15 9000000) /\
  ledger_run [] count_ops rs l reps /\ nth_error l 0 = Some acc /\ over acc = false /\ ended_once 0 [] (did acc) /\
  profile_kept (after sconf0 count_ops) (env_keep 2 100 15 9000000) acc /\
  match a_log (fst (do_call (env_keep 2 100 15 9000000) (KEndService (CTrace 0)) (after sconf0 count_ops))) with
  | [EvMeter _ _ _; EvXlog O p] => (xl_ProfileCount p =? 4) && (xl_ProfileSize p =? bytes_in (packs_of 0 (after sconf0 count_ops))) && (10 <? xl_ProfileSize p)
  | _ => false end = true /\
  zlen (finished_steps (did acc)) = 5.
Proof.
  eexists _, _, _, _. split; [|split; [|split; [|split; [|split; [|split; [|split; [|split; [|split]]]]]]]].
  - apply easy_used. unfold count_ops. repeat (constructor; [split; [split; cbn; lia|exact I]|]). constructor.
  - unfold count_ops. repeat (constructor; [split; [split; vm_compute; discriminate|exact I]|]). constructor.
  - split; cbn; lia.
  - unfold count_ops; repeat (eapply hist_cons; [reflexivity|]); apply hist_nil.
  - reflexivity.
  - reflexivity.
  - vm_compute. auto.
  - vm_compute. reflexivity.
  - vm_compute. reflexivity.
  - vm_compute. reflexivity.
Qed.
