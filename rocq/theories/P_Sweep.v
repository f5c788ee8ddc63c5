(** Property C63 with removals: when the counts that end stuck services see all running services, the ledger of a history is exact. And
    property C100 on histories in which stuck services are ended. *)
From Verif Require Import GoInt M_Util M_Hash M_StrMatch M_Packs M_Steps M_Cache L_Cache M_Text M_Sampler M_Profile L_Profile S_Profile M_Trace
  L_Trace L_TraceRel S_Trace L_TraceInv L_TraceStart L_TraceSafe L_TraceActive L_TraceHist S_Steps S_Sampler P_Profile P_Trace P_Trace2 P_Trace3
  S_Hash L_Hash S_Ledger L_Ledger L_Ledger2 L_Ledger3 L_Ledger4 L_Ledger5 P_Ledger S_Isolation S_Sweep L_StuckProfile P_StuckProfile L_Sweep P_Isolation.
From Coq Require Import ZifyBool Permutation.

Theorem C63_exact_ledger c ops : well_used c ops -> checks_fit c ops -> exists rs l reps, follows c ops rs l reps /\ exact_run [] ops rs l reps.
Proof. intros W Q. destruct (exact_profiles c ops W Q) as (rs & l & reps & F & X & _). eauto. Qed.

(** the profile of a service that a count ends, in two histories with the same tale of it *)
Lemma swept_profile c ops n h t : well_used c (ops ++ [(n, KActiveCount)]) -> checks_fit c (ops ++ [(n, KActiveCount)]) ->
  nth_error (tales ops) h = Some t -> Forall typed ops ->
  exists rs l reps, follows c ops rs l reps /\ nth_error l h = Some (acc_of t) /\
    (over (acc_of t) = false -> is_stuck n (acc_of t) -> ended_once 0 [] (did (acc_of t)) ->
     exists ds, profile_of c ops n KActiveCount h ds /\
       map strip (concat ds) = map (fun st => strip (view_step st)) (finished_steps (did (acc_of t))) ++ [stuck_message n (acc_of t)] /\
       map get_index (concat ds) = map (fun a => int32 (Z.of_nat a)) (finish_numbers 0 (did (acc_of t))) ++ [int32 (Z.of_nat (next_step (acc_of t)))]).
Proof.
  intros W Q E Ty. assert (well_used c ops) as W0 by (intros p m k q Eo; apply (W p m k (q ++ [(n, KActiveCount)])); rewrite Eo, <- app_assoc; reflexivity).
  destruct (W ops n KActiveCount [] eq_refl) as (G & P). cbn [sensible snd fst] in P.
  destruct (exact_books c ops W0 (checks_prefix _ _ _ Q)) as (rs & l & reps & H1 & H2 & X & H3 & H4).
  assert (nth_error l h = Some (acc_of t)) as A by (destruct (ledger_tales _ _ _ _ X) as (-> & _); rewrite nth_error_map, E; reflexivity).
  exists rs, l, reps. split; [split; [exact H1|split; [exact H2|split; [exact H4|symmetry; exact (f2_len _ _ _ H3)]]]|]. split; [exact A|].
  intros O (Hr & St) On. destruct (Q ops n [] eq_refl Hr) as (N0 & B & L).
  destruct (stuck_told c ops rs l reps W0 (fun p q Eo => B p q Eo) H2 H3 Ty n G N0 L P h _ A O (conj Hr St) On) as (y & ds & E1 & _ & E2 & E3 & E4 & _).
  exists ds. split; [exists y; auto|auto].
Qed.
Theorem C100_stuck_profiles c1 ops1 n1 h1 c2 ops2 n2 h2 t :
  well_used c1 (ops1 ++ [(n1, KActiveCount)]) -> well_used c2 (ops2 ++ [(n2, KActiveCount)]) ->
  checks_fit c1 (ops1 ++ [(n1, KActiveCount)]) -> checks_fit c2 (ops2 ++ [(n2, KActiveCount)]) ->
  nth_error (tales ops1) h1 = Some t -> nth_error (tales ops2) h2 = Some t -> Forall typed ops1 -> Forall typed ops2 -> seen_by n1 = seen_by n2 ->
  exists rs1 l1 reps1 rs2 l2 reps2 acc, follows c1 ops1 rs1 l1 reps1 /\ follows c2 ops2 rs2 l2 reps2 /\
    nth_error l1 h1 = Some acc /\ nth_error l2 h2 = Some acc /\
    (over acc = false -> is_stuck n1 acc -> ended_once 0 [] (did acc) ->
     exists ds1 ds2, profile_of c1 ops1 n1 KActiveCount h1 ds1 /\ profile_of c2 ops2 n2 KActiveCount h2 ds2 /\
       map strip (concat ds1) = map strip (concat ds2) /\ map get_index (concat ds1) = map get_index (concat ds2)).
Proof.
  intros W1 W2 Q1 Q2 E1 E2 T1 T2 Sn.
  destruct (swept_profile _ _ _ _ _ W1 Q1 E1 T1) as (rs1 & l1 & reps1 & F1 & A1 & P1). destruct (swept_profile _ _ _ _ _ W2 Q2 E2 T2) as (rs2 & l2 & reps2 & F2 & A2 & P2).
  exists rs1, l1, reps1, rs2, l2, reps2, (acc_of t). split; [exact F1|]. split; [exact F2|]. split; [exact A1|]. split; [exact A2|]. intros O St On.
  assert (n_conf n1 = n_conf n2 /\ n_now n1 = n_now n2) as (Ec & En) by (split; [exact (f_equal n_conf Sn)|exact (f_equal n_now Sn)]).
  assert (is_stuck n2 (acc_of t)) as St2 by (unfold is_stuck in *; rewrite <- Ec, <- En; exact St).
  assert (stuck_message n1 (acc_of t) = stuck_message n2 (acc_of t)) as M by (unfold stuck_message, ms; rewrite En; reflexivity).
  destruct (P1 O St On) as (ds1 & B1 & S1 & I1). destruct (P2 O St2 On) as (ds2 & B2 & S2 & I2). exists ds1, ds2. rewrite S1, S2, M, I1, I2. auto.
Qed.

(** two services, of which the count finds the first one stuck *)
Definition count_env : env := stuck_env.
Definition swept_ops : list (env * call) := stuck_ops ++ [(count_env, KActiveCount)].
Definition lone_ops : list (env * call) := firstn 1 stuck_ops.
Definition lone_env : env := mkN (conf0 100 100) 404000000000 (fun _ _ => true) 0 13 7 (table (a_active (after sconf0 lone_ops))).
Definition lone_swept : list (env * call) := lone_ops ++ [(lone_env, KActiveCount)].

Lemma app_unit_split {A} (p q : list A) a : forall l, l ++ [a] = p ++ q -> (q = [] /\ p = l ++ [a]) \/ exists q', q = q' ++ [a] /\ l = p ++ q'.
Proof.
  intros l E. destruct q as [|z q] using rev_ind; [left; rewrite app_nil_r in E; auto|right].
  rewrite app_assoc in E. apply app_inj_tail in E as (E & <-). eauto.
Qed.
Lemma fits ops n : no_removals ops -> NoDup (txids (after sconf0 ops)) -> (forall p1 p2, ops = p1 ++ p2 -> running_count (after sconf0 p1) <= 10000) ->
  running_count (after sconf0 ops) <= 2000 -> checks_fit sconf0 (ops ++ [(n, KActiveCount)]).
Proof.
  intros Q N0 B L p m q E Hr. destruct (app_unit_split _ _ _ _ E) as [(Z & _) | (q' & Eq & El)]; [discriminate Z|].
  destruct q' as [|z q']; cbn [app] in Eq.
  - injection Eq as ->. rewrite app_nil_r in El. subst p. auto.
  - injection Eq as <- ->. exfalso. rewrite (Q m) in Hr by (rewrite El; apply in_or_app; right; left; reflexivity). discriminate Hr.
Qed.
Lemma stuck_good : good stuck_env.
Proof. split; vm_compute; discriminate. Qed.
Lemma lone_good : good lone_env.
Proof. split; vm_compute; discriminate. Qed.
Lemma used_snoc ops n : well_used sconf0 ops -> good n -> Permutation (n_order n) (table (a_active (after sconf0 ops))) -> well_used sconf0 (ops ++ [(n, KActiveCount)]).
Proof.
  intros W G P p m k q E. destruct (app_unit_split _ _ _ _ E) as [(Z & _) | (q' & Eq & El)]; [discriminate Z|].
  destruct q' as [|z q']; cbn [app] in Eq; [injection Eq as -> -> ->; rewrite app_nil_r in El; subst p; split; [exact G|exact P]|].
  injection Eq as <- E2. exact (W p m k q' El).
Qed.
Lemma swept_used : well_used sconf0 swept_ops /\ checks_fit sconf0 swept_ops.
Proof.
  destruct C49_case as (W & G & N0 & B & L & P & _). split.
  - apply used_snoc; assumption.
  - apply fits; try assumption. intros n H. cbn [stuck_ops In] in H. repeat (destruct H as [H|H]; [discriminate H|]). destruct H.
Qed.
Lemma lone_used : well_used sconf0 lone_swept /\ checks_fit sconf0 lone_swept.
Proof.
  split.
  - apply used_snoc; [|exact lone_good|apply Permutation_refl]. apply easy_used. unfold lone_ops. cbn [firstn stuck_ops]. constructor; [split; [apply env0_good|exact I]|constructor].
  - apply fits.
    + intros n H. cbn [lone_ops firstn stuck_ops In] in H. destruct H as [H|[]]. discriminate H.
    + replace (txids (after sconf0 lone_ops)) with [11] by (vm_compute; reflexivity). repeat constructor. cbn. tauto.
    + intros p q E. apply Z.leb_le. revert p q E. apply (prefix_check (fun p => running_count (after sconf0 p) <=? 10000)). vm_compute. reflexivity.
    + vm_compute. discriminate.
Qed.
Definition ended_log (log : list aevent) : list (nat * Z) := flat_map (fun e => match e with EvMeter h el _ => [(h, el)] | _ => [] end) log.
Example C63_exact_ledger_case : well_used sconf0 swept_ops /\ checks_fit sconf0 swept_ops /\
  (exists l reps, exact_run [] swept_ops [RCtx (CTrace 0); RCtx (CTrace 1); RCounts 0 1 1] l reps /\ map over l = [true; false] /\ map r_service reps = [O]) /\
  ended_log (a_log (after sconf0 swept_ops)) = [(O, 403999)].
Proof.
  split; [apply swept_used|]. split; [apply swept_used|]. split; [|vm_compute; reflexivity].
  eexists _, _. split; [|split; shelve]. unfold swept_ops. cbn [app stuck_ops]. eapply exact_cons; [reflexivity|]. eapply exact_cons; [reflexivity|].
  eapply exact_cons; [split; [reflexivity|apply Permutation_refl]|apply exact_nil].
  Unshelve. all: vm_compute; reflexivity.
Qed.
Example C100_removal_case : well_used sconf0 swept_ops /\ well_used sconf0 lone_swept /\ checks_fit sconf0 swept_ops /\ checks_fit sconf0 lone_swept /\
  (exists t, nth_error (tales swept_ops) 0 = Some t /\ nth_error (tales lone_swept) 0 = Some t) /\
  match samples_of 0 (a_log (after sconf0 swept_ops)), samples_of 0 (a_log (after sconf0 lone_swept)) with [(403999, _)], [(403999, _)] => true | _, _ => false end = true.
Proof.
  split; [apply swept_used|]. split; [apply lone_used|]. split; [apply swept_used|]. split; [apply lone_used|]. split; [|vm_compute; reflexivity].
  eexists. split; reflexivity.
Qed.

Print Assumptions C63_exact_ledger.
Print Assumptions C100_stuck_profiles.
