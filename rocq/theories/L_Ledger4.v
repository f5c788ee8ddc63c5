(** How accounts develop, and the profiles of ended services. *)
From Verif Require Import GoInt M_Util M_Hash M_StrMatch M_Packs M_Steps M_Cache L_Cache M_Text M_Sampler M_Profile L_Profile S_Profile M_Trace
  L_Trace L_TraceRel S_Trace L_TraceInv L_TraceStart L_TraceSafe L_TraceActive L_TraceHist S_Steps P_Profile P_Trace P_Trace2 P_Trace3 S_Ledger L_Ledger L_Ledger2 L_Ledger3.
From Coq Require Import ZifyBool Permutation.

(** * Accounts only grow *)
Record grows (c c' : account) : Prop := mkGrows {
  gr_txid : num_of c' NTxid = num_of c NTxid;
  gr_caller : num_of c' NCaller = num_of c NCaller;
  gr_gxid : num_of c NGxid <> 0 -> num_of c' NGxid = num_of c NGxid;
  gr_over : over c = true -> over c' = true;
  gr_did : exists more, did c' = did c ++ more }.
Lemma grows_refl c : grows c c.
Proof. constructor; auto. exists []. rewrite app_nil_r. reflexivity. Qed.
Lemma grows_trans c c1 c2 : grows c c1 -> grows c1 c2 -> grows c c2.
Proof.
  intros [A1 A2 A3 A4 (m1 & A5)] [B1 B2 B3 B4 (m2 & B5)]. constructor; try congruence; auto.
  - intros H. rewrite B3; [auto|]. rewrite A3 by exact H. exact H.
  - exists (m1 ++ m2). rewrite B5, A5, app_assoc. reflexivity.
Qed.
Lemma grows_num f v c : f <> NTxid -> f <> NCaller -> f <> NGxid -> grows c (put_num f v c).
Proof.
  intros H1 H2 H3. constructor; cbn [num_of put_num over did].
  - destruct f; try reflexivity. congruence.
  - destruct f; try reflexivity. congruence.
  - intros _. destruct f; try reflexivity. congruence.
  - auto.
  - exists []. rewrite app_nil_r. reflexivity.
Qed.
Lemma grows_txt f v c : grows c (put_txt f v c).
Proof. constructor; auto. exists []. rewrite app_nil_r. reflexivity. Qed.
Lemma grows_did o c : grows c (put_did o c).
Proof. constructor; auto. exists [o]. reflexivity. Qed.
Lemma grows_gxid c : grows c (with_gxid c).
Proof.
  unfold with_gxid. destruct (Z.eqb_spec (num_of c NGxid) 0); [|apply grows_refl]. constructor; auto; cbn; [congruence|].
  exists []. rewrite app_nil_r. reflexivity.
Qed.
Lemma grows_error e c : grows c (error_unless_set e c).
Proof. unfold error_unless_set. destruct (_ =? 0); [apply grows_num; discriminate|apply grows_refl]. Qed.
Lemma grows_stream c : grows c (as_stream c). Proof. constructor; auto. exists []. rewrite app_nil_r. reflexivity. Qed.
Lemma grows_finish c : grows c (finish c). Proof. constructor; auto. exists []. rewrite app_nil_r. reflexivity. Qed.
Lemma grows_ends c : grows c (becomes (ends_now c)).
Proof. unfold ends_now. destruct (over c); [apply grows_refl|apply grows_finish]. Qed.
Lemma grows_params n ps : forall c, grows c (add_params_to n ps c).
Proof.
  induction ps as [|p ps IH]; intros c; [apply grows_refl|]. cbn [add_params_to fold_left].
  destruct p as [s|]; [eapply grows_trans; [apply grows_did|apply IH]|apply IH].
Qed.
Ltac grow := repeat first [apply grows_refl | apply grows_ends | apply grows_stream
  | apply grows_did | apply grows_params | apply grows_gxid | apply grows_error | apply grows_txt | (apply grows_num; discriminate)].
Lemma grows_call n k c : grows c (becomes (on_account n k c)).
Proof.
  destruct k; cbn [on_account quiet becomes]; try (grow; fail).
  - destruct status; [|grow]. destruct (over c) eqn:O; [apply grows_refl|]. eapply grows_trans; [|apply grows_ends]. grow.
  - eapply grows_trans; [apply grows_error|apply grows_did].
  - destruct st; grow.
  - eapply grows_trans; [apply grows_params|]. eapply grows_trans; [apply grows_txt|apply grows_did].
  - eapply grows_trans; [apply grows_params|]. eapply grows_trans; [apply grows_txt|apply grows_did].
  - destruct ptr as [p|]; [|grow]. destruct (step_of c p) as [[]|]; grow.
  - eapply grows_trans; [apply grows_did|apply grows_gxid].
  - destruct ptr as [p|]; [|grow]. destruct (step_of c p) as [[]|]; try grow. cbn [becomes quiet]. cbv zeta. eapply grows_trans; [|apply grows_did].
    destruct err; [eapply grows_trans; [|apply grows_error]|]; (eapply grows_trans; [|apply grows_num; discriminate]); grow.
  - do 8 (eapply grows_trans; [|first [apply grows_num; discriminate|apply grows_txt]]). grow.
Qed.
Lemma reported_call n k c c1 : reported (on_account n k c) = Some c1 -> over c = false /\ becomes (on_account n k c) = finish c1 /\ grows c c1.
Proof.
  assert (reported (ends_now c) = Some c1 -> over c = false /\ becomes (ends_now c) = finish c1 /\ grows c c1) as E.
  { unfold ends_now. destruct (over c) eqn:O; [discriminate|]. intros H. injection H as <-. split; [reflexivity|]. split; [reflexivity|apply grows_refl]. }
  destruct k; cbn [on_account quiet reported]; try discriminate; try exact E.
  - destruct status; [|exact E]. destruct (over c) eqn:O; [discriminate|]. unfold ends_now. cbn [put_num over]. rewrite O. intros H. injection H as <-.
    split; [reflexivity|]. split; [reflexivity|]. grow.
  - destruct st; discriminate.
  - destruct ptr as [p|]; [|discriminate]. destruct (step_of c p) as [[]|]; discriminate.
  - destruct ptr as [p|]; [|discriminate]. destruct (step_of c p) as [[]|]; discriminate.
Qed.
Lemma grows_marked n c : grows c (marked_stuck n c).
Proof. unfold marked_stuck. eapply grows_trans; [apply grows_did|apply grows_error]. Qed.

(** * Over calls and histories *)
Definition all_grow (l l' : ledger) (rs : list report) : Prop :=
  forall h c, nth_error l h = Some c -> exists c', nth_error l' h = Some c' /\ grows c c' /\
    forall r, In r rs -> r_service r = h -> grows c (r_acc r) /\ grows (r_acc r) c' /\ over c = false /\ over c' = true.
Lemma all_refl l : all_grow l l [].
Proof. intros h c E. exists c. split; [exact E|]. split; [apply grows_refl|intros r []]. Qed.
Lemma all_trans l l1 l2 r1 r2 : all_grow l l1 r1 -> all_grow l1 l2 r2 -> all_grow l l2 (r1 ++ r2).
Proof.
  intros H1 H2 h c E. destruct (H1 h c E) as (c1 & E1 & G1 & R1). destruct (H2 h c1 E1) as (c2 & E2 & G2 & R2). exists c2. split; [exact E2|].
  split; [eapply grows_trans; eassumption|]. intros r Hr Hh. apply in_app_or in Hr. destruct Hr as [Hr|Hr].
  - destruct (R1 r Hr Hh) as (A & B & C & D). split; [exact A|]. split; [eapply grows_trans; eassumption|]. split; [exact C|]. apply (gr_over _ _ G2). exact D.
  - destruct (R2 r Hr Hh) as (A & B & C & D). split; [eapply grows_trans; eassumption|]. split; [exact B|]. split; [|exact D].
    destruct (over c) eqn:O; [|reflexivity]. apply (gr_over _ _ G1) in O. congruence.
Qed.
Lemma all_set l h c c' r : nth_error l h = Some c -> grows c c' ->
  (forall c1, r = Some c1 -> over c = false /\ c' = finish c1 /\ grows c c1) -> forall n, all_grow l (list_set l h c') (report_of h n r).
Proof.
  intros E G R n g d Eg. rewrite list_set_nth. destruct (Nat.eqb_spec h g) as [->|Hne].
  - assert (g < length l)%nat as Hl by (apply nth_error_Some; congruence). destruct (Nat.ltb_spec g (length l)); [|lia]. cbn [andb].
    assert (d = c) as -> by congruence. exists c'. split; [reflexivity|]. split; [exact G|]. intros r0 Hr _. destruct r as [c1|]; [|destruct Hr].
    destruct Hr as [<- |[]]. destruct (R c1 eq_refl) as (O & -> & G1). cbn [r_acc]. split; [exact G1|]. split; [apply grows_finish|]. split; [exact O|reflexivity].
  - cbn [andb]. exists d. split; [exact Eg|]. split; [apply grows_refl|]. intros r0 Hr Hs. destruct r as [c1|]; [|destruct Hr].
    destruct Hr as [<- |[]]. cbn in Hs. congruence.
Qed.
Lemma all_app l x : all_grow l (l ++ [x]) [].
Proof. intros h c E. exists c. split; [apply nth_app_l; exact E|]. split; [apply grows_refl|intros r []]. Qed.
Lemma all_removals n l l' rs : removals n l l' rs -> all_grow l l' rs.
Proof.
  induction 1 as [|l h c l' rs E S H IH]; [apply all_refl|]. eapply all_trans; [|exact IH]. apply (all_set l h c _ (reported (ends_now (marked_stuck n c))) E).
  - eapply grows_trans; [apply grows_marked|apply grows_ends].
  - intros c1. unfold ends_now. destruct (over (marked_stuck n c)) eqn:O; [discriminate|]. intros H1. injection H1 as <-. split; [|split; [reflexivity|apply grows_marked]].
    revert O. unfold marked_stuck, error_unless_set. destruct (_ =? 0); cbn; auto.
Qed.
Lemma account_nth l cx h c : account_of l cx = Some (h, c) -> cx = CTrace h /\ nth_error l h = Some c.
Proof. unfold account_of. destruct cx; try discriminate. destruct (nth_error l h0) as [x|] eqn:E; [|discriminate]. cbn. intros H. injection H as -> ->. auto. Qed.
Lemma all_step n k l r l' rs : ledger_step n k l r l' rs -> all_grow l l' rs.
Proof.
  intros H.
  assert (forall k, plain_call k -> ledger_call n k l = (l', r, rs) -> all_grow l l' rs) as P.
  { intros j Hp Hj. rewrite (plain_ledger n j l Hp) in Hj. destruct (account_of l (ctx_arg j)) as [[h c]|] eqn:E.
    - destruct (account_nth _ _ _ _ E) as (_ & En). injection Hj as <- <- <-. apply (all_set l h c _ _ En).
      + apply grows_call.
      + intros c1. apply reported_call.
    - injection Hj as <- <- <-. apply all_refl. }
  destruct k; try (match type of H with ledger_step _ ?k _ _ _ _ => exact (P k I H) end); cbn [ledger_step ledger_call] in H.
  - destruct (account_of l c) as [[h x]|]; injection H as <- <- <-; [apply all_refl|apply all_app].
  - destruct c; cbn [account_of] in H; [| |destruct (nth_error l h) as [x|]; cbn [option_map] in H]; try destruct req; injection H as <- <- <-; try apply all_refl; apply all_app.
  - destruct (nth_error l parent); injection H as <- <- <-; [apply all_app|apply all_refl].
  - destruct (account_of l c) as [[h x]|] eqn:E; injection H as <- <- <-; [|apply all_refl]. destruct (account_nth _ _ _ _ E) as (_ & En).
    change (@nil report) with (@nil report ++ []). eapply all_trans; [|apply all_app].
    refine (all_set l h x _ None En _ _ n); [|discriminate]. unfold spawned_from. eapply grows_trans; [apply grows_gxid|apply grows_did].
  - apply (all_removals n l l' rs H).
  - cbn in H. injection H as <- <- <-. apply all_refl.
  - cbn in H. injection H as <- <- <-. apply all_refl.
Qed.
Lemma all_run l ops rs l' reps : ledger_run l ops rs l' reps -> all_grow l l' reps.
Proof. induction 1 as [|l n k ops r rs l1 r1 l2 r2 S H IH]; [apply all_refl|]. eapply all_trans; [eapply all_step; exact S|exact IH]. Qed.

Lemma ledger_split l ops1 ops2 rs l2 reps : ledger_run l (ops1 ++ ops2) rs l2 reps -> exists rs1 rs2 l1 r1 r2, rs = rs1 ++ rs2 /\ reps = r1 ++ r2 /\
  length rs1 = length ops1 /\ ledger_run l ops1 rs1 l1 r1 /\ ledger_run l1 ops2 rs2 l2 r2.
Proof.
  revert l rs reps. induction ops1 as [|[n k] ops1 IH]; intros l rs reps H; cbn [app] in H.
  - exists [], rs, l, [], reps. split; [reflexivity|]. split; [reflexivity|]. split; [reflexivity|]. split; [constructor|exact H].
  - inversion H as [|? ? ? ? r res l1 ra l2' rb S H2]; subst. destruct (IH _ _ _ H2) as (rs1 & rs2 & l3 & r1 & r2 & -> & -> & L & H3 & H4).
    exists (r :: rs1), rs2, l3, (ra ++ r1), r2. split; [reflexivity|]. split; [apply app_assoc|]. split; [cbn; lia|]. split; [econstructor; eassumption|exact H4].
Qed.

(** * Profiles *)
Lemma finished_combine ops : forall es : list penv, length es = length ops -> finished (combine es ops) = finished_steps ops.
Proof.
  induction ops as [|o ops IH]; intros [|e es] L; try discriminate L; [reflexivity|]. cbn [combine]. unfold finished, finished_steps in *. cbn [flat_map snd].
  rewrite IH by (cbn in L; lia). reflexivity.
Qed.
Lemma numbers_combine ops : forall (es : list penv) k, length es = length ops -> finish_order k (combine es ops) = finish_numbers k ops.
Proof. induction ops as [|o ops IH]; intros [|e es] k L; try discriminate L; [reflexivity|]. cbn in L. destruct o; cbn [combine finish_order finish_numbers]; rewrite IH by lia; reflexivity. Qed.
Lemma once_combine ops : forall (es : list penv) k open, length es = length ops -> ended_once k open ops -> each_ended_once k open (combine es ops).
Proof.
  induction ops as [|o ops IH]; intros [|e es] k open L; try discriminate L; [auto|]. cbn in L. destruct o; cbn [combine each_ended_once ended_once]; try (apply IH; lia).
  intros (H & H2). split; [exact H|]. apply IH; [lia|exact H2].
Qed.

(** the profile that an ended service sent *)
Definition sent_profile (acc : account) (y : tctx) : Prop :=
  exists ds, map (fun pk => decode_profile (pp_Profile pk)) (p_sent (x_Profile y)) = map Some ds /\
    map strip (concat ds) = map (fun st => strip (view_step st)) (finished_steps (did acc)) /\
    map get_index (concat ds) = map (fun a => int32 (Z.of_nat a)) (finish_numbers 0 (did acc)) /\
    Forall (fun pk => pp_Txid pk = num_of acc NTxid) (p_sent (x_Profile y)).
Lemma closed_profile e acc p p' : good_env e -> e_txid e = num_of acc NTxid -> traced_prof (num_of acc NTxid) (did acc) p ->
  Forall (fun o => plain (op_step o)) (did acc) -> ended_once 0 [] (did acc) -> close e true p = Some p' ->
  exists ds, map (fun pk => decode_profile (pp_Profile pk)) (p_sent p') = map Some ds /\
    map strip (concat ds) = map (fun st => strip (view_step st)) (finished_steps (did acc)) /\
    map get_index (concat ds) = map (fun a => int32 (Z.of_nat a)) (finish_numbers 0 (did acc)) /\
    Forall (fun pk => pp_Txid pk = num_of acc NTxid) (p_sent p').
Proof.
  intros G T (keep & p0 & es & Hk & Hn & L & F & R) Pl On Cl.
  destruct (C37_no_step_lost keep p0 (combine es (did acc)) e (num_of acc NTxid) Hk Hn) as (q & q' & ds & R' & Cl' & D1 & D2 & D3 & D4).
  - apply Forall_forall. intros [e' o] Hin. rewrite Forall_forall in F, Pl. destruct (F e' (in_combine_l _ _ _ _ Hin)) as (A & B). cbn [fst snd].
    split; [exact A|]. split; [exact B|]. exact (Pl o (in_combine_r _ _ _ _ Hin)).
  - exact G.
  - exact T.
  - apply once_combine; assumption.
  - rewrite R in R'. injection R' as <-. rewrite Cl in Cl'. injection Cl' as <-. exists ds. rewrite finished_combine in D2 by exact L. rewrite numbers_combine in D3 by exact L. auto.
Qed.
Lemma end_profile n k h a l acc : good n -> is_end (CTrace h) k -> books a l -> nth_error l h = Some acc -> over acc = false ->
  find_xlog_discard (cf_sampling (n_conf n)) (a_sampler a) (n_draw n) (num_of acc NError) (ms n acc) (txt_of acc TName) = DISCARD_NONE ->
  Forall (fun o => plain (op_step o)) (did acc) -> ended_once 0 [] (did acc) ->
  exists y, nth_error (a_ctx (fst (do_call n k a))) h = Some y /\ sent_profile acc y.
Proof.
  intros G Hk R E O D Pl On. destruct (f2_nth _ _ _ R h acc E) as (x & Ex & Mx).
  destruct (end_call_eq n k h a x Hk Ex) as (p & Ep & ->); [rewrite (mt_over _ _ Mx); exact O|destruct G; lia|]. cbn [fst].
  assert (h < length (a_ctx a))%nat as Hh by (apply nth_error_Some; congruence). eexists. split; [apply list_set_same; exact Hh|].
  assert (matches (with_status k x) (match k with KEndHttp _ (Some s) => put_num NStatus (int32 s) acc | _ => acc end)) as My.
  { unfold with_status. destruct k; try exact Mx. destruct status as [s|]; [|exact Mx]. apply (put_match x acc); auto; try reflexivity; try exact (mt_txt _ _ Mx); try exact (mt_stream _ _ Mx).
    intros g. generalize (mt_num _ _ Mx g). destruct g; cbn; congruence. }
  set (y := with_status k x) in *. set (acc' := match k with KEndHttp _ (Some s) => _ | _ => _ end) in *.
  assert (did acc' = did acc /\ over acc' = false /\ num_of acc' NTxid = num_of acc NTxid /\ num_of acc' NError = num_of acc NError /\ ms n acc' = ms n acc /\ txt_of acc' TName = txt_of acc TName)
    as (Q1 & Q2 & Q3 & Q4 & Q5 & Q6) by (unfold acc'; destruct k; try destruct status; repeat split; exact O).
  assert (discard_of n a y = DISCARD_NONE) as Ed.
  { unfold discard_of. rewrite <- D, <- Q4, <- Q5, <- Q6. unfold ms. rewrite <- (mt_num _ _ My NError), <- (mt_num _ _ My NStart), <- (mt_txt _ _ My TName). reflexivity. }
  cbv zeta in Ep. rewrite Ed in Ep. change (DISCARD_NONE =? DISCARD_NONE) with true in Ep.
  unfold sent_profile. cbn [x_Profile set_Profile]. rewrite <- Q1, <- Q3. apply (closed_profile (env_of n (closed_ctx y)) acc' (x_Profile y) p).
  - apply good_env_of. exact G.
  - change (x_num NTxid y = num_of acc' NTxid). apply (mt_num _ _ My).
  - apply (mt_prof _ _ My Q2).
  - rewrite Q1. exact Pl.
  - rewrite Q1. exact On.
  - exact Ep.
Qed.

(** ** Steps keep their identity *)
Lemma same_refl st : same_call st st.
Proof. destruct st; cbn; auto. Qed.
Lemma same_trans a b c : same_call a b -> same_call b c -> same_call a c.
Proof. destruct a, b; cbn; try discriminate; try (intros ->; auto; fail); destruct c; cbn; try discriminate; try tauto; intuition congruence. Qed.
Lemma same_strip a b : same_call (strip a) (strip b) -> a = b \/ same_call (strip a) (strip b). Proof. auto. Qed.
(** every end of a step is the end of the step with that number *)
Definition ends_own (ops : list prof_op) : Prop :=
  forall i a st, nth_error ops i = Some (OPop a st) -> exists st0, nth_error (steps_of (firstn i ops)) a = Some st0 /\ same_call st0 (strip st).
Lemma own_snoc ops o : ends_own ops -> (forall a st, o = OPop a st -> exists st0, nth_error (steps_of ops) a = Some st0 /\ same_call st0 (strip st)) -> ends_own (ops ++ [o]).
Proof.
  intros H Ho i a st E. destruct (Nat.lt_ge_cases i (length ops)) as [Hi|Hi].
  - rewrite nth_error_app1 in E by exact Hi. destruct (H i a st E) as (st0 & E0 & S). exists st0. split; [|exact S].
    rewrite firstn_app. replace (i - length ops)%nat with 0%nat by lia. cbn [firstn]. rewrite app_nil_r. exact E0.
  - rewrite nth_error_app2 in E by exact Hi. destruct (i - length ops)%nat as [|j] eqn:Ej; [|destruct j; discriminate]. injection E as ->.
    assert (i = length ops) as -> by lia. rewrite firstn_app, Nat.sub_diag, firstn_all. cbn [firstn]. rewrite app_nil_r. apply Ho. reflexivity.
Qed.
Lemma own_add ops st : ends_own ops -> ends_own (ops ++ [OAdd st]). Proof. intros H. apply own_snoc; [exact H|discriminate]. Qed.
Lemma own_push ops st : ends_own ops -> ends_own (ops ++ [OPush st]). Proof. intros H. apply own_snoc; [exact H|discriminate]. Qed.
Lemma own_params n ps : forall c, ends_own (did c) -> ends_own (did (add_params_to n ps c)).
Proof.
  induction ps as [|p ps IH]; intros c H; [exact H|]. cbn [add_params_to fold_left]. destruct p as [s|]; [|apply IH; exact H].
  apply (IH (add_step_to _ c)). apply own_add. exact H.
Qed.
Lemma did_error e c : did (error_unless_set e c) = did c. Proof. unfold error_unless_set. destruct (_ =? 0); reflexivity. Qed.
Lemma did_gxid c : did (with_gxid c) = did c. Proof. unfold with_gxid. destruct (_ =? 0); reflexivity. Qed.
Lemma did_ends c : did (becomes (ends_now c)) = did c. Proof. unfold ends_now. destruct (over c); reflexivity. Qed.
Lemma stripped_all ops : Forall (fun st => strip st = st) (steps_of ops).
Proof.
  assert (forall st, strip (strip st) = strip st) as S2 by (intros []; reflexivity).
  induction ops as [|o ops IH] using rev_ind; [constructor|]. rewrite steps_of_snoc. destruct o as [st|a st|st].
  - apply Forall_app. split; [exact IH|]. constructor; [apply S2|constructor].
  - revert a IH. generalize (steps_of ops). intros l. induction l as [|x l IHl]; intros [|a] F; cbn [heap_set]; try exact F; inversion_clear F; constructor; auto.
  - apply Forall_app. split; [exact IH|]. constructor; [apply S2|constructor].
Qed.
Lemma stripped c a st : step_of c a = Some st -> strip st = st.
Proof. intros E. apply nth_error_In in E. pose proof (stripped_all (did c)) as F. rewrite Forall_forall in F. apply F, E. Qed.
Lemma own_call n k c : ends_own (did c) -> ends_own (did (becomes (on_account n k c))).
Proof.
  intros H. destruct k; cbn [on_account quiet becomes]; rewrite ?did_ends; try exact H; try (apply own_add; rewrite ?did_error; exact H).
  - destruct status; [|rewrite did_ends; exact H]. destruct (over c); [exact H|]. rewrite did_ends. exact H.
  - destruct st; [apply own_add|]; exact H.
  - cbn [method_started becomes]. apply own_push, own_params, H.
  - cbn [method_started becomes]. apply own_push, own_params, H.
  - destruct ptr as [p|]; [|exact H]. destruct (step_of c p) as [st|] eqn:E; [|exact H]. pose proof (stripped _ _ _ E) as Hs.
    destruct st; try exact H. cbn [quiet becomes put_did did]. apply own_snoc; [exact H|].
    intros a st Es. injection Es as <- <-. eexists. split; [exact E|]. cbn in Hs |- *. injection Hs as Hs. rewrite Hs. auto.
  - apply own_push, H.
  - rewrite did_gxid. apply own_push, H.
  - destruct ptr as [p|]; [|exact H]. destruct (step_of c p) as [st|] eqn:E; [|exact H]. pose proof (stripped _ _ _ E) as Hs.
    destruct st; try exact H. cbn [quiet becomes put_did did]. cbv zeta. apply own_snoc; [destruct err; rewrite ?did_error; exact H|].
    intros a st Es. injection Es as <- <-. eexists. split; [destruct err; rewrite ?did_error; exact E|]. cbn in Hs |- *. injection Hs as Hs. rewrite Hs. auto.
Qed.

(** with this the identity of a step survives *)
Lemma steps_grow ops : forall more, ends_own (ops ++ more) -> forall a st, nth_error (steps_of ops) a = Some st ->
  exists st', nth_error (steps_of (ops ++ more)) a = Some st' /\ same_call st st'.
Proof.
  induction more as [|o more IH] using rev_ind; intros H a st E; [rewrite app_nil_r; exists st; split; [exact E|apply same_refl]|].
  rewrite app_assoc in H |- *. destruct (IH) with (a := a) (st := st) as (st' & E' & S'); [|exact E|].
  - intros i b s Hi. destruct (H i b s) as (s0 & E0 & S0); [apply nth_app_l; exact Hi|]. exists s0. split; [|exact S0].
    assert (i < length (ops ++ more))%nat by (apply nth_error_Some; congruence). rewrite firstn_app in E0. replace (i - length (ops ++ more))%nat with 0%nat in E0 by lia.
    cbn [firstn] in E0. rewrite app_nil_r in E0. exact E0.
  - rewrite steps_of_snoc. destruct o as [x|b x|x].
    + exists st'. split; [apply nth_app_l; exact E'|exact S'].
    + destruct (H (length (ops ++ more)) b x) as (s0 & E0 & S0); [rewrite nth_error_app2, Nat.sub_diag by lia; reflexivity|].
      rewrite firstn_app, Nat.sub_diag, firstn_all in E0. cbn [firstn] in E0. rewrite app_nil_r in E0.
      destruct (Nat.eq_dec b a) as [-> |Hne].
      * exists (strip x). split; [|rewrite E' in E0; injection E0 as <-; eapply same_trans; eassumption].
        revert E'. generalize (steps_of (ops ++ more)). clear. intros l. revert a. induction l as [|y l IH]; intros [|a] E; try discriminate; [reflexivity|]. cbn. apply IH. exact E.
      * exists st'. split; [|exact S']. revert E' Hne. generalize (steps_of (ops ++ more)). clear. intros l. revert a b. induction l as [|y l IH]; intros [|a] [|b] E Hne; try discriminate; try exact E.
        -- congruence.
        -- cbn. apply IH; [exact E|congruence].
    + exists st'. split; [apply nth_app_l; exact E'|exact S'].
Qed.

(** every account of a history is like this *)
Definition sane_books (l : ledger) : Prop := Forall (fun c => ends_own (did c)) l.
Lemma sane_nth l h c : sane_books l -> nth_error l h = Some c -> ends_own (did c).
Proof. intros F E. unfold sane_books in F. rewrite Forall_forall in F. apply F. eapply nth_error_In, E. Qed.
Lemma sane_set l h c : sane_books l -> ends_own (did c) -> sane_books (list_set l h c).
Proof. intros F H. apply Forall_forall. intros x Hx. apply In_nth_error in Hx. destruct Hx as (i & E). rewrite list_set_nth in E. destruct (Nat.eqb h i && _); [injection E as <-; exact H|]. eapply sane_nth; eassumption. Qed.
Lemma sane_app l c : sane_books l -> ends_own (did c) -> sane_books (l ++ [c]).
Proof. intros F H. apply Forall_app. split; [exact F|]. constructor; [exact H|constructor]. Qed.
Lemma own_nil : ends_own []. Proof. intros [|i] a st E; discriminate. Qed.
Lemma own_msgs n l : forall c, ends_own (did c) -> ends_own (did (fold_left (fun c s => add_step_to (SMessage (at_ms (ms n c)) s) c) l c)).
Proof. induction l as [|s l IH]; intros c H; [exact H|]. cbn [fold_left]. apply IH. apply own_add. exact H. Qed.
Lemma own_opened n a b x : ends_own (did (opened n a b x)).
Proof. unfold opened. cbn [did]. apply (own_add [] _ own_nil). Qed.
Lemma sane_removals n l l' rs : removals n l l' rs -> sane_books l -> sane_books l'.
Proof.
  induction 1 as [|l h c l' rs E S H IH]; [auto|]. intros F. apply IH. apply sane_set; [exact F|]. rewrite did_ends. unfold marked_stuck. rewrite did_error.
  apply own_add. eapply sane_nth; eassumption.
Qed.
Lemma sane_step n k l r l' rs : ledger_step n k l r l' rs -> sane_books l -> sane_books l'.
Proof.
  intros H F.
  assert (forall k, plain_call k -> ledger_call n k l = (l', r, rs) -> sane_books l') as P.
  { intros j Hp Hj. rewrite (plain_ledger n j l Hp) in Hj. destruct (account_of l (ctx_arg j)) as [[h c]|] eqn:E.
    - destruct (account_nth _ _ _ _ E) as (_ & En). injection Hj as <- <- <-. apply sane_set; [exact F|]. apply own_call. eapply sane_nth; eassumption.
    - injection Hj as <- <- <-. exact F. }
  destruct k; try (match type of H with ledger_step _ ?k _ _ _ _ => exact (P k I H) end); cbn [ledger_step ledger_call] in H.
  - destruct (account_of l c) as [[h x]|]; injection H as <- <- <-; [exact F|apply sane_app; [exact F|apply own_opened]].
  - assert (forall q, sane_books (l ++ [opened_http n q])) as Hq by (intros q; apply sane_app; [exact F|]; apply own_msgs, own_opened).
    destruct c; cbn [account_of] in H; [| |destruct (nth_error l h) as [x|]; cbn [option_map] in H]; try destruct req; injection H as <- <- <-; try exact F; apply Hq.
  - destruct (nth_error l parent); injection H as <- <- <-; [|exact F]. apply sane_app; [exact F|]. apply own_add, own_opened.
  - destruct (account_of l c) as [[h x]|] eqn:E; injection H as <- <- <-; [|exact F]. destruct (account_nth _ _ _ _ E) as (_ & En).
    apply sane_app; [|apply own_opened]. apply sane_set; [exact F|]. apply own_add. rewrite did_gxid. eapply sane_nth; eassumption.
  - eapply sane_removals; eassumption.
  - cbn in H. injection H as <- <- <-. exact F.
  - cbn in H. injection H as <- <- <-. exact F.
Qed.
Lemma sane_run l ops rs l' reps : ledger_run l ops rs l' reps -> sane_books l -> sane_books l'.
Proof. induction 1 as [|l n k ops r rs l1 r1 l2 r2 S H IH]; [auto|]. intros F. apply IH. eapply sane_step; eassumption. Qed.

(** ** The results of calls in a history *)
Lemma ledger_results l ops rs l' reps : ledger_run l ops rs l' reps -> length rs = length ops.
Proof. induction 1; cbn; congruence. Qed.
Lemma ledger_at ops1 n k ops2 rs l2 reps : ledger_run [] (ops1 ++ (n, k) :: ops2) rs l2 reps -> exists rs1 r rs2 l0 l1 r0 r1 r2,
  rs = rs1 ++ r :: rs2 /\ reps = r0 ++ r1 ++ r2 /\ length rs1 = length ops1 /\ ledger_run [] ops1 rs1 l0 r0 /\ ledger_step n k l0 r l1 r1 /\ ledger_run l1 ops2 rs2 l2 r2.
Proof.
  intros H. apply ledger_split in H. destruct H as (rs1 & rs2 & l1 & r1 & r2 & -> & -> & L & H1 & H2).
  inversion H2 as [|? ? ? ? r res l3 ra l4 rb S H3]; subst. exists rs1, r, res, l1, l3, r1, ra, rb. auto 8.
Qed.
