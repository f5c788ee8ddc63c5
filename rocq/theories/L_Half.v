From Verif Require Import GoInt M_Util M_Conf M_Half S_Conf S_Half.
From Coq Require Import Lia.
Local Open Scope nat_scope.

Definition pick (k : nat) (mid : option bytes) (i : nat) (a b : sval) : sval :=
  if i <? k then b else if i =? k then match mid, a, b with Some w, SText x, SText y => SText (firstn (length x) (y ++ w)) | _, _, _ => a end else a.
Lemma pick_bool k mid i a b : SBool (pword k i a b) = pick k mid i (SBool a) (SBool b).
Proof. unfold pword, pick. destruct (i <? k); [reflexivity|]. destruct (i =? k), mid; reflexivity. Qed.
Lemma pick_int k mid i a b : SInt (pword k i a b) = pick k mid i (SInt a) (SInt b).
Proof. unfold pword, pick. destruct (i <? k); [reflexivity|]. destruct (i =? k), mid; reflexivity. Qed.
Lemma pick_text k mid i a b : SText (ptext k mid i a b) = pick k mid i (SText a) (SText b).
Proof. unfold ptext, pick. destruct (i <? k); [reflexivity|]. destruct (i =? k); [|reflexivity]. destruct mid; reflexivity. Qed.

Lemma field_half k mid old new : forall i f, nth_error fields_in_order i = Some f -> f (half k mid old new) = pick k mid i (f old) (f new).
Proof.
  unfold fields_in_order, half.
  do 66 (intros [|i]; [intros f [= <-]; cbv beta; cbn [cf_trace cf_ObjHash cf_ObjName cf_ObjType cf_ObjNameSimple cf_TraceObjSend cf_SendQueueSize cf_NetCollectorIP cf_NetCollectorUDPPort cf_NetCollectorTCPPort cf_NetCollectorTcpSoTimeoutMs cf_NetCollectorTcpConnectionTimeoutMs cf_UDPMaxBytes cf_StuckServiceBaseTimeMs cf_StuckServiceRemoveEnabled cf_StuckServiceAlertEnabled cf_TraceActiveserviceYellowTime cf_TraceActiveserviceRedTime cf_ProfileStepMaxKeepInMemoryCount cf_ProfileStepMaxCount cf_ProfileHttpQuerystringEnabled cf_ProfileHttpHeaderEnabled cf_ProfileHttpHeaderKeys cf_TraceHttpClientIpHeaderKey cf_XlogDiscardServicePatterns cf_XlogDiscardServiceShowError cf_XlogSamplingExcludePatterns cf_XlogSamplingEnabled cf_XlogSamplingOnlyProfile cf_XlogSamplingStep1Ms cf_XlogSamplingStep1RatePct cf_XlogSamplingStep2Ms cf_XlogSamplingStep2RatePct cf_XlogSamplingStep3Ms cf_XlogSamplingStep3RatePct cf_XlogSamplingOverRatePct cf_XlogPatternedSamplingEnabled cf_XlogPatternedSamplingServicePatterns cf_XlogPatternedSamplingOnlyProfile cf_XlogPatternedSamplingStep1Ms cf_XlogPatternedSamplingStep1RatePct cf_XlogPatternedSamplingStep2Ms cf_XlogPatternedSamplingStep2RatePct cf_XlogPatternedSamplingStep3Ms cf_XlogPatternedSamplingStep3RatePct cf_XlogPatternedSamplingOverRatePct cf_XlogPatterned2SamplingEnabled cf_XlogPatterned2SamplingServicePatterns cf_XlogPatterned2SamplingOnlyProfile cf_XlogPatterned2SamplingStep1Ms cf_XlogPatterned2SamplingStep1RatePct cf_XlogPatterned2SamplingStep2Ms cf_XlogPatterned2SamplingStep2RatePct cf_XlogPatterned2SamplingStep3Ms cf_XlogPatterned2SamplingStep3RatePct cf_XlogPatterned2SamplingOverRatePct cf_XlogPatterned3SamplingEnabled cf_XlogPatterned3SamplingServicePatterns cf_XlogPatterned3SamplingOnlyProfile cf_XlogPatterned3SamplingStep1Ms cf_XlogPatterned3SamplingStep1RatePct cf_XlogPatterned3SamplingStep2Ms cf_XlogPatterned3SamplingStep2RatePct cf_XlogPatterned3SamplingStep3Ms cf_XlogPatterned3SamplingStep3RatePct cf_XlogPatterned3SamplingOverRatePct]; first [apply pick_bool | apply pick_int | apply pick_text]|cbn [nth_error]; revert i]).
  intros i f H. destruct i; discriminate H.
Qed.

Lemma fields_determine c d : Forall (fun f => f c = f d) fields_in_order -> c = d.
Proof.
  destruct c, d. unfold fields_in_order. intro H.
  do 66 (let E := fresh "E" in pose proof (Forall_inv H) as E; apply Forall_inv_tail in H; cbv in E; injection E as E; rewrite E; clear E).
  reflexivity.
Qed.
Lemma pick_start i a b : pick 0 None i a b = a.
Proof. unfold pick. cbn. destruct (i =? 0), a; reflexivity. Qed.
Lemma pick_end k mid i a b : i < k -> pick k mid i a b = b.
Proof. intro H. unfold pick. destruct (Nat.ltb_spec i k); [reflexivity|lia]. Qed.
Lemma pick_mixture k mid i a b : mixture a b (pick k mid i a b).
Proof.
  unfold pick, mixture. destruct (i <? k); [auto|]. destruct (i =? k); [|auto]. destruct mid as [w|]; [|auto]. destruct a, b; auto. right. right. do 3 eexists. repeat split; reflexivity.
Qed.
Lemma pick_word k i a b : pick k None i a b = a \/ pick k None i a b = b.
Proof. unfold pick. destruct (i <? k); [auto|]. destruct (i =? k); [|auto]. destruct a; auto. Qed.
Lemma fields_count : length fields_in_order = assignments.
Proof. reflexivity. Qed.

(** the new settings do not depend on the old ones *)
Lemma add_to_conf_old p h old old' d : fst (add_to_conf p h old d) = fst (add_to_conf p h old' d).
Proof.
  Local Transparent add_to_conf. unfold add_to_conf.
  destruct (str_of p (of_string "obj_name") _ _ d) as [? d0]. destruct (str_of p (of_string "obj_type") _ _ d0) as [? d1].
  cbv zeta. repeat match goal with |- fst (let '(_, _) := ?x in _) = _ => destruct x end. reflexivity.
Qed.
Local Opaque add_to_conf.

Lemma refresh_old w s c s1 ch1 s2 ch2 : refresh_conf w s = Some (s1, ch1) -> refresh_conf w (mk_cstate c (c_last s) (c_descs s) (c_sampler s)) = Some (s2, ch2) ->
  c_conf s2 = c_conf s1 \/ (c_conf s1 = c_conf s /\ c_conf s2 = c).
Proof.
  unfold refresh_conf. cbn [c_conf c_last c_descs c_sampler]. intros E1 E2.
  assert (forall p m (a b : cstate * bool),
    (let '(c0, d, changed) := add_to_conf (non_empty p) (w_host w) (c_conf s) (c_descs s) in Some (notify (mk_cstate c0 m d (c_sampler s)), changed)) = Some a ->
    (let '(c0, d, changed) := add_to_conf (non_empty p) (w_host w) c (c_descs s) in Some (notify (mk_cstate c0 m d (c_sampler s)), changed)) = Some b ->
    c_conf (fst b) = c_conf (fst a)) as G.
  { intros p m a b A B. pose proof (add_to_conf_old (non_empty p) (w_host w) (c_conf s) c (c_descs s)) as E.
    destruct (add_to_conf _ _ (c_conf s) _) as [[c1 d1] x1], (add_to_conf _ _ c _) as [[c2 d2] x2]. cbn [fst] in E. injection E as -> ->.
    injection A as <-. injection B as <-. reflexivity. }
  destruct (w_stat w) as [m| |].
  - destruct (after m (c_last s)).
    + destruct (env_props (w_env w) []) as [p|]; [|discriminate E1]. destruct (w_load w) as [fp| |].
      * left. exact (G _ _ _ _ E1 E2).
      * left. exact (G _ _ _ _ E1 E2).
      * right. injection E1 as <- _. injection E2 as <- _. split; reflexivity.
    + right. injection E1 as <- _. injection E2 as <- _. split; reflexivity.
  - destruct (env_props (w_env w) []) as [p|]; [|discriminate E1]. destruct (w_load w) as [fp| |].
      * left. exact (G _ _ _ _ E1 E2).
      * left. exact (G _ _ _ _ E1 E2).
      * right. injection E1 as <- _. injection E2 as <- _. split; reflexivity.
  - right. injection E1 as <- _. injection E2 as <- _. split; reflexivity.
Qed.
