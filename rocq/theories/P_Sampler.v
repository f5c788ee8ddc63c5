(** Properties C45 and C47: xlog sampling. S_Sampler.v defines [pct_for] (the configured percentage for an elapsed
    time), [outcomes] (number of the 100 equally likely draws with a property) and [clamp_pct]. *)
From Verif Require Import GoInt M_Util M_StrMatch L_StrMatch M_Sampler S_Sampler S_Glob.
From Coq Require Import ZifyBool.

Lemma count_below n p : zlen (filter (fun d => negb (d >=? p)) (map Z.of_nat (seq 0 n))) = Z.max 0 (Z.min (Z.of_nat n) p).
Proof.
  induction n as [|n IH]; [cbn; lia|].
  rewrite seq_S, map_app, filter_app, zlen_app, IH. cbn [Nat.add map filter].
  destruct (negb (Z.of_nat n >=? p)) eqn:E; cbn [filter]; rewrite ?zlen_cons, ?zlen_nil; change (zlen (@nil Z)) with 0; lia.
Qed.

Lemma sampling_is r d elapsed :
  sampling4elapsed r d elapsed DISCARD_NONE =
  if d >=? pct_for r elapsed then refer_to_profile_mode (r_OnlyProfile r) else DISCARD_NONE.
Proof.
  unfold sampling4elapsed, pct_for. cbn [find fst].
  destruct (elapsed <? r_Step1Ms r); [reflexivity|]. destruct (elapsed <? r_Step2Ms r); [reflexivity|].
  destruct (elapsed <? r_Step3Ms r); reflexivity.
Qed.

Lemma outcomes_ext f g : (forall d, f d = g d) -> outcomes f = outcomes g.
Proof. intros H. unfold outcomes. f_equal. apply filter_ext. exact H. Qed.

Lemma sampling_outcomes r elapsed :
  outcomes (fun d => kept (sampling4elapsed r d elapsed DISCARD_NONE)) = clamp_pct (pct_for r elapsed).
Proof.
  rewrite (outcomes_ext _ (fun d => negb (d >=? pct_for r elapsed))).
  - unfold outcomes, draws. rewrite count_below. unfold clamp_pct. reflexivity.
  - intros d. rewrite sampling_is. destruct (d >=? pct_for r elapsed); [|reflexivity].
    unfold refer_to_profile_mode. destruct (r_OnlyProfile r); reflexivity.
Qed.

(** ** C45 *)

(** Which settings apply to a service, by priority; [excluded], [hit1] .. [hit3]: whether the service matches the
    exclude patterns and the patterns of the three patterned groups. *)
Definition applicable (c : sconf) (excluded hit1 hit2 hit3 : bool) : option rates :=
  if r_Enabled (sc_Sampling c) && excluded then None
  else if r_Enabled (sc_Patterned c) && hit1 then Some (sc_Patterned c)
  else if r_Enabled (sc_Patterned2 c) && hit2 then Some (sc_Patterned2 c)
  else if r_Enabled (sc_Patterned3 c) && hit3 then Some (sc_Patterned3 c)
  else if r_Enabled (sc_Sampling c) then Some (sc_Sampling c)
  else None.

Lemma evaluate_applicable c s d elapsed name :
  evaluate c s d elapsed name =
  match applicable c (is_pattern (sc_ExcludePatterns c) (sp_exclude s) name)
                     (is_pattern (sc_PatternedServicePatterns c) (sp_1 s) name)
                     (is_pattern (sc_Patterned2ServicePatterns c) (sp_2 s) name)
                     (is_pattern (sc_Patterned3ServicePatterns c) (sp_3 s) name) with
  | Some r => sampling4elapsed r d elapsed DISCARD_NONE
  | None => DISCARD_NONE
  end.
Proof.
  unfold evaluate, applicable.
  destruct (is_pattern (sc_ExcludePatterns c) (sp_exclude s) name), (is_pattern (sc_PatternedServicePatterns c) (sp_1 s) name),
    (is_pattern (sc_Patterned2ServicePatterns c) (sp_2 s) name), (is_pattern (sc_Patterned3ServicePatterns c) (sp_3 s) name),
    (r_Enabled (sc_Sampling c)), (r_Enabled (sc_Patterned c)), (r_Enabled (sc_Patterned2 c)), (r_Enabled (sc_Patterned3 c)); reflexivity.
Qed.

(** The settings that apply keep exactly the configured percentage of the outcomes; where none apply every
    outcome is kept. This holds whatever the five pattern matchers answer. *)
Theorem C45_rate c s elapsed name :
  outcomes (fun d => kept (evaluate c s d elapsed name)) =
  match applicable c (is_pattern (sc_ExcludePatterns c) (sp_exclude s) name)
                     (is_pattern (sc_PatternedServicePatterns c) (sp_1 s) name)
                     (is_pattern (sc_Patterned2ServicePatterns c) (sp_2 s) name)
                     (is_pattern (sc_Patterned3ServicePatterns c) (sp_3 s) name) with
  | Some r => clamp_pct (pct_for r elapsed)
  | None => 100
  end.
Proof.
  rewrite (outcomes_ext _ _ (fun d => f_equal kept (evaluate_applicable c s d elapsed name))).
  destruct (applicable _ _ _ _ _); [apply sampling_outcomes|reflexivity].
Qed.

(** what is withheld otherwise: the profile only, or everything *)
Theorem C45_discarded_kind c s d elapsed name : evaluate c s d elapsed name <> keep_all ->
  exists r, In r [sc_Sampling c; sc_Patterned c; sc_Patterned2 c; sc_Patterned3 c] /\ r_Enabled r = true /\
    evaluate c s d elapsed name = (if r_OnlyProfile r then drop_profile else drop_all).
Proof.
  intros H. rewrite evaluate_applicable in *. destruct (applicable _ _ _ _ _) as [r|] eqn:A; [|destruct H; reflexivity].
  exists r. rewrite sampling_is in *. destruct (d >=? pct_for r elapsed); [|destruct H; reflexivity].
  split; [|split; [|reflexivity]]; revert A; unfold applicable;
    destruct (r_Enabled (sc_Sampling c)) eqn:E0, (r_Enabled (sc_Patterned c)) eqn:E1, (r_Enabled (sc_Patterned2 c)) eqn:E2,
      (r_Enabled (sc_Patterned3 c)) eqn:E3;
    destruct (is_pattern (sc_ExcludePatterns c) (sp_exclude s) name), (is_pattern (sc_PatternedServicePatterns c) (sp_1 s) name),
      (is_pattern (sc_Patterned2ServicePatterns c) (sp_2 s) name), (is_pattern (sc_Patterned3ServicePatterns c) (sp_3 s) name);
    cbn; intros [= <-]; try assumption; tauto.
Qed.

(** plain sampling, no patterns configured *)
Theorem C45_plain_rate c elapsed name :
  r_Enabled (sc_Sampling c) = true -> sc_ExcludePatterns c = [] ->
  r_Enabled (sc_Patterned c) = false -> r_Enabled (sc_Patterned2 c) = false -> r_Enabled (sc_Patterned3 c) = false ->
  outcomes (fun d => kept (evaluate c (new_sampler c) d elapsed name)) = clamp_pct (pct_for (sc_Sampling c) elapsed).
Proof.
  intros E X E1 E2 E3. rewrite C45_rate. unfold applicable. rewrite E, E1, E2, E3, X. reflexivity.
Qed.

(** 100 or more keeps every outcome, 0 or less keeps none, sampling off keeps every outcome *)
Theorem C45_all c s d elapsed name : In d draws -> sc_ExcludePatterns c = [] ->
  r_Enabled (sc_Patterned c) = false -> r_Enabled (sc_Patterned2 c) = false -> r_Enabled (sc_Patterned3 c) = false ->
  100 <= pct_for (sc_Sampling c) elapsed \/ r_Enabled (sc_Sampling c) = false -> evaluate c s d elapsed name = keep_all.
Proof.
  intros D X E1 E2 E3 H. rewrite evaluate_applicable. unfold applicable. rewrite E1, E2, E3, X. cbn [is_pattern andb].
  rewrite andb_false_r. destruct (r_Enabled (sc_Sampling c)); [|reflexivity]. destruct H as [H|]; [|discriminate].
  rewrite sampling_is. unfold draws in D. apply in_map_iff in D. destruct D as (n & <- & I). apply in_seq in I.
  destruct (Z.of_nat n >=? _) eqn:G; [lia|reflexivity].
Qed.
Theorem C45_none c s d elapsed name : In d draws -> sc_ExcludePatterns c = [] ->
  r_Enabled (sc_Patterned c) = false -> r_Enabled (sc_Patterned2 c) = false -> r_Enabled (sc_Patterned3 c) = false ->
  pct_for (sc_Sampling c) elapsed <= 0 -> r_Enabled (sc_Sampling c) = true -> evaluate c s d elapsed name <> keep_all.
Proof.
  intros D X E1 E2 E3 H E. rewrite evaluate_applicable. unfold applicable. rewrite E, E1, E2, E3, X. cbn [is_pattern andb].
  rewrite sampling_is. unfold draws in D. apply in_map_iff in D. destruct D as (n & <- & I).
  destruct (Z.of_nat n >=? _) eqn:G; [|lia]. unfold refer_to_profile_mode. destruct (r_OnlyProfile _); discriminate.
Qed.

(** the default settings (configure.go:362-370) with sampling switched on *)
Definition default_rates on := mkRates on false 100 2 500 7 1000 15 3000.
Definition default_sconf on :=
  mkSConf [] true [] (default_rates on) (default_rates false) [] (default_rates false) [] (default_rates false) [].
Example C45_defaults :
  map (fun e => outcomes (fun d => kept (evaluate (default_sconf true) (new_sampler (default_sconf true)) d e (of_string "/a"))))
      [0; 99; 100; 499; 500; 999; 1000; 60000] = [2; 2; 7; 7; 15; 15; 100; 100].
Proof. vm_compute. reflexivity. Qed.

(** ** C47 *)

(** samplers the agent can have: built from one configuration and updated after each change of it *)
Inductive reach_sampler : sconf -> sampler -> Prop :=
| rs_new c : reach_sampler c (new_sampler c)
| rs_run c c' s : reach_sampler c s -> reach_sampler c' (sampler_run c' s).

(** the matchers follow the configuration: after a change the sampler is the one a fresh agent would have *)
Theorem C47_follows_configuration c s : reach_sampler c s -> s = new_sampler c.
Proof.
  induction 1 as [|c c' s R IH]; [reflexivity|]. subst s. unfold sampler_run, new_sampler, refresh. cbn.
  destruct (beqb_spec (sc_ExcludePatterns c) (sc_ExcludePatterns c')) as [->|];
  destruct (beqb_spec (sc_DiscardServicePatterns c) (sc_DiscardServicePatterns c')) as [->|];
  destruct (beqb_spec (sc_PatternedServicePatterns c) (sc_PatternedServicePatterns c')) as [->|];
  destruct (beqb_spec (sc_Patterned2ServicePatterns c) (sc_Patterned2ServicePatterns c')) as [->|];
  destruct (beqb_spec (sc_Patterned3ServicePatterns c) (sc_Patterned3ServicePatterns c')) as [->|]; reflexivity.
Qed.

Lemma is_pattern_never cfg p name : is_pattern cfg (comma_matcher p) name = false.
Proof. unfold is_pattern. destruct cfg; [reflexivity|apply comma_never]. Qed.

(** no pattern setting ever has an effect *)
Theorem C47_patterns_have_no_effect c s draw error elapsed name : reach_sampler c s ->
  find_xlog_discard c s draw error elapsed name =
  (if negb (error =? 0) then keep_all
   else if r_Enabled (sc_Sampling c) then sampling4elapsed (sc_Sampling c) draw elapsed keep_all else keep_all).
Proof.
  intros R. apply C47_follows_configuration in R. subst s. unfold find_xlog_discard. rewrite evaluate_applicable.
  unfold new_sampler. cbn [sp_discard sp_exclude sp_1 sp_2 sp_3]. rewrite !is_pattern_never. unfold applicable.
  rewrite !andb_false_r. destruct (negb (error =? 0)); [reflexivity|]. destruct (r_Enabled (sc_Sampling c)); reflexivity.
Qed.

(** the three claims fail *)
Theorem C47_discard_patterns_refuted : ~ (forall c s draw elapsed name p, reach_sampler c s ->
  sc_DiscardServicePatterns c = p -> no_star p -> ~ In 44 p -> p = name -> p <> [] ->
  find_xlog_discard c s draw 0 elapsed name = drop_force).
Proof.
  intros H. set (p := of_string "/health").
  specialize (H (mkSConf p true [] (default_rates false) (default_rates false) [] (default_rates false) [] (default_rates false) [])
                _ 50 10 p p (rs_new _) eq_refl).
  rewrite C47_patterns_have_no_effect in H by constructor. cbn [sc_Sampling default_rates r_Enabled Z.eqb negb] in H.
  discriminate H; [| |reflexivity|discriminate]; intros I; repeat (destruct I as [I|I]; [discriminate I|]); exact I.
Qed.
Theorem C47_exclude_patterns_refuted : ~ (forall c s draw elapsed name p, reach_sampler c s ->
  sc_ExcludePatterns c = p -> no_star p -> ~ In 44 p -> p = name -> p <> [] ->
  find_xlog_discard c s draw 0 elapsed name = keep_all).
Proof.
  intros H. set (p := of_string "/pay").
  specialize (H (mkSConf [] true p (default_rates true) (default_rates false) [] (default_rates false) [] (default_rates false) [])
                _ 50 10 p p (rs_new _) eq_refl).
  rewrite C47_patterns_have_no_effect in H by constructor. cbn in H.
  discriminate H; [| |reflexivity|discriminate]; intros I; repeat (destruct I as [I|I]; [discriminate I|]); exact I.
Qed.
(** xlog_discard_service_show_error is not read anywhere: changing it changes nothing *)
Theorem C47_show_error_ignored c s draw error elapsed name b :
  find_xlog_discard (mkSConf (sc_DiscardServicePatterns c) b (sc_ExcludePatterns c) (sc_Sampling c)
                       (sc_Patterned c) (sc_PatternedServicePatterns c) (sc_Patterned2 c) (sc_Patterned2ServicePatterns c)
                       (sc_Patterned3 c) (sc_Patterned3ServicePatterns c)) s draw error elapsed name =
  find_xlog_discard c s draw error elapsed name.
Proof. reflexivity. Qed.
Theorem C47_show_error_refuted : ~ (forall c s draw error elapsed name,
  sc_DiscardServiceShowError c = false -> sc_DiscardServicePatterns c <> [] -> is_match (sp_discard s) name = true -> error <> 0 ->
  find_xlog_discard c s draw error elapsed name = drop_force).
Proof.
  intros H. set (p := of_string "/health").
  specialize (H (mkSConf p false [] (default_rates false) (default_rates false) [] (default_rates false) [] (default_rates false) [])
                (mkSampler [] [] [] [] [] [] [new_strmatch p] [] [] []) 50 7 10 p eq_refl).
  discriminate H; [discriminate|reflexivity|discriminate].
Qed.

(** What does hold: were the matchers to match, discarding and excluding would take effect as documented.
    (Missing: the matchers of the code never match, C22.) *)
Theorem C47_if_matched_partial c s draw error elapsed name :
  (sc_DiscardServicePatterns c <> [] -> is_match (sp_discard s) name = true ->
   find_xlog_discard c s draw error elapsed name = if negb (error =? 0) then keep_all else drop_force) /\
  (sc_ExcludePatterns c <> [] -> is_match (sp_exclude s) name = true -> r_Enabled (sc_Sampling c) = true ->
   is_pattern (sc_DiscardServicePatterns c) (sp_discard s) name = false ->
   find_xlog_discard c s draw error elapsed name = keep_all).
Proof.
  split.
  - intros N M. unfold find_xlog_discard, is_pattern at 1. destruct (sc_DiscardServicePatterns c); [congruence|].
    rewrite M. reflexivity.
  - intros N M E D. unfold find_xlog_discard. rewrite D. unfold evaluate, is_pattern at 1.
    destruct (sc_ExcludePatterns c); [congruence|]. rewrite M, E. cbn. destruct (negb (error =? 0)); reflexivity.
Qed.
Example C47_if_matched_meets :
  let c := mkSConf (of_string "/health") true [] (default_rates true) (default_rates false) [] (default_rates false) [] (default_rates false) [] in
  let s := mkSampler [] [] [] [] [] [] [new_strmatch (of_string "/heal*")] [] [] [] in
  sc_DiscardServicePatterns c <> [] /\ is_match (sp_discard s) (of_string "/health") = true /\
  find_xlog_discard c s 0 0 5 (of_string "/health") = drop_force.
Proof. cbn. split; [discriminate|]. split; reflexivity. Qed.

Print Assumptions C45_rate.
Print Assumptions C45_discarded_kind.
Print Assumptions C47_patterns_have_no_effect.
Print Assumptions C47_if_matched_partial.
Print Assumptions C45_plain_rate.
Print Assumptions C45_all.
Print Assumptions C45_none.
Print Assumptions C47_follows_configuration.
Print Assumptions C47_discard_patterns_refuted.
Print Assumptions C47_exclude_patterns_refuted.
Print Assumptions C47_show_error_ignored.
Print Assumptions C47_show_error_refuted.
