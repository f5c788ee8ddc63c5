(** Specification vocabulary for the configuration: the table of settings (key, kind and default, where it is
    read) and what a text means for a setting.  Independent of the loading code. *)
From Verif Require Import GoInt M_Value M_Sampler M_Conf.

Inductive sval := SBool (b : bool) | SInt (z : Z) | SText (s : gostring).

(** kind of a setting with its default; [KMs] is a 32-bit number of milliseconds, [KCsv] a comma separated text *)
Inductive skind := KBool (d : bool) | KInt (d : Z) | KMs (d : Z) | KText (d : gostring) | KCsv (d : gostring).

Record setting := mk_setting { st_key : gostring; st_kind : skind; st_read : configure -> sval; st_desc : gostring }.

Definition settings : list setting :=
  [ mk_setting (of_string "obj_name") (KText (of_string "go1")) (fun c => SText (cf_ObjNameSimple c)) (of_string "object name");
    mk_setting (of_string "obj_type") (KText (of_string "golang")) (fun c => SText (cf_ObjType c)) (of_string "object type(monitoring group)");
    mk_setting (of_string "trace_obj_send") (KBool false) (fun c => SBool (cf_TraceObjSend c)) [];
    mk_setting (of_string "send_queue_size") (KInt 3000) (fun c => SInt (cf_SendQueueSize c)) [];
    mk_setting (of_string "net_collector_ip") (KText (of_string "127.0.0.1")) (fun c => SText (cf_NetCollectorIP c)) [];
    mk_setting (of_string "net_collector_udp_port") (KInt 6100) (fun c => SInt (cf_NetCollectorUDPPort c)) [];
    mk_setting (of_string "net_collector_tcp_port") (KInt 6100) (fun c => SInt (cf_NetCollectorTCPPort c)) [];
    mk_setting (of_string "net_collector_tcp_so_timeout_ms") (KInt 60000) (fun c => SInt (cf_NetCollectorTcpSoTimeoutMs c)) [];
    mk_setting (of_string "net_collector_tcp_connection_timeout_ms") (KInt 3000) (fun c => SInt (cf_NetCollectorTcpConnectionTimeoutMs c)) [];
    mk_setting (of_string "udp_max_bytes") (KInt 60000) (fun c => SInt (cf_UDPMaxBytes c)) [];
    mk_setting (of_string "stuck_service_base_time_ms") (KInt 300000) (fun c => SInt (cf_StuckServiceBaseTimeMs c)) [];
    mk_setting (of_string "stuck_service_remove_enabled") (KBool true) (fun c => SBool (cf_StuckServiceRemoveEnabled c)) [];
    mk_setting (of_string "stuck_service_alert_enabled") (KBool true) (fun c => SBool (cf_StuckServiceAlertEnabled c)) [];
    mk_setting (of_string "trace_activeservice_yellow_time") (KInt 3000) (fun c => SInt (cf_TraceActiveserviceYellowTime c)) [];
    mk_setting (of_string "trace_activeservice_red_time") (KInt 8000) (fun c => SInt (cf_TraceActiveserviceRedTime c)) [];
    mk_setting (of_string "profile_step_max_keep_in_memory_count") (KInt 2048) (fun c => SInt (cf_ProfileStepMaxKeepInMemoryCount c)) [];
    mk_setting (of_string "profile_step_max_count") (KInt 1024) (fun c => SInt (cf_ProfileStepMaxCount c)) [];
    mk_setting (of_string "profile_http_querystring_enabled") (KBool false) (fun c => SBool (cf_ProfileHttpQuerystringEnabled c)) [];
    mk_setting (of_string "profile_http_header_enabled") (KBool false) (fun c => SBool (cf_ProfileHttpHeaderEnabled c)) [];
    mk_setting (of_string "profile_http_header_keys") (KCsv (of_string "")) (fun c => SText (cf_ProfileHttpHeaderKeys c)) [];
    mk_setting (of_string "trace_http_client_ip_header_key") (KText (of_string "")) (fun c => SText (cf_TraceHttpClientIpHeaderKey c)) [];
    mk_setting (of_string "xlog_discard_service_patterns") (KCsv (of_string "")) (fun c => SText (cf_XlogDiscardServicePatterns c)) [];
    mk_setting (of_string "xlog_discard_service_show_error") (KBool true) (fun c => SBool (cf_XlogDiscardServiceShowError c)) [];
    mk_setting (of_string "xlog_sampling_exclude_patterns") (KCsv (of_string "")) (fun c => SText (cf_XlogSamplingExcludePatterns c)) [];
    mk_setting (of_string "xlog_sampling_enabled") (KBool false) (fun c => SBool (cf_XlogSamplingEnabled c)) [];
    mk_setting (of_string "xlog_sampling_only_profile") (KBool false) (fun c => SBool (cf_XlogSamplingOnlyProfile c)) [];
    mk_setting (of_string "xlog_sampling_step1_ms") (KMs 100) (fun c => SInt (cf_XlogSamplingStep1Ms c)) [];
    mk_setting (of_string "xlog_sampling_step1_rate_pct") (KInt 2) (fun c => SInt (cf_XlogSamplingStep1RatePct c)) [];
    mk_setting (of_string "xlog_sampling_step2_ms") (KMs 500) (fun c => SInt (cf_XlogSamplingStep2Ms c)) [];
    mk_setting (of_string "xlog_sampling_step2_rate_pct") (KInt 7) (fun c => SInt (cf_XlogSamplingStep2RatePct c)) [];
    mk_setting (of_string "xlog_sampling_step3_ms") (KMs 1000) (fun c => SInt (cf_XlogSamplingStep3Ms c)) [];
    mk_setting (of_string "xlog_sampling_step3_rate_pct") (KInt 15) (fun c => SInt (cf_XlogSamplingStep3RatePct c)) [];
    mk_setting (of_string "xlog_sampling_over_rate_pct") (KInt 3000) (fun c => SInt (cf_XlogSamplingOverRatePct c)) [];
    mk_setting (of_string "xlog_patterned_sampling_enabled") (KBool false) (fun c => SBool (cf_XlogPatternedSamplingEnabled c)) [];
    mk_setting (of_string "xlog_patterned_sampling_service_patterns") (KCsv (of_string "")) (fun c => SText (cf_XlogPatternedSamplingServicePatterns c)) [];
    mk_setting (of_string "xlog_patterned_sampling_only_profile") (KBool false) (fun c => SBool (cf_XlogPatternedSamplingOnlyProfile c)) [];
    mk_setting (of_string "xlog_patterned_sampling_step1_ms") (KMs 100) (fun c => SInt (cf_XlogPatternedSamplingStep1Ms c)) [];
    mk_setting (of_string "xlog_patterned_sampling_step1_rate_pct") (KInt 2) (fun c => SInt (cf_XlogPatternedSamplingStep1RatePct c)) [];
    mk_setting (of_string "xlog_patterned_sampling_step2_ms") (KMs 500) (fun c => SInt (cf_XlogPatternedSamplingStep2Ms c)) [];
    mk_setting (of_string "xlog_patterned_sampling_step2_rate_pct") (KInt 7) (fun c => SInt (cf_XlogPatternedSamplingStep2RatePct c)) [];
    mk_setting (of_string "xlog_patterned_sampling_step3_ms") (KMs 1000) (fun c => SInt (cf_XlogPatternedSamplingStep3Ms c)) [];
    mk_setting (of_string "xlog_patterned_sampling_step3_rate_pct") (KInt 15) (fun c => SInt (cf_XlogPatternedSamplingStep3RatePct c)) [];
    mk_setting (of_string "xlog_patterned_sampling_over_rate_pct") (KInt 3000) (fun c => SInt (cf_XlogPatternedSamplingOverRatePct c)) [];
    mk_setting (of_string "xlog_patterned2_sampling_enabled") (KBool false) (fun c => SBool (cf_XlogPatterned2SamplingEnabled c)) [];
    mk_setting (of_string "xlog_patterned2_sampling_service_patterns") (KCsv (of_string "")) (fun c => SText (cf_XlogPatterned2SamplingServicePatterns c)) [];
    mk_setting (of_string "xlog_patterned2_sampling_only_profile") (KBool false) (fun c => SBool (cf_XlogPatterned2SamplingOnlyProfile c)) [];
    mk_setting (of_string "xlog_patterned2_sampling_step1_ms") (KMs 100) (fun c => SInt (cf_XlogPatterned2SamplingStep1Ms c)) [];
    mk_setting (of_string "xlog_patterned2_sampling_step1_rate_pct") (KInt 2) (fun c => SInt (cf_XlogPatterned2SamplingStep1RatePct c)) [];
    mk_setting (of_string "xlog_patterned2_sampling_step2_ms") (KMs 500) (fun c => SInt (cf_XlogPatterned2SamplingStep2Ms c)) [];
    mk_setting (of_string "xlog_patterned2_sampling_step2_rate_pct") (KInt 7) (fun c => SInt (cf_XlogPatterned2SamplingStep2RatePct c)) [];
    mk_setting (of_string "xlog_patterned2_sampling_step3_ms") (KMs 1000) (fun c => SInt (cf_XlogPatterned2SamplingStep3Ms c)) [];
    mk_setting (of_string "xlog_patterned2_sampling_step3_rate_pct") (KInt 15) (fun c => SInt (cf_XlogPatterned2SamplingStep3RatePct c)) [];
    mk_setting (of_string "xlog_patterned2_sampling_over_rate_pct") (KInt 3000) (fun c => SInt (cf_XlogPatterned2SamplingOverRatePct c)) [];
    mk_setting (of_string "xlog_patterned3_sampling_enabled") (KBool false) (fun c => SBool (cf_XlogPatterned3SamplingEnabled c)) [];
    mk_setting (of_string "xlog_patterned3_sampling_service_patterns") (KCsv (of_string "")) (fun c => SText (cf_XlogPatterned3SamplingServicePatterns c)) [];
    mk_setting (of_string "xlog_patterned3_sampling_only_profile") (KBool false) (fun c => SBool (cf_XlogPatterned3SamplingOnlyProfile c)) [];
    mk_setting (of_string "xlog_patterned3_sampling_step1_ms") (KMs 100) (fun c => SInt (cf_XlogPatterned3SamplingStep1Ms c)) [];
    mk_setting (of_string "xlog_patterned3_sampling_step1_rate_pct") (KInt 2) (fun c => SInt (cf_XlogPatterned3SamplingStep1RatePct c)) [];
    mk_setting (of_string "xlog_patterned3_sampling_step2_ms") (KMs 500) (fun c => SInt (cf_XlogPatterned3SamplingStep2Ms c)) [];
    mk_setting (of_string "xlog_patterned3_sampling_step2_rate_pct") (KInt 7) (fun c => SInt (cf_XlogPatterned3SamplingStep2RatePct c)) [];
    mk_setting (of_string "xlog_patterned3_sampling_step3_ms") (KMs 1000) (fun c => SInt (cf_XlogPatterned3SamplingStep3Ms c)) [];
    mk_setting (of_string "xlog_patterned3_sampling_step3_rate_pct") (KInt 15) (fun c => SInt (cf_XlogPatterned3SamplingStep3RatePct c)) [];
    mk_setting (of_string "xlog_patterned3_sampling_over_rate_pct") (KInt 3000) (fun c => SInt (cf_XlogPatterned3SamplingOverRatePct c)) [] ].
(** not shown to the collector *)
Definition hidden_setting : setting := mk_setting (of_string "_trace") (KBool false) (fun c => SBool (cf_trace c)) [].

(** letters compared without case (the word is given in lower case) *)
Definition same_word (t w : gostring) : Prop := Forall2 (fun c d => c = d \/ (65 <= c <= 90 /\ d = c + 32)) t w.
Definition means_true (t : gostring) : Prop :=
  exists w, In w [of_string "1"; of_string "true"; of_string "yes"; of_string "on"] /\ same_word t w.

(** [t] is a decimal number with an optional sign, and [z] its value *)
Definition digits_value (ds : gostring) : Z := fold_left (fun a c => a * 10 + (c - 48)) ds 0.
Definition decimal (t : gostring) (z : Z) : Prop :=
  exists sign ds, t = sign ++ ds /\ ds <> [] /\ Forall (fun c => 48 <= c <= 57) ds /\
    ((sign = [] \/ sign = [43]) /\ z = digits_value ds \/ sign = [45] /\ z = - digits_value ds).

(** The value of a setting of the given kind when its text is [text] ([None]: not given). *)
Definition takes (k : skind) (text : option gostring) (v : sval) : Prop :=
  match k, text with
  | KBool d, None => v = SBool d
  | KInt d, None => v = SInt d
  | KMs d, None => v = SInt d
  | KText d, None | KCsv d, None => v = SText d
  | KBool _, Some t => exists b, v = SBool b /\ (b = true <-> means_true t)
  | KInt d, Some t => (forall z, decimal t z -> in_int64 z -> v = SInt z) /\
                      ((forall z, decimal t z -> ~ in_int64 z) -> v = SInt d)
  | KMs d, Some t => (forall z, decimal t z -> in_int32 z -> v = SInt z) /\
                     (forall z, decimal t z -> in_int64 z -> v = SInt (int32 z)) /\
                     ((forall z, decimal t z -> ~ in_int64 z) -> v = SInt d)
  | KText _, Some t | KCsv _, Some t => v = SText t
  end.

(** an empty text counts as not given *)
Definition given (t : option gostring) : option gostring := match t with Some [] => None | _ => t end.

(** a well-formed environment entry KEY=VALUE; the value may contain anything *)
Definition env_entry (e k v : gostring) : Prop := e = k ++ [61] ++ v /\ k <> [] /\ ~ In 61 k.

(** the value an environment gives to a key: its last entry for the key *)
Definition env_gives (es : list gostring) (k : gostring) (v : option gostring) : Prop :=
  match v with
  | Some t => exists es1 e es2, es = es1 ++ e :: es2 /\ env_entry e k t /\ forall e' t', In e' es2 -> ~ env_entry e' k t'
  | None => forall e' t', In e' es -> ~ env_entry e' k t'
  end.

(** every entry is KEY=VALUE with no further '=' in VALUE *)
Definition simple_env (es : list gostring) : Prop :=
  Forall (fun e => exists k v, env_entry e k v /\ ~ In 61 v) es.

(** the refresh reads the file: it is absent, or newer than what was last read, and can be loaded; [fp] is its
    table (empty if absent) *)
Definition reloads (w : world) (s : cstate) (fp : props) : Prop :=
  (w_stat w = StatAbsent \/ exists m, w_stat w = StatTime m /\ (forall l, c_last s = Some l -> l < m)) /\
  (w_load w = Loaded fp \/ (w_load w = LoadAbsent /\ fp = [])).

(** how a value is shown to the collector *)
Definition shows (t : gostring) (v : sval) : Prop :=
  match v with
  | SBool b => t = (if b then of_string "true" else of_string "false")
  | SInt z => decimal t z
  | SText s => t = s
  end.
Definition default_of (k : skind) : sval :=
  match k with KBool d => SBool d | KInt d | KMs d => SInt d | KText d | KCsv d => SText d end.
Definition type_of (k : skind) : Z :=
  match k with KBool _ => 3 | KInt _ | KMs _ => 2 | KText _ => 1 | KCsv _ => 4 end.

(** [t] is [v] up to its first '=' *)
Definition up_to_equals (v t : gostring) : Prop := ~ In 61 t /\ (v = t \/ exists r, v = t ++ 61 :: r).

(** modification times the refreshes of a history saw *)
Definition seen_before (ops : list cop) (m : Z) : Prop :=
  forall w t, In (CRefresh w) ops -> w_stat w = StatTime t -> t < m.

(** Which setting each parameter of the sampler is. *)
Definition sampler_settings : list (gostring * (sconf -> sval)) :=
  [ (of_string "xlog_discard_service_patterns", fun r => SText (sc_DiscardServicePatterns r));
    (of_string "xlog_discard_service_show_error", fun r => SBool (sc_DiscardServiceShowError r));
    (of_string "xlog_sampling_exclude_patterns", fun r => SText (sc_ExcludePatterns r));
    (of_string "xlog_sampling_enabled", fun r => SBool (r_Enabled (sc_Sampling r)));
    (of_string "xlog_sampling_only_profile", fun r => SBool (r_OnlyProfile (sc_Sampling r)));
    (of_string "xlog_sampling_step1_ms", fun r => SInt (r_Step1Ms (sc_Sampling r)));
    (of_string "xlog_sampling_step1_rate_pct", fun r => SInt (r_Step1RatePct (sc_Sampling r)));
    (of_string "xlog_sampling_step2_ms", fun r => SInt (r_Step2Ms (sc_Sampling r)));
    (of_string "xlog_sampling_step2_rate_pct", fun r => SInt (r_Step2RatePct (sc_Sampling r)));
    (of_string "xlog_sampling_step3_ms", fun r => SInt (r_Step3Ms (sc_Sampling r)));
    (of_string "xlog_sampling_step3_rate_pct", fun r => SInt (r_Step3RatePct (sc_Sampling r)));
    (of_string "xlog_sampling_over_rate_pct", fun r => SInt (r_OverRatePct (sc_Sampling r)));
    (of_string "xlog_patterned_sampling_service_patterns", fun r => SText (sc_PatternedServicePatterns r));
    (of_string "xlog_patterned_sampling_enabled", fun r => SBool (r_Enabled (sc_Patterned r)));
    (of_string "xlog_patterned_sampling_only_profile", fun r => SBool (r_OnlyProfile (sc_Patterned r)));
    (of_string "xlog_patterned_sampling_step1_ms", fun r => SInt (r_Step1Ms (sc_Patterned r)));
    (of_string "xlog_patterned_sampling_step1_rate_pct", fun r => SInt (r_Step1RatePct (sc_Patterned r)));
    (of_string "xlog_patterned_sampling_step2_ms", fun r => SInt (r_Step2Ms (sc_Patterned r)));
    (of_string "xlog_patterned_sampling_step2_rate_pct", fun r => SInt (r_Step2RatePct (sc_Patterned r)));
    (of_string "xlog_patterned_sampling_step3_ms", fun r => SInt (r_Step3Ms (sc_Patterned r)));
    (of_string "xlog_patterned_sampling_step3_rate_pct", fun r => SInt (r_Step3RatePct (sc_Patterned r)));
    (of_string "xlog_patterned_sampling_over_rate_pct", fun r => SInt (r_OverRatePct (sc_Patterned r)));
    (of_string "xlog_patterned2_sampling_service_patterns", fun r => SText (sc_Patterned2ServicePatterns r));
    (of_string "xlog_patterned2_sampling_enabled", fun r => SBool (r_Enabled (sc_Patterned2 r)));
    (of_string "xlog_patterned2_sampling_only_profile", fun r => SBool (r_OnlyProfile (sc_Patterned2 r)));
    (of_string "xlog_patterned2_sampling_step1_ms", fun r => SInt (r_Step1Ms (sc_Patterned2 r)));
    (of_string "xlog_patterned2_sampling_step1_rate_pct", fun r => SInt (r_Step1RatePct (sc_Patterned2 r)));
    (of_string "xlog_patterned2_sampling_step2_ms", fun r => SInt (r_Step2Ms (sc_Patterned2 r)));
    (of_string "xlog_patterned2_sampling_step2_rate_pct", fun r => SInt (r_Step2RatePct (sc_Patterned2 r)));
    (of_string "xlog_patterned2_sampling_step3_ms", fun r => SInt (r_Step3Ms (sc_Patterned2 r)));
    (of_string "xlog_patterned2_sampling_step3_rate_pct", fun r => SInt (r_Step3RatePct (sc_Patterned2 r)));
    (of_string "xlog_patterned2_sampling_over_rate_pct", fun r => SInt (r_OverRatePct (sc_Patterned2 r)));
    (of_string "xlog_patterned3_sampling_service_patterns", fun r => SText (sc_Patterned3ServicePatterns r));
    (of_string "xlog_patterned3_sampling_enabled", fun r => SBool (r_Enabled (sc_Patterned3 r)));
    (of_string "xlog_patterned3_sampling_only_profile", fun r => SBool (r_OnlyProfile (sc_Patterned3 r)));
    (of_string "xlog_patterned3_sampling_step1_ms", fun r => SInt (r_Step1Ms (sc_Patterned3 r)));
    (of_string "xlog_patterned3_sampling_step1_rate_pct", fun r => SInt (r_Step1RatePct (sc_Patterned3 r)));
    (of_string "xlog_patterned3_sampling_step2_ms", fun r => SInt (r_Step2Ms (sc_Patterned3 r)));
    (of_string "xlog_patterned3_sampling_step2_rate_pct", fun r => SInt (r_Step2RatePct (sc_Patterned3 r)));
    (of_string "xlog_patterned3_sampling_step3_ms", fun r => SInt (r_Step3Ms (sc_Patterned3 r)));
    (of_string "xlog_patterned3_sampling_step3_rate_pct", fun r => SInt (r_Step3RatePct (sc_Patterned3 r)));
    (of_string "xlog_patterned3_sampling_over_rate_pct", fun r => SInt (r_OverRatePct (sc_Patterned3 r))) ].
