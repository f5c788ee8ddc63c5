(** Model of scouterx/conf/configure.go, exthandler.go and opserver.go: how the settings are loaded.

    Inputs: the environment (os.Environ), the result of os.Stat, the result of properties.LoadFile (the
    .properties parser of github.com/magiconair/properties is not modelled; its result is a key -> text
    table) and the host name.  Not modelled: "${..}" expansion inside values, the conf lock (Refresh holds
    it throughout, so refreshes are sequential), the logger. *)
From Verif Require Import GoInt M_Value M_Util M_Hash M_Sampler.

(** properties.Properties as used in configure.go:210-260: names and values *)
Definition props := list (gostring * gostring).

(** strings.ToLower on bytes; non-ASCII letters are left alone, which cannot change any of the comparisons
    with the ASCII words below (no non-ASCII letter lower-cases to one of their letters). used by properties.boolVal for configure.go:274-287 *)
Definition lower (s : gostring) : gostring := map (fun c => if (65 <=? c) && (c <=? 90) then c + 32 else c) s.

(** properties.boolVal; called from configure.go:274-287 (GetBool) *)
Definition bool_val (v : gostring) : bool :=
  let v := lower v in
  beqb v (of_string "1") || beqb v (of_string "true") || beqb v (of_string "yes") || beqb v (of_string "on").

(** strconv.ParseInt(v, 10, 64): optional sign, one or more decimal digits, in range; called from configure.go:289-302 (GetInt) *)
Fixpoint parse_digits10 (acc : Z) (s : gostring) : option Z :=
  match s with
  | [] => Some acc
  | c :: s' => if (48 <=? c) && (c <=? 57) then parse_digits10 (acc * 10 + (c - 48)) s' else None
  end.
(** strconv.ParseInt(v, 10, 64), called by properties.GetInt in configure.go:289-302 *)
Definition parse_int64 (s : gostring) : option Z :=
  let '(neg, ds) := match s with
                    | 43 :: ds => (false, ds)
                    | 45 :: ds => (true, ds)
                    | _ => (false, s)
                    end in
  match ds with
  | [] => None
  | _ => match parse_digits10 0 ds with
         | None => None
         | Some n => let z := if neg : bool then - n else n in
                     if (-9223372036854775808 <=? z) && (z <=? 9223372036854775807) then Some z else None
         end
  end.

(** props.GetBool, GetInt, GetString; called from configure.go:274-287 *)
Definition get_bool (p : props) (key : gostring) (def : bool) : bool :=
  match get key p with Some v => bool_val v | None => def end.
(** properties.GetInt, called from configure.go:289-302 *)
Definition get_int (p : props) (key : gostring) (def : Z) : Z :=
  match get key p with
  | Some v => match parse_int64 v with Some z => z | None => def end
  | None => def
  end.
(** properties.GetString, called from configure.go:304-332 *)
Definition get_str (p : props) (key : gostring) (def : gostring) : gostring :=
  match get key p with Some v => v | None => def end.

(** configure.go:22-26 *)
Definition vtValue := 1. Definition vtNum := 2. Definition vtBool := 3. Definition vtCommaSeparatedValue := 4.

(** configure.go:31-37; Desc is "" for all settings but obj_name and obj_type *)
Record cdesc := mk_cdesc { cd_Key : gostring; cd_Value : gostring; cd_Default : gostring; cd_Desc : gostring; cd_Type : Z }.
(** descMap, configure.go:29: a linkedhashmap keeps insertion order and updates a present key in place *)
Definition descs := list (gostring * cdesc).

(** strconv.FormatBool; called from configure.go:274-287 *)
Definition format_bool (b : bool) : gostring := if b then of_string "true" else of_string "false".

(** configure.go:274-287 *)
Definition bool_of (p : props) (key : gostring) (def : bool) (desc : gostring) (d : descs) : bool * descs :=
  let v := get_bool p key def in
  (v, put key (mk_cdesc key (format_bool v) (format_bool def) desc vtBool) d).
(** configure.go:289-302 *)
Definition int_of (p : props) (key : gostring) (def : Z) (desc : gostring) (d : descs) : Z * descs :=
  let v := get_int p key def in
  (v, put key (mk_cdesc key (format_int 10 v) (format_int 10 def) desc vtNum) d).
(** configure.go:319-332 *)
Definition string_of_type (p : props) (key def : gostring) (ty : Z) (desc : gostring) (d : descs) : gostring * descs :=
  let v := get_str p key def in
  (v, put key (mk_cdesc key v def desc ty) d).
(** configure.go:304-317 *)
Definition str_of (p : props) (key def : gostring) (desc : gostring) (d : descs) : gostring * descs :=
  string_of_type p key def vtValue desc d.

(** configure.go:39-124; lastModified and descMap are kept in [cstate] below *)
Record configure := mk_configure {
  cf_trace : bool; cf_ObjHash : Z; cf_ObjName : gostring; cf_ObjType : gostring; cf_ObjNameSimple : gostring;
  cf_TraceObjSend : bool;
  cf_SendQueueSize : Z;
  cf_NetCollectorIP : gostring;
  cf_NetCollectorUDPPort : Z;
  cf_NetCollectorTCPPort : Z;
  cf_NetCollectorTcpSoTimeoutMs : Z;
  cf_NetCollectorTcpConnectionTimeoutMs : Z;
  cf_UDPMaxBytes : Z;
  cf_StuckServiceBaseTimeMs : Z;
  cf_StuckServiceRemoveEnabled : bool;
  cf_StuckServiceAlertEnabled : bool;
  cf_TraceActiveserviceYellowTime : Z;
  cf_TraceActiveserviceRedTime : Z;
  cf_ProfileStepMaxKeepInMemoryCount : Z;
  cf_ProfileStepMaxCount : Z;
  cf_ProfileHttpQuerystringEnabled : bool;
  cf_ProfileHttpHeaderEnabled : bool;
  cf_ProfileHttpHeaderKeys : gostring;
  cf_TraceHttpClientIpHeaderKey : gostring;
  cf_XlogDiscardServicePatterns : gostring;
  cf_XlogDiscardServiceShowError : bool;
  cf_XlogSamplingExcludePatterns : gostring;
  cf_XlogSamplingEnabled : bool;
  cf_XlogSamplingOnlyProfile : bool;
  cf_XlogSamplingStep1Ms : Z;
  cf_XlogSamplingStep1RatePct : Z;
  cf_XlogSamplingStep2Ms : Z;
  cf_XlogSamplingStep2RatePct : Z;
  cf_XlogSamplingStep3Ms : Z;
  cf_XlogSamplingStep3RatePct : Z;
  cf_XlogSamplingOverRatePct : Z;
  cf_XlogPatternedSamplingEnabled : bool;
  cf_XlogPatternedSamplingServicePatterns : gostring;
  cf_XlogPatternedSamplingOnlyProfile : bool;
  cf_XlogPatternedSamplingStep1Ms : Z;
  cf_XlogPatternedSamplingStep1RatePct : Z;
  cf_XlogPatternedSamplingStep2Ms : Z;
  cf_XlogPatternedSamplingStep2RatePct : Z;
  cf_XlogPatternedSamplingStep3Ms : Z;
  cf_XlogPatternedSamplingStep3RatePct : Z;
  cf_XlogPatternedSamplingOverRatePct : Z;
  cf_XlogPatterned2SamplingEnabled : bool;
  cf_XlogPatterned2SamplingServicePatterns : gostring;
  cf_XlogPatterned2SamplingOnlyProfile : bool;
  cf_XlogPatterned2SamplingStep1Ms : Z;
  cf_XlogPatterned2SamplingStep1RatePct : Z;
  cf_XlogPatterned2SamplingStep2Ms : Z;
  cf_XlogPatterned2SamplingStep2RatePct : Z;
  cf_XlogPatterned2SamplingStep3Ms : Z;
  cf_XlogPatterned2SamplingStep3RatePct : Z;
  cf_XlogPatterned2SamplingOverRatePct : Z;
  cf_XlogPatterned3SamplingEnabled : bool;
  cf_XlogPatterned3SamplingServicePatterns : gostring;
  cf_XlogPatterned3SamplingOnlyProfile : bool;
  cf_XlogPatterned3SamplingStep1Ms : Z;
  cf_XlogPatterned3SamplingStep1RatePct : Z;
  cf_XlogPatterned3SamplingStep2Ms : Z;
  cf_XlogPatterned3SamplingStep2RatePct : Z;
  cf_XlogPatterned3SamplingStep3Ms : Z;
  cf_XlogPatterned3SamplingStep3RatePct : Z;
  cf_XlogPatterned3SamplingOverRatePct : Z }.

(** A Configure whose fields still have their Go zero values or the ones assigned in GetInstance
    (configure.go:129-147), before the first Refresh. *)
Definition initial_configure : configure :=
  mk_configure false 0 [] [] []
    false 3000 (of_string "127.0.0.1") 6100 6100 60000 3000 60000 300000 true true 3000 8000 2048 1024 false false [] [] [] true [] false false 0 0 0 0 0 0 0 false [] false 0 0 0 0 0 0 0 false [] false 0 0 0 0 0 0 0 false [] false 0 0 0 0 0 0 0.

(** configure.go:191-208 (called first by addToConf) and 334-413 addToConf.  [hostname]: os.Hostname() or "unknown".
    The result also tells whether the object name changed (objChangeNotify, line 206); HashString cannot
    fail (C16), [0] stands for the impossible panic. *)
Definition add_to_conf (p : props) (hostname : gostring) (old : configure) (d : descs) : configure * descs * bool :=
  let '(objNameSimple, d) := str_of p (of_string "obj_name") (of_string "go1") (of_string "object name") d in
  let objName := of_string "/" ++ hostname ++ of_string "/" ++ objNameSimple in
  let objHash := match hash_string objName with Some h => h | None => 0 end in
  let '(objType, d) := str_of p (of_string "obj_type") (of_string "golang") (of_string "object type(monitoring group)") d in
  let changed := negb (beqb (cf_ObjName old) objName) in
  let trace := get_bool p (of_string "_trace") false in
  let '(vTraceObjSend, d) := bool_of p (of_string "trace_obj_send") false [] d in
  let '(vSendQueueSize, d) := int_of p (of_string "send_queue_size") 3000 [] d in
  let '(vNetCollectorIP, d) := str_of p (of_string "net_collector_ip") (of_string "127.0.0.1") [] d in
  let '(vNetCollectorUDPPort, d) := int_of p (of_string "net_collector_udp_port") 6100 [] d in
  let '(vNetCollectorTCPPort, d) := int_of p (of_string "net_collector_tcp_port") 6100 [] d in
  let '(vNetCollectorTcpSoTimeoutMs, d) := int_of p (of_string "net_collector_tcp_so_timeout_ms") 60000 [] d in
  let '(vNetCollectorTcpConnectionTimeoutMs, d) := int_of p (of_string "net_collector_tcp_connection_timeout_ms") 3000 [] d in
  let '(vUDPMaxBytes, d) := int_of p (of_string "udp_max_bytes") 60000 [] d in
  let '(vStuckServiceBaseTimeMs, d) := int_of p (of_string "stuck_service_base_time_ms") 300000 [] d in
  let '(vStuckServiceRemoveEnabled, d) := bool_of p (of_string "stuck_service_remove_enabled") true [] d in
  let '(vStuckServiceAlertEnabled, d) := bool_of p (of_string "stuck_service_alert_enabled") true [] d in
  let '(vTraceActiveserviceYellowTime, d) := int_of p (of_string "trace_activeservice_yellow_time") 3000 [] d in
  let '(vTraceActiveserviceRedTime, d) := int_of p (of_string "trace_activeservice_red_time") 8000 [] d in
  let '(vProfileStepMaxKeepInMemoryCount, d) := int_of p (of_string "profile_step_max_keep_in_memory_count") 2048 [] d in
  let '(vProfileStepMaxCount, d) := int_of p (of_string "profile_step_max_count") 1024 [] d in
  let '(vProfileHttpQuerystringEnabled, d) := bool_of p (of_string "profile_http_querystring_enabled") false [] d in
  let '(vProfileHttpHeaderEnabled, d) := bool_of p (of_string "profile_http_header_enabled") false [] d in
  let '(vProfileHttpHeaderKeys, d) := string_of_type p (of_string "profile_http_header_keys") [] vtCommaSeparatedValue [] d in
  let '(vTraceHttpClientIpHeaderKey, d) := str_of p (of_string "trace_http_client_ip_header_key") [] [] d in
  let '(vXlogDiscardServicePatterns, d) := string_of_type p (of_string "xlog_discard_service_patterns") [] vtCommaSeparatedValue [] d in
  let '(vXlogDiscardServiceShowError, d) := bool_of p (of_string "xlog_discard_service_show_error") true [] d in
  let '(vXlogSamplingExcludePatterns, d) := string_of_type p (of_string "xlog_sampling_exclude_patterns") [] vtCommaSeparatedValue [] d in
  let '(vXlogSamplingEnabled, d) := bool_of p (of_string "xlog_sampling_enabled") false [] d in
  let '(vXlogSamplingOnlyProfile, d) := bool_of p (of_string "xlog_sampling_only_profile") false [] d in
  let '(vXlogSamplingStep1Ms, d) := int_of p (of_string "xlog_sampling_step1_ms") 100 [] d in
  let '(vXlogSamplingStep1RatePct, d) := int_of p (of_string "xlog_sampling_step1_rate_pct") 2 [] d in
  let '(vXlogSamplingStep2Ms, d) := int_of p (of_string "xlog_sampling_step2_ms") 500 [] d in
  let '(vXlogSamplingStep2RatePct, d) := int_of p (of_string "xlog_sampling_step2_rate_pct") 7 [] d in
  let '(vXlogSamplingStep3Ms, d) := int_of p (of_string "xlog_sampling_step3_ms") 1000 [] d in
  let '(vXlogSamplingStep3RatePct, d) := int_of p (of_string "xlog_sampling_step3_rate_pct") 15 [] d in
  let '(vXlogSamplingOverRatePct, d) := int_of p (of_string "xlog_sampling_over_rate_pct") 3000 [] d in
  let '(vXlogPatternedSamplingEnabled, d) := bool_of p (of_string "xlog_patterned_sampling_enabled") false [] d in
  let '(vXlogPatternedSamplingServicePatterns, d) := string_of_type p (of_string "xlog_patterned_sampling_service_patterns") [] vtCommaSeparatedValue [] d in
  let '(vXlogPatternedSamplingOnlyProfile, d) := bool_of p (of_string "xlog_patterned_sampling_only_profile") false [] d in
  let '(vXlogPatternedSamplingStep1Ms, d) := int_of p (of_string "xlog_patterned_sampling_step1_ms") 100 [] d in
  let '(vXlogPatternedSamplingStep1RatePct, d) := int_of p (of_string "xlog_patterned_sampling_step1_rate_pct") 2 [] d in
  let '(vXlogPatternedSamplingStep2Ms, d) := int_of p (of_string "xlog_patterned_sampling_step2_ms") 500 [] d in
  let '(vXlogPatternedSamplingStep2RatePct, d) := int_of p (of_string "xlog_patterned_sampling_step2_rate_pct") 7 [] d in
  let '(vXlogPatternedSamplingStep3Ms, d) := int_of p (of_string "xlog_patterned_sampling_step3_ms") 1000 [] d in
  let '(vXlogPatternedSamplingStep3RatePct, d) := int_of p (of_string "xlog_patterned_sampling_step3_rate_pct") 15 [] d in
  let '(vXlogPatternedSamplingOverRatePct, d) := int_of p (of_string "xlog_patterned_sampling_over_rate_pct") 3000 [] d in
  let '(vXlogPatterned2SamplingEnabled, d) := bool_of p (of_string "xlog_patterned2_sampling_enabled") false [] d in
  let '(vXlogPatterned2SamplingServicePatterns, d) := string_of_type p (of_string "xlog_patterned2_sampling_service_patterns") [] vtCommaSeparatedValue [] d in
  let '(vXlogPatterned2SamplingOnlyProfile, d) := bool_of p (of_string "xlog_patterned2_sampling_only_profile") false [] d in
  let '(vXlogPatterned2SamplingStep1Ms, d) := int_of p (of_string "xlog_patterned2_sampling_step1_ms") 100 [] d in
  let '(vXlogPatterned2SamplingStep1RatePct, d) := int_of p (of_string "xlog_patterned2_sampling_step1_rate_pct") 2 [] d in
  let '(vXlogPatterned2SamplingStep2Ms, d) := int_of p (of_string "xlog_patterned2_sampling_step2_ms") 500 [] d in
  let '(vXlogPatterned2SamplingStep2RatePct, d) := int_of p (of_string "xlog_patterned2_sampling_step2_rate_pct") 7 [] d in
  let '(vXlogPatterned2SamplingStep3Ms, d) := int_of p (of_string "xlog_patterned2_sampling_step3_ms") 1000 [] d in
  let '(vXlogPatterned2SamplingStep3RatePct, d) := int_of p (of_string "xlog_patterned2_sampling_step3_rate_pct") 15 [] d in
  let '(vXlogPatterned2SamplingOverRatePct, d) := int_of p (of_string "xlog_patterned2_sampling_over_rate_pct") 3000 [] d in
  let '(vXlogPatterned3SamplingEnabled, d) := bool_of p (of_string "xlog_patterned3_sampling_enabled") false [] d in
  let '(vXlogPatterned3SamplingServicePatterns, d) := string_of_type p (of_string "xlog_patterned3_sampling_service_patterns") [] vtCommaSeparatedValue [] d in
  let '(vXlogPatterned3SamplingOnlyProfile, d) := bool_of p (of_string "xlog_patterned3_sampling_only_profile") false [] d in
  let '(vXlogPatterned3SamplingStep1Ms, d) := int_of p (of_string "xlog_patterned3_sampling_step1_ms") 100 [] d in
  let '(vXlogPatterned3SamplingStep1RatePct, d) := int_of p (of_string "xlog_patterned3_sampling_step1_rate_pct") 2 [] d in
  let '(vXlogPatterned3SamplingStep2Ms, d) := int_of p (of_string "xlog_patterned3_sampling_step2_ms") 500 [] d in
  let '(vXlogPatterned3SamplingStep2RatePct, d) := int_of p (of_string "xlog_patterned3_sampling_step2_rate_pct") 7 [] d in
  let '(vXlogPatterned3SamplingStep3Ms, d) := int_of p (of_string "xlog_patterned3_sampling_step3_ms") 1000 [] d in
  let '(vXlogPatterned3SamplingStep3RatePct, d) := int_of p (of_string "xlog_patterned3_sampling_step3_rate_pct") 15 [] d in
  let '(vXlogPatterned3SamplingOverRatePct, d) := int_of p (of_string "xlog_patterned3_sampling_over_rate_pct") 3000 [] d in
  (mk_configure trace objHash objName objType objNameSimple
     vTraceObjSend vSendQueueSize vNetCollectorIP vNetCollectorUDPPort vNetCollectorTCPPort vNetCollectorTcpSoTimeoutMs vNetCollectorTcpConnectionTimeoutMs vUDPMaxBytes vStuckServiceBaseTimeMs vStuckServiceRemoveEnabled vStuckServiceAlertEnabled vTraceActiveserviceYellowTime vTraceActiveserviceRedTime vProfileStepMaxKeepInMemoryCount vProfileStepMaxCount vProfileHttpQuerystringEnabled vProfileHttpHeaderEnabled vProfileHttpHeaderKeys vTraceHttpClientIpHeaderKey vXlogDiscardServicePatterns vXlogDiscardServiceShowError vXlogSamplingExcludePatterns vXlogSamplingEnabled vXlogSamplingOnlyProfile (int32 vXlogSamplingStep1Ms) vXlogSamplingStep1RatePct (int32 vXlogSamplingStep2Ms) vXlogSamplingStep2RatePct (int32 vXlogSamplingStep3Ms) vXlogSamplingStep3RatePct vXlogSamplingOverRatePct vXlogPatternedSamplingEnabled vXlogPatternedSamplingServicePatterns vXlogPatternedSamplingOnlyProfile (int32 vXlogPatternedSamplingStep1Ms) vXlogPatternedSamplingStep1RatePct (int32 vXlogPatternedSamplingStep2Ms) vXlogPatternedSamplingStep2RatePct (int32 vXlogPatternedSamplingStep3Ms) vXlogPatternedSamplingStep3RatePct vXlogPatternedSamplingOverRatePct vXlogPatterned2SamplingEnabled vXlogPatterned2SamplingServicePatterns vXlogPatterned2SamplingOnlyProfile (int32 vXlogPatterned2SamplingStep1Ms) vXlogPatterned2SamplingStep1RatePct (int32 vXlogPatterned2SamplingStep2Ms) vXlogPatterned2SamplingStep2RatePct (int32 vXlogPatterned2SamplingStep3Ms) vXlogPatterned2SamplingStep3RatePct vXlogPatterned2SamplingOverRatePct vXlogPatterned3SamplingEnabled vXlogPatterned3SamplingServicePatterns vXlogPatterned3SamplingOnlyProfile (int32 vXlogPatterned3SamplingStep1Ms) vXlogPatterned3SamplingStep1RatePct (int32 vXlogPatterned3SamplingStep2Ms) vXlogPatterned3SamplingStep2RatePct (int32 vXlogPatterned3SamplingStep3Ms) vXlogPatterned3SamplingStep3RatePct vXlogPatterned3SamplingOverRatePct, d, changed).

(** The settings the sampler reads (xlogsampler.go); xlogsampler.go:28-71, 106-196 *)
Definition sampler_conf (c : configure) : sconf :=
  mkSConf (cf_XlogDiscardServicePatterns c) (cf_XlogDiscardServiceShowError c) (cf_XlogSamplingExcludePatterns c)
    (mkRates (cf_XlogSamplingEnabled c) (cf_XlogSamplingOnlyProfile c) (cf_XlogSamplingStep1Ms c) (cf_XlogSamplingStep1RatePct c)
       (cf_XlogSamplingStep2Ms c) (cf_XlogSamplingStep2RatePct c) (cf_XlogSamplingStep3Ms c) (cf_XlogSamplingStep3RatePct c) (cf_XlogSamplingOverRatePct c))
    (mkRates (cf_XlogPatternedSamplingEnabled c) (cf_XlogPatternedSamplingOnlyProfile c) (cf_XlogPatternedSamplingStep1Ms c) (cf_XlogPatternedSamplingStep1RatePct c)
       (cf_XlogPatternedSamplingStep2Ms c) (cf_XlogPatternedSamplingStep2RatePct c) (cf_XlogPatternedSamplingStep3Ms c) (cf_XlogPatternedSamplingStep3RatePct c) (cf_XlogPatternedSamplingOverRatePct c)) (cf_XlogPatternedSamplingServicePatterns c)
    (mkRates (cf_XlogPatterned2SamplingEnabled c) (cf_XlogPatterned2SamplingOnlyProfile c) (cf_XlogPatterned2SamplingStep1Ms c) (cf_XlogPatterned2SamplingStep1RatePct c)
       (cf_XlogPatterned2SamplingStep2Ms c) (cf_XlogPatterned2SamplingStep2RatePct c) (cf_XlogPatterned2SamplingStep3Ms c) (cf_XlogPatterned2SamplingStep3RatePct c) (cf_XlogPatterned2SamplingOverRatePct c)) (cf_XlogPatterned2SamplingServicePatterns c)
    (mkRates (cf_XlogPatterned3SamplingEnabled c) (cf_XlogPatterned3SamplingOnlyProfile c) (cf_XlogPatterned3SamplingStep1Ms c) (cf_XlogPatterned3SamplingStep1RatePct c)
       (cf_XlogPatterned3SamplingStep2Ms c) (cf_XlogPatterned3SamplingStep2RatePct c) (cf_XlogPatterned3SamplingStep3Ms c) (cf_XlogPatterned3SamplingStep3RatePct c) (cf_XlogPatterned3SamplingOverRatePct c)) (cf_XlogPatterned3SamplingServicePatterns c).

(** * Refresh *)

(** os.Stat: the file's modification time (nanoseconds), no such file, or another error; configure.go:210-260 *)
Inductive stat_result := StatTime (mtime : Z) | StatAbsent | StatError.
(** properties.LoadFile: parsed, no such file, or another error (unreadable, malformed); configure.go:210-260 *)
Inductive load_result := Loaded (p : props) | LoadAbsent | LoadError.

(** One refresh sees this world. configure.go:168-181, 210-260 *)
Record world := mk_world { w_env : list gostring; w_stat : stat_result; w_load : load_result; w_host : gostring }.

(** properties.Properties.Set: an empty key is ignored; called from configure.go:229-232 *)
Definition props_set (k v : gostring) (p : props) : props := match k with [] => p | _ => put k v p end.

(** configure.go:229-232: pair := strings.Split(e, "="); props.Set(pair[0], pair[1]); an entry without '='
    makes pair[1] panic ([None]) *)
Fixpoint env_props (es : list gostring) (p : props) : option props :=
  match es with
  | [] => Some p
  | e :: es' => match split_byte 61 e with
                | k :: v :: _ => env_props es' (props_set k v p)
                | _ => None
                end
  end.

(** properties.Properties.Merge: the other table wins; called in configure.go:210-260 *)
Definition merge (p other : props) : props := fold_left (fun p kv => put (fst kv) (snd kv) p) other p.

(** configure.go:248-250: FilterFunc(v != "") *)
Definition non_empty (p : props) : props := filter (fun kv => negb (beqb (snd kv) [])) p.

(** the process-wide configuration state; [c_last] is lastModified, with the zero time.Time, which is before
    any modification time, as [None]; configure.go:17-19, 30, 126; xlogsampler.go:12 *)
Record cstate := mk_cstate { c_conf : configure; c_last : option Z; c_descs : descs; c_sampler : option sampler }.

(** strace.GetXlogSampler(), first call: xlogsampler.go:28-46 *)
Definition start_sampler (s : cstate) : cstate :=
  match c_sampler s with
  | Some _ => s
  | None => mk_cstate (c_conf s) (c_last s) (c_descs s) (Some (new_sampler (sampler_conf (c_conf s))))
  end.

(** opserver.go:25-32 confChangeNotify: the registered observer is the sampler (xlogsampler.go:43) *)
Definition notify (s : cstate) : cstate :=
  mk_cstate (c_conf s) (c_last s) (c_descs s) (option_map (sampler_run (sampler_conf (c_conf s))) (c_sampler s)).

(** ModTime().After(lastModified); configure.go:210-260 *)
Definition after (m : Z) (last : option Z) : bool := match last with None => true | Some l => l <? m end.

(** configure.go:210-260 Refresh; the result also tells whether the object-changed observer ran.
    [None]: run-time panic. *)
Definition refresh_conf (w : world) (s : cstate) : option (cstate * bool) :=
  let reload (mtime : option Z) :=
    match env_props (w_env w) [] with
    | None => None
    | Some p =>
        let go (p : props) :=
          let '(c, d, changed) := add_to_conf (non_empty p) (w_host w) (c_conf s) (c_descs s) in
          Some (notify (mk_cstate c (match mtime with Some m => Some m | None => c_last s end) d (c_sampler s)), changed) in
        match w_load w with
        | LoadError => Some (s, false)
        | LoadAbsent => go p
        | Loaded fp => go (merge p fp)
        end
    end in
  match w_stat w with
  | StatError => Some (s, false)
  | StatAbsent => reload None
  | StatTime m => if after m (c_last s) then reload (Some m) else Some (s, false)
  end.

(** configure.go:128-154: the state after GetInstance's assignments *)
Definition initial_cstate : cstate := mk_cstate initial_configure None [] None.

(** GetInstance's first Refresh, then the run loop (configure.go:156-166), possible extra refreshes by
    SET_CONFIGURE_WAS, and the first use of the sampler, in any order *)
Inductive cop := CRefresh (w : world) | CSampler.
(** configure.go:156-166, exthandler.go:17-24, xlogsampler.go:28-46: one refresh or the sampler's first use *)
Definition conf_step (o : cop) (s : cstate) : option cstate :=
  match o with
  | CRefresh w => match refresh_conf w s with Some (s', _) => Some s' | None => None end
  | CSampler => Some (start_sampler s)
  end.
(** configure.go:161-166 with the calls of Refresh in exthandler.go:17-24 *)
Fixpoint conf_run (ops : list cop) (s : cstate) : option cstate :=
  match ops with
  | [] => Some s
  | o :: ops' => match conf_step o s with Some s' => conf_run ops' s' | None => None end
  end.
