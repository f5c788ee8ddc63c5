(** A refresh of the settings as the goroutines see it that read them without the lock: scouterx/conf/configure.go:191-208 and 334-413 assign the fields of the
    Configure object one after the other; every other package reads them directly (conf.GetInstance().X). *)
From Verif Require Import GoInt M_Util M_Conf.
Local Open Scope nat_scope.

(** A refresh that replaces the settings [old] by [new], after the first [k] of its 66 assignments. [mid]: the next one is under way. A Go string is two machine
    words, where its bytes are and how many they are, written one after the other; read in between they give the new bytes with the old length, and what lies
    behind the new bytes in memory ([Some beyond]) if they are too few. Numbers and booleans are one word. The new values do not depend on the old ones
    (add_to_conf), so the order of reading the properties does not matter. *)
Section Half.
Context (k : nat) (mid : option bytes).
(** a number or switch, while the assignments of configure.go:334-413 are under way: the new one once its turn has come *)
Definition pword {A} (i : nat) (old new : A) : A := if i <? k then new else old.
(** a text, while the assignments of configure.go:334-413 are under way: the same, and in its own turn any bytes [mid] that a torn read gives *)
Definition ptext (i : nat) (old new : gostring) : gostring :=
  if i <? k then new else if i =? k then match mid with Some beyond => firstn (length old) (new ++ beyond) | None => old end else old.
(** configure.go:191-208 (ObjNameSimple, ObjName, ObjHash, ObjType) and 334-413, in that order; the record lists them as in M_Conf.v *)
Definition half (old new : configure) : configure :=
  mk_configure
    (pword 4 (cf_trace old) (cf_trace new)) (pword 2 (cf_ObjHash old) (cf_ObjHash new)) (ptext 1 (cf_ObjName old) (cf_ObjName new)) (ptext 3 (cf_ObjType old) (cf_ObjType new))
    (ptext 0 (cf_ObjNameSimple old) (cf_ObjNameSimple new)) (pword 5 (cf_TraceObjSend old) (cf_TraceObjSend new)) (pword 6 (cf_SendQueueSize old) (cf_SendQueueSize new)) (ptext 7 (cf_NetCollectorIP old) (cf_NetCollectorIP new))
    (pword 8 (cf_NetCollectorUDPPort old) (cf_NetCollectorUDPPort new)) (pword 9 (cf_NetCollectorTCPPort old) (cf_NetCollectorTCPPort new)) (pword 10 (cf_NetCollectorTcpSoTimeoutMs old) (cf_NetCollectorTcpSoTimeoutMs new)) (pword 11 (cf_NetCollectorTcpConnectionTimeoutMs old) (cf_NetCollectorTcpConnectionTimeoutMs new))
    (pword 12 (cf_UDPMaxBytes old) (cf_UDPMaxBytes new)) (pword 13 (cf_StuckServiceBaseTimeMs old) (cf_StuckServiceBaseTimeMs new)) (pword 14 (cf_StuckServiceRemoveEnabled old) (cf_StuckServiceRemoveEnabled new)) (pword 15 (cf_StuckServiceAlertEnabled old) (cf_StuckServiceAlertEnabled new))
    (pword 16 (cf_TraceActiveserviceYellowTime old) (cf_TraceActiveserviceYellowTime new)) (pword 17 (cf_TraceActiveserviceRedTime old) (cf_TraceActiveserviceRedTime new)) (pword 18 (cf_ProfileStepMaxKeepInMemoryCount old) (cf_ProfileStepMaxKeepInMemoryCount new)) (pword 19 (cf_ProfileStepMaxCount old) (cf_ProfileStepMaxCount new))
    (pword 20 (cf_ProfileHttpQuerystringEnabled old) (cf_ProfileHttpQuerystringEnabled new)) (pword 21 (cf_ProfileHttpHeaderEnabled old) (cf_ProfileHttpHeaderEnabled new)) (ptext 22 (cf_ProfileHttpHeaderKeys old) (cf_ProfileHttpHeaderKeys new)) (ptext 23 (cf_TraceHttpClientIpHeaderKey old) (cf_TraceHttpClientIpHeaderKey new))
    (ptext 24 (cf_XlogDiscardServicePatterns old) (cf_XlogDiscardServicePatterns new)) (pword 25 (cf_XlogDiscardServiceShowError old) (cf_XlogDiscardServiceShowError new)) (ptext 26 (cf_XlogSamplingExcludePatterns old) (cf_XlogSamplingExcludePatterns new)) (pword 27 (cf_XlogSamplingEnabled old) (cf_XlogSamplingEnabled new))
    (pword 28 (cf_XlogSamplingOnlyProfile old) (cf_XlogSamplingOnlyProfile new)) (pword 29 (cf_XlogSamplingStep1Ms old) (cf_XlogSamplingStep1Ms new)) (pword 30 (cf_XlogSamplingStep1RatePct old) (cf_XlogSamplingStep1RatePct new)) (pword 31 (cf_XlogSamplingStep2Ms old) (cf_XlogSamplingStep2Ms new))
    (pword 32 (cf_XlogSamplingStep2RatePct old) (cf_XlogSamplingStep2RatePct new)) (pword 33 (cf_XlogSamplingStep3Ms old) (cf_XlogSamplingStep3Ms new)) (pword 34 (cf_XlogSamplingStep3RatePct old) (cf_XlogSamplingStep3RatePct new)) (pword 35 (cf_XlogSamplingOverRatePct old) (cf_XlogSamplingOverRatePct new))
    (pword 36 (cf_XlogPatternedSamplingEnabled old) (cf_XlogPatternedSamplingEnabled new)) (ptext 37 (cf_XlogPatternedSamplingServicePatterns old) (cf_XlogPatternedSamplingServicePatterns new)) (pword 38 (cf_XlogPatternedSamplingOnlyProfile old) (cf_XlogPatternedSamplingOnlyProfile new)) (pword 39 (cf_XlogPatternedSamplingStep1Ms old) (cf_XlogPatternedSamplingStep1Ms new))
    (pword 40 (cf_XlogPatternedSamplingStep1RatePct old) (cf_XlogPatternedSamplingStep1RatePct new)) (pword 41 (cf_XlogPatternedSamplingStep2Ms old) (cf_XlogPatternedSamplingStep2Ms new)) (pword 42 (cf_XlogPatternedSamplingStep2RatePct old) (cf_XlogPatternedSamplingStep2RatePct new)) (pword 43 (cf_XlogPatternedSamplingStep3Ms old) (cf_XlogPatternedSamplingStep3Ms new))
    (pword 44 (cf_XlogPatternedSamplingStep3RatePct old) (cf_XlogPatternedSamplingStep3RatePct new)) (pword 45 (cf_XlogPatternedSamplingOverRatePct old) (cf_XlogPatternedSamplingOverRatePct new)) (pword 46 (cf_XlogPatterned2SamplingEnabled old) (cf_XlogPatterned2SamplingEnabled new)) (ptext 47 (cf_XlogPatterned2SamplingServicePatterns old) (cf_XlogPatterned2SamplingServicePatterns new))
    (pword 48 (cf_XlogPatterned2SamplingOnlyProfile old) (cf_XlogPatterned2SamplingOnlyProfile new)) (pword 49 (cf_XlogPatterned2SamplingStep1Ms old) (cf_XlogPatterned2SamplingStep1Ms new)) (pword 50 (cf_XlogPatterned2SamplingStep1RatePct old) (cf_XlogPatterned2SamplingStep1RatePct new)) (pword 51 (cf_XlogPatterned2SamplingStep2Ms old) (cf_XlogPatterned2SamplingStep2Ms new))
    (pword 52 (cf_XlogPatterned2SamplingStep2RatePct old) (cf_XlogPatterned2SamplingStep2RatePct new)) (pword 53 (cf_XlogPatterned2SamplingStep3Ms old) (cf_XlogPatterned2SamplingStep3Ms new)) (pword 54 (cf_XlogPatterned2SamplingStep3RatePct old) (cf_XlogPatterned2SamplingStep3RatePct new)) (pword 55 (cf_XlogPatterned2SamplingOverRatePct old) (cf_XlogPatterned2SamplingOverRatePct new))
    (pword 56 (cf_XlogPatterned3SamplingEnabled old) (cf_XlogPatterned3SamplingEnabled new)) (ptext 57 (cf_XlogPatterned3SamplingServicePatterns old) (cf_XlogPatterned3SamplingServicePatterns new)) (pword 58 (cf_XlogPatterned3SamplingOnlyProfile old) (cf_XlogPatterned3SamplingOnlyProfile new)) (pword 59 (cf_XlogPatterned3SamplingStep1Ms old) (cf_XlogPatterned3SamplingStep1Ms new))
    (pword 60 (cf_XlogPatterned3SamplingStep1RatePct old) (cf_XlogPatterned3SamplingStep1RatePct new)) (pword 61 (cf_XlogPatterned3SamplingStep2Ms old) (cf_XlogPatterned3SamplingStep2Ms new)) (pword 62 (cf_XlogPatterned3SamplingStep2RatePct old) (cf_XlogPatterned3SamplingStep2RatePct new)) (pword 63 (cf_XlogPatterned3SamplingStep3Ms old) (cf_XlogPatterned3SamplingStep3Ms new))
    (pword 64 (cf_XlogPatterned3SamplingStep3RatePct old) (cf_XlogPatterned3SamplingStep3RatePct new)) (pword 65 (cf_XlogPatterned3SamplingOverRatePct old) (cf_XlogPatterned3SamplingOverRatePct new)).
End Half.

(** the number of assignments; configure.go:334-413 *)
Definition assignments : nat := 66.
