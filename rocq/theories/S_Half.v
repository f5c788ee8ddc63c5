(** The settings one by one, in the order in which a refresh assigns them (configure.go:191-208, 334-413). *)
From Verif Require Import GoInt M_Conf S_Conf.
Definition fields_in_order : list (configure -> sval) :=
  [fun c => SText (cf_ObjNameSimple c); fun c => SText (cf_ObjName c); fun c => SInt (cf_ObjHash c); fun c => SText (cf_ObjType c); fun c => SBool (cf_trace c); fun c => SBool (cf_TraceObjSend c); fun c => SInt (cf_SendQueueSize c); fun c => SText (cf_NetCollectorIP c); fun c => SInt (cf_NetCollectorUDPPort c); fun c => SInt (cf_NetCollectorTCPPort c); fun c => SInt (cf_NetCollectorTcpSoTimeoutMs c); fun c => SInt (cf_NetCollectorTcpConnectionTimeoutMs c); fun c => SInt (cf_UDPMaxBytes c); fun c => SInt (cf_StuckServiceBaseTimeMs c); fun c => SBool (cf_StuckServiceRemoveEnabled c); fun c => SBool (cf_StuckServiceAlertEnabled c); fun c => SInt (cf_TraceActiveserviceYellowTime c); fun c => SInt (cf_TraceActiveserviceRedTime c); fun c => SInt (cf_ProfileStepMaxKeepInMemoryCount c); fun c => SInt (cf_ProfileStepMaxCount c); fun c => SBool (cf_ProfileHttpQuerystringEnabled c); fun c => SBool (cf_ProfileHttpHeaderEnabled c); fun c => SText (cf_ProfileHttpHeaderKeys c); fun c => SText (cf_TraceHttpClientIpHeaderKey c); fun c => SText (cf_XlogDiscardServicePatterns c); fun c => SBool (cf_XlogDiscardServiceShowError c); fun c => SText (cf_XlogSamplingExcludePatterns c); fun c => SBool (cf_XlogSamplingEnabled c); fun c => SBool (cf_XlogSamplingOnlyProfile c); fun c => SInt (cf_XlogSamplingStep1Ms c); fun c => SInt (cf_XlogSamplingStep1RatePct c); fun c => SInt (cf_XlogSamplingStep2Ms c); fun c => SInt (cf_XlogSamplingStep2RatePct c); fun c => SInt (cf_XlogSamplingStep3Ms c); fun c => SInt (cf_XlogSamplingStep3RatePct c); fun c => SInt (cf_XlogSamplingOverRatePct c); fun c => SBool (cf_XlogPatternedSamplingEnabled c); fun c => SText (cf_XlogPatternedSamplingServicePatterns c); fun c => SBool (cf_XlogPatternedSamplingOnlyProfile c); fun c => SInt (cf_XlogPatternedSamplingStep1Ms c); fun c => SInt (cf_XlogPatternedSamplingStep1RatePct c); fun c => SInt (cf_XlogPatternedSamplingStep2Ms c); fun c => SInt (cf_XlogPatternedSamplingStep2RatePct c); fun c => SInt (cf_XlogPatternedSamplingStep3Ms c); fun c => SInt (cf_XlogPatternedSamplingStep3RatePct c); fun c => SInt (cf_XlogPatternedSamplingOverRatePct c); fun c => SBool (cf_XlogPatterned2SamplingEnabled c); fun c => SText (cf_XlogPatterned2SamplingServicePatterns c); fun c => SBool (cf_XlogPatterned2SamplingOnlyProfile c); fun c => SInt (cf_XlogPatterned2SamplingStep1Ms c); fun c => SInt (cf_XlogPatterned2SamplingStep1RatePct c); fun c => SInt (cf_XlogPatterned2SamplingStep2Ms c); fun c => SInt (cf_XlogPatterned2SamplingStep2RatePct c); fun c => SInt (cf_XlogPatterned2SamplingStep3Ms c); fun c => SInt (cf_XlogPatterned2SamplingStep3RatePct c); fun c => SInt (cf_XlogPatterned2SamplingOverRatePct c); fun c => SBool (cf_XlogPatterned3SamplingEnabled c); fun c => SText (cf_XlogPatterned3SamplingServicePatterns c); fun c => SBool (cf_XlogPatterned3SamplingOnlyProfile c); fun c => SInt (cf_XlogPatterned3SamplingStep1Ms c); fun c => SInt (cf_XlogPatterned3SamplingStep1RatePct c); fun c => SInt (cf_XlogPatterned3SamplingStep2Ms c); fun c => SInt (cf_XlogPatterned3SamplingStep2RatePct c); fun c => SInt (cf_XlogPatterned3SamplingStep3Ms c); fun c => SInt (cf_XlogPatterned3SamplingStep3RatePct c); fun c => SInt (cf_XlogPatterned3SamplingOverRatePct c)].

(** what can be read of a setting while a refresh replaces [a] by [b]: one of the two, or, of two texts, the new one's bytes with the old one's length *)
Definition mixture (a b v : sval) : Prop := v = a \/ v = b \/ exists x y beyond, a = SText x /\ b = SText y /\ v = SText (firstn (length x) (y ++ beyond)).
