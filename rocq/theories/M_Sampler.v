(** Models scouterx/strace/xlogsampler.go and findXLogDiscard of scouterx/strace/tracemain.go. *)
From Verif Require Import GoInt M_Util M_StrMatch.

(** xlogpack.go:16-20 *)
Definition DISCARD_NONE : Z := 1.
(** xlogpack.go:17 *)
Definition DISCARD_ALL : Z := 2.
(** xlogpack.go:18 *)
Definition DISCARD_PROFILE : Z := 3.
(** xlogpack.go:19 *)
Definition DISCARD_ALL_FORCE : Z := 4.
(** xlogpack.go:20 *)
Definition DISCARD_PROFILE_FORCE : Z := 5.

(** one group of sampling settings, configure.go:81-89, 91-100, 102-111, 113-122 *)
Record rates := mkRates { r_Enabled : bool; r_OnlyProfile : bool;
  r_Step1Ms : Z; r_Step1RatePct : Z; r_Step2Ms : Z; r_Step2RatePct : Z; r_Step3Ms : Z; r_Step3RatePct : Z; r_OverRatePct : Z }.

(** the settings the sampler depends on, configure.go:76-122 *)
Record sconf := mkSConf {
  sc_DiscardServicePatterns : gostring; sc_DiscardServiceShowError : bool;
  sc_ExcludePatterns : gostring;
  sc_Sampling : rates;
  sc_Patterned : rates; sc_PatternedServicePatterns : gostring;
  sc_Patterned2 : rates; sc_Patterned2ServicePatterns : gostring;
  sc_Patterned3 : rates; sc_Patterned3ServicePatterns : gostring }.

(** xlogsampler.go:14-26 *)
Record sampler := mkSampler {
  sp_curExclude : gostring; sp_curDiscard : gostring; sp_cur1 : gostring; sp_cur2 : gostring; sp_cur3 : gostring;
  sp_exclude : list strmatch; sp_discard : list strmatch; sp_1 : list strmatch; sp_2 : list strmatch; sp_3 : list strmatch }.

(** xlogsampler.go:28-46, when first called (registering the observer is left out: the model calls
    [sampler_run] for every configuration change) *)
Definition new_sampler (c : sconf) : sampler :=
  mkSampler (sc_ExcludePatterns c) (sc_DiscardServicePatterns c) (sc_PatternedServicePatterns c)
            (sc_Patterned2ServicePatterns c) (sc_Patterned3ServicePatterns c)
            (comma_matcher (sc_ExcludePatterns c)) (comma_matcher (sc_DiscardServicePatterns c))
            (comma_matcher (sc_PatternedServicePatterns c)) (comma_matcher (sc_Patterned2ServicePatterns c))
            (comma_matcher (sc_Patterned3ServicePatterns c)).

(** xlogsampler.go:51-54 and its four copies *)
Definition refresh (cur new : gostring) (m : list strmatch) : gostring * list strmatch :=
  if beqb cur new then (cur, m) else (new, comma_matcher new).

(** xlogsampler.go:48-71 Run, called after the configuration was reloaded *)
Definition sampler_run (c : sconf) (s : sampler) : sampler :=
  let (ce, me) := refresh (sp_curExclude s) (sc_ExcludePatterns c) (sp_exclude s) in
  let (cd, md) := refresh (sp_curDiscard s) (sc_DiscardServicePatterns c) (sp_discard s) in
  let (c1, m1) := refresh (sp_cur1 s) (sc_PatternedServicePatterns c) (sp_1 s) in
  let (c2, m2) := refresh (sp_cur2 s) (sc_Patterned2ServicePatterns c) (sp_2 s) in
  let (c3, m3) := refresh (sp_cur3 s) (sc_Patterned3ServicePatterns c) (sp_3 s) in
  mkSampler ce cd c1 c2 c3 me md m1 m2 m3.

(** xlogsampler.go:190-196 *)
Definition refer_to_profile_mode (onlyProfile : bool) : Z := if onlyProfile then DISCARD_PROFILE else DISCARD_ALL.

(** xlogsampler.go:106-125, and samplingPatterned1 .. 3, 127-188, which are copies of it over their own settings.
    [draw] is the result of rand.Intn(100); every path draws exactly once. *)
Definition sampling4elapsed (r : rates) (draw elapsed mode : Z) : Z :=
  if elapsed <? r_Step1Ms r then (if draw >=? r_Step1RatePct r then refer_to_profile_mode (r_OnlyProfile r) else mode)
  else if elapsed <? r_Step2Ms r then (if draw >=? r_Step2RatePct r then refer_to_profile_mode (r_OnlyProfile r) else mode)
  else if elapsed <? r_Step3Ms r then (if draw >=? r_Step3RatePct r then refer_to_profile_mode (r_OnlyProfile r) else mode)
  else if draw >=? r_OverRatePct r then refer_to_profile_mode (r_OnlyProfile r) else mode.

(** xlogsampler.go:198-251 isExcludeSamplingServicePattern, isDiscardServicePattern, isSampling..ServicePattern *)
Definition is_pattern (configured : gostring) (m : list strmatch) (name : gostring) : bool :=
  match configured with [] => false | _ => is_match m name end.

(** xlogsampler.go:73-104 eEvaluateXLogDiscard *)
Definition evaluate (c : sconf) (s : sampler) (draw elapsed : Z) (name : gostring) : Z :=
  if r_Enabled (sc_Sampling c) && is_pattern (sc_ExcludePatterns c) (sp_exclude s) name then DISCARD_NONE
  else
    let mode := DISCARD_NONE in
    let discarded := r_Enabled (sc_Patterned c) && is_pattern (sc_PatternedServicePatterns c) (sp_1 s) name in
    let mode := if discarded then sampling4elapsed (sc_Patterned c) draw elapsed mode else mode in
    let hit2 := negb discarded && r_Enabled (sc_Patterned2 c) && is_pattern (sc_Patterned2ServicePatterns c) (sp_2 s) name in
    let mode := if hit2 then sampling4elapsed (sc_Patterned2 c) draw elapsed mode else mode in
    let discarded := discarded || hit2 in
    let hit3 := negb discarded && r_Enabled (sc_Patterned3 c) && is_pattern (sc_Patterned3ServicePatterns c) (sp_3 s) name in
    let mode := if hit3 then sampling4elapsed (sc_Patterned3 c) draw elapsed mode else mode in
    let discarded := discarded || hit3 in
    if negb discarded && r_Enabled (sc_Sampling c) then sampling4elapsed (sc_Sampling c) draw elapsed mode else mode.

(** tracemain.go:400-415 findXLogDiscard *)
Definition find_xlog_discard (c : sconf) (s : sampler) (draw error elapsed : Z) (name : gostring) : Z :=
  let mode := if negb (error =? 0) then DISCARD_NONE else evaluate c s draw elapsed name in
  if is_pattern (sc_DiscardServicePatterns c) (sp_discard s) name then
    if negb (error =? 0) then DISCARD_NONE else DISCARD_ALL_FORCE
  else mode.
