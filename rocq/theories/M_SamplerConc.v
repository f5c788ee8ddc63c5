(** Models the sampling decision of scouterx/strace/xlogsampler.go and findXLogDiscard made by a service's goroutine while
    conf.Refresh (scouterx/conf/configure.go) replaces the settings in another one. Nothing orders the two: the decision
    takes no lock, Refresh holds only the configuration's own lock against other refreshes. So the decision is a program
    that reads one variable at a time and the reload a list of writes of one variable at a time, interleaved at will.
    Simplification: one variable is read or written at once (a Go string or slice has several words, and the memory model
    promises nothing for racing accesses). *)
From Verif Require Import GoInt M_Util M_StrMatch M_Sampler.

(** the variables: the fields of conf.Configure, configure.go:76-122 *)
Inductive group := G0 | G1 | G2 | G3.
(** the three steps of xlogsampler.go:106-188 *)
Inductive step_no := N1 | N2 | N3.
(** the switches xlogsampler.go:73-196 reads *)
Inductive bset := Enabled (g : group) | OnlyProfile (g : group) | ShowError.
(** the numbers xlogsampler.go:106-188 reads *)
Inductive zset := Ms (g : group) (n : step_no) | Rate (g : group) (n : step_no) | OverRate (g : group).
(** the pattern texts xlogsampler.go:48-71 reads *)
Inductive sset := Exclude | Discard | Pat1 | Pat2 | Pat3.

(** configure.go:76-122 and xlogsampler.go:14-26 *)
Record store := mk_store { st_conf : sconf; st_sampler : sampler }.

(** the four groups of settings of xlogsampler.go:106-188 *)
Definition group_of (g : group) (c : sconf) : rates :=
  match g with G0 => sc_Sampling c | G1 => sc_Patterned c | G2 => sc_Patterned2 c | G3 => sc_Patterned3 c end.
(** a read of one switch in xlogsampler.go:73-196 *)
Definition get_b (f : bset) (c : sconf) : bool :=
  match f with
  | Enabled g => r_Enabled (group_of g c) | OnlyProfile g => r_OnlyProfile (group_of g c) | ShowError => sc_DiscardServiceShowError c
  end.
(** a read of one number in xlogsampler.go:106-188 *)
Definition get_z (f : zset) (c : sconf) : Z :=
  match f with
  | Ms g N1 => r_Step1Ms (group_of g c) | Ms g N2 => r_Step2Ms (group_of g c) | Ms g N3 => r_Step3Ms (group_of g c)
  | Rate g N1 => r_Step1RatePct (group_of g c) | Rate g N2 => r_Step2RatePct (group_of g c) | Rate g N3 => r_Step3RatePct (group_of g c)
  | OverRate g => r_OverRatePct (group_of g c)
  end.
(** a read of one pattern text in xlogsampler.go:48-71 *)
Definition get_s (f : sset) (c : sconf) : gostring :=
  match f with
  | Exclude => sc_ExcludePatterns c | Discard => sc_DiscardServicePatterns c
  | Pat1 => sc_PatternedServicePatterns c | Pat2 => sc_Patterned2ServicePatterns c | Pat3 => sc_Patterned3ServicePatterns c
  end.
(** a read of one matcher in xlogsampler.go:198-251 *)
Definition get_m (f : sset) (s : sampler) : list strmatch :=
  match f with Exclude => sp_exclude s | Discard => sp_discard s | Pat1 => sp_1 s | Pat2 => sp_2 s | Pat3 => sp_3 s end.

(** part of an assignment of configure.go:334-413 *)
Definition set_group (g : group) (r : rates) (c : sconf) : sconf :=
  let d := sc_DiscardServicePatterns c in let e := sc_DiscardServiceShowError c in let x := sc_ExcludePatterns c in
  let p1 := sc_PatternedServicePatterns c in let p2 := sc_Patterned2ServicePatterns c in let p3 := sc_Patterned3ServicePatterns c in
  match g with
  | G0 => mkSConf d e x r (sc_Patterned c) p1 (sc_Patterned2 c) p2 (sc_Patterned3 c) p3
  | G1 => mkSConf d e x (sc_Sampling c) r p1 (sc_Patterned2 c) p2 (sc_Patterned3 c) p3
  | G2 => mkSConf d e x (sc_Sampling c) (sc_Patterned c) p1 r p2 (sc_Patterned3 c) p3
  | G3 => mkSConf d e x (sc_Sampling c) (sc_Patterned c) p1 (sc_Patterned2 c) p2 r p3
  end.
(** the assignment of one switch: configure.go:334-413 *)
Definition set_b (f : bset) (b : bool) (c : sconf) : sconf :=
  let on g h := let r := group_of g c in set_group g (h r) c in
  match f with
  | Enabled g => on g (fun r => mkRates b (r_OnlyProfile r) (r_Step1Ms r) (r_Step1RatePct r) (r_Step2Ms r) (r_Step2RatePct r) (r_Step3Ms r) (r_Step3RatePct r) (r_OverRatePct r))
  | OnlyProfile g => on g (fun r => mkRates (r_Enabled r) b (r_Step1Ms r) (r_Step1RatePct r) (r_Step2Ms r) (r_Step2RatePct r) (r_Step3Ms r) (r_Step3RatePct r) (r_OverRatePct r))
  | ShowError => mkSConf (sc_DiscardServicePatterns c) b (sc_ExcludePatterns c) (sc_Sampling c) (sc_Patterned c) (sc_PatternedServicePatterns c)
                   (sc_Patterned2 c) (sc_Patterned2ServicePatterns c) (sc_Patterned3 c) (sc_Patterned3ServicePatterns c)
  end.
(** the assignment of one number: configure.go:334-413 *)
Definition set_z (f : zset) (z : Z) (c : sconf) : sconf :=
  let on g h := let r := group_of g c in set_group g (h r) c in
  match f with
  | Ms g N1 => on g (fun r => mkRates (r_Enabled r) (r_OnlyProfile r) z (r_Step1RatePct r) (r_Step2Ms r) (r_Step2RatePct r) (r_Step3Ms r) (r_Step3RatePct r) (r_OverRatePct r))
  | Rate g N1 => on g (fun r => mkRates (r_Enabled r) (r_OnlyProfile r) (r_Step1Ms r) z (r_Step2Ms r) (r_Step2RatePct r) (r_Step3Ms r) (r_Step3RatePct r) (r_OverRatePct r))
  | Ms g N2 => on g (fun r => mkRates (r_Enabled r) (r_OnlyProfile r) (r_Step1Ms r) (r_Step1RatePct r) z (r_Step2RatePct r) (r_Step3Ms r) (r_Step3RatePct r) (r_OverRatePct r))
  | Rate g N2 => on g (fun r => mkRates (r_Enabled r) (r_OnlyProfile r) (r_Step1Ms r) (r_Step1RatePct r) (r_Step2Ms r) z (r_Step3Ms r) (r_Step3RatePct r) (r_OverRatePct r))
  | Ms g N3 => on g (fun r => mkRates (r_Enabled r) (r_OnlyProfile r) (r_Step1Ms r) (r_Step1RatePct r) (r_Step2Ms r) (r_Step2RatePct r) z (r_Step3RatePct r) (r_OverRatePct r))
  | Rate g N3 => on g (fun r => mkRates (r_Enabled r) (r_OnlyProfile r) (r_Step1Ms r) (r_Step1RatePct r) (r_Step2Ms r) (r_Step2RatePct r) (r_Step3Ms r) z (r_OverRatePct r))
  | OverRate g => on g (fun r => mkRates (r_Enabled r) (r_OnlyProfile r) (r_Step1Ms r) (r_Step1RatePct r) (r_Step2Ms r) (r_Step2RatePct r) (r_Step3Ms r) (r_Step3RatePct r) z)
  end.
(** the assignment of one pattern text: configure.go:334-413 *)
Definition set_s (f : sset) (v : gostring) (c : sconf) : sconf :=
  let d := sc_DiscardServicePatterns c in let e := sc_DiscardServiceShowError c in let x := sc_ExcludePatterns c in
  let p1 := sc_PatternedServicePatterns c in let p2 := sc_Patterned2ServicePatterns c in let p3 := sc_Patterned3ServicePatterns c in
  let k d x p1 p2 p3 := mkSConf d e x (sc_Sampling c) (sc_Patterned c) p1 (sc_Patterned2 c) p2 (sc_Patterned3 c) p3 in
  match f with Discard => k v x p1 p2 p3 | Exclude => k d v p1 p2 p3 | Pat1 => k d x v p2 p3 | Pat2 => k d x p1 v p3 | Pat3 => k d x p1 p2 v end.

(** * The reload *)

(** a write: of a setting (configure.go:366-412), or, in the sampler's Run (xlogsampler.go:48-71), of one matcher. Run's
    comparison and its "current" copy are seen by no one else (Refresh is under the configuration's lock), so a matcher's
    [if] is one step. *)
Inductive waction := WB (f : bset) (b : bool) | WZ (f : zset) (z : Z) | WS (f : sset) (v : gostring) | WMatcher (f : sset).

(** xlogsampler.go:51-70, one of the five *)
Definition run_one (f : sset) (c : sconf) (s : sampler) : sampler :=
  match f with
  | Exclude => let (cur, m) := refresh (sp_curExclude s) (sc_ExcludePatterns c) (sp_exclude s) in
      mkSampler cur (sp_curDiscard s) (sp_cur1 s) (sp_cur2 s) (sp_cur3 s) m (sp_discard s) (sp_1 s) (sp_2 s) (sp_3 s)
  | Discard => let (cur, m) := refresh (sp_curDiscard s) (sc_DiscardServicePatterns c) (sp_discard s) in
      mkSampler (sp_curExclude s) cur (sp_cur1 s) (sp_cur2 s) (sp_cur3 s) (sp_exclude s) m (sp_1 s) (sp_2 s) (sp_3 s)
  | Pat1 => let (cur, m) := refresh (sp_cur1 s) (sc_PatternedServicePatterns c) (sp_1 s) in
      mkSampler (sp_curExclude s) (sp_curDiscard s) cur (sp_cur2 s) (sp_cur3 s) (sp_exclude s) (sp_discard s) m (sp_2 s) (sp_3 s)
  | Pat2 => let (cur, m) := refresh (sp_cur2 s) (sc_Patterned2ServicePatterns c) (sp_2 s) in
      mkSampler (sp_curExclude s) (sp_curDiscard s) (sp_cur1 s) cur (sp_cur3 s) (sp_exclude s) (sp_discard s) (sp_1 s) m (sp_3 s)
  | Pat3 => let (cur, m) := refresh (sp_cur3 s) (sc_Patterned3ServicePatterns c) (sp_3 s) in
      mkSampler (sp_curExclude s) (sp_curDiscard s) (sp_cur1 s) (sp_cur2 s) cur (sp_exclude s) (sp_discard s) (sp_1 s) (sp_2 s) m
  end.
(** one assignment: configure.go:334-413 (a setting) or xlogsampler.go:48-71 (a matcher) *)
Definition write (w : waction) (st : store) : store :=
  match w with
  | WB f b => mk_store (set_b f b (st_conf st)) (st_sampler st)
  | WZ f z => mk_store (set_z f z (st_conf st)) (st_sampler st)
  | WS f v => mk_store (set_s f v (st_conf st)) (st_sampler st)
  | WMatcher f => mk_store (st_conf st) (run_one f (st_conf st) (st_sampler st))
  end.
(** configure.go:373-379, 384-390, 395-401, 406-412 *)
Definition step_writes (g : group) (n : sconf) : list waction :=
  map (fun f => WZ f (get_z f n)) [Ms g N1; Rate g N1; Ms g N2; Rate g N2; Ms g N3; Rate g N3; OverRate g].
(** configure.go:381-390 and the copies 392-401, 403-412: one group with its patterns *)
Definition patterned_writes (g : group) (f : sset) (n : sconf) : list waction :=
  [WB (Enabled g) (get_b (Enabled g) n); WS f (get_s f n); WB (OnlyProfile g) (get_b (OnlyProfile g) n)] ++ step_writes g n.
(** configure.go:366-412, then confChangeNotify (configure.go:258, opserver.go:25-32) running xlogsampler.go:48-71; [n]: the new settings *)
Definition reload (n : sconf) : list waction :=
  [WS Discard (get_s Discard n); WB ShowError (get_b ShowError n); WS Exclude (get_s Exclude n);
   WB (Enabled G0) (get_b (Enabled G0) n); WB (OnlyProfile G0) (get_b (OnlyProfile G0) n)] ++ step_writes G0 n ++
  patterned_writes G1 Pat1 n ++ patterned_writes G2 Pat2 n ++ patterned_writes G3 Pat3 n ++
  [WMatcher Exclude; WMatcher Discard; WMatcher Pat1; WMatcher Pat2; WMatcher Pat3].

(** * The decision *)

(** xlogsampler.go:73-196, read by read *)
Inductive prog :=
| Decided (mode : Z)
| RdB (f : bset) (k : bool -> prog)
| RdZ (f : zset) (k : Z -> prog)
| RdS (f : sset) (k : gostring -> prog)
| RdM (f : sset) (k : list strmatch -> prog).

(** xlogsampler.go:198-251 *)
Definition pattern_p (f : sset) (name : gostring) (k : bool -> prog) : prog :=
  RdS f (fun s => match s with [] => k false | _ => RdM f (fun m => k (is_match m name)) end).
(** xlogsampler.go:106-188; [draw]: what rand.Intn(100) gives *)
Definition rate_p (g : group) (f : zset) (draw mode : Z) (k : Z -> prog) : prog :=
  RdZ f (fun p => if draw >=? p then RdB (OnlyProfile g) (fun o => k (refer_to_profile_mode o)) else k mode).
(** xlogsampler.go:106-188, read by read *)
Definition sampling_p (g : group) (draw elapsed mode : Z) (k : Z -> prog) : prog :=
  RdZ (Ms g N1) (fun a => if elapsed <? a then rate_p g (Rate g N1) draw mode k else
  RdZ (Ms g N2) (fun a => if elapsed <? a then rate_p g (Rate g N2) draw mode k else
  RdZ (Ms g N3) (fun a => if elapsed <? a then rate_p g (Rate g N3) draw mode k else
  rate_p g (OverRate g) draw mode k))).
(** xlogsampler.go:82-99: one "if !discarded && enabled { discarded = is..Pattern; if discarded {..} }" *)
Definition patterned_p (g : group) (f : sset) (draw elapsed : Z) (name : gostring) (discarded : bool) (mode : Z) (k : bool -> Z -> prog) : prog :=
  if discarded then k true mode else
  RdB (Enabled g) (fun e => if e then pattern_p f name (fun d => if d then sampling_p g draw elapsed mode (k true) else k false mode) else k false mode).
(** xlogsampler.go:73-104 *)
Definition evaluate_p (draw elapsed : Z) (name : gostring) (k : Z -> prog) : prog :=
  let rest :=
    patterned_p G1 Pat1 draw elapsed name false DISCARD_NONE (fun d m =>
    patterned_p G2 Pat2 draw elapsed name d m (fun d m =>
    patterned_p G3 Pat3 draw elapsed name d m (fun d m =>
    if d then k m else RdB (Enabled G0) (fun e => if e then sampling_p G0 draw elapsed m k else k m)))) in
  RdB (Enabled G0) (fun e => if e then pattern_p Exclude name (fun x => if x then k DISCARD_NONE else rest) else rest).
(** tracemain.go:400-415 *)
Definition decide_p (draw error elapsed : Z) (name : gostring) : prog :=
  let finish mode := pattern_p Discard name (fun d => Decided (if d then (if negb (error =? 0) then DISCARD_NONE else DISCARD_ALL_FORCE) else mode)) in
  if negb (error =? 0) then finish DISCARD_NONE else evaluate_p draw elapsed name finish.

(** * Together: [decides st ws p m]: from [st], with the writes [ws] coming (in this order, at any time), [p] can decide [m];
    writes may also be left for after the decision *)
(** xlogsampler.go:73-196 with configure.go:334-413 and xlogsampler.go:48-71 at the same time *)
Inductive decides : store -> list waction -> prog -> Z -> Prop :=
| d_done st ws m : decides st ws (Decided m) m
| d_write st w ws p m : decides (write w st) ws p m -> decides st (w :: ws) p m
| d_bool st ws f k m : decides st ws (k (get_b f (st_conf st))) m -> decides st ws (RdB f k) m
| d_int st ws f k m : decides st ws (k (get_z f (st_conf st))) m -> decides st ws (RdZ f k) m
| d_str st ws f k m : decides st ws (k (get_s f (st_conf st))) m -> decides st ws (RdS f k) m
| d_matcher st ws f k m : decides st ws (k (get_m f (st_sampler st))) m -> decides st ws (RdM f k) m.
