(** The tale of a service: how it was begun and the calls made on its own context since, oldest first - and nothing of what other services
    did. Contexts are left out of the calls (they are numbers that depend on the other services), and of what a call finds outside only the
    time, the key drawn for it, the goroutine and the configuration are kept: neither the room in the send queue, nor the sampler's draws,
    nor the order in which tables are visited. *)
From Verif Require Import GoInt M_Packs M_Cache M_Text M_Trace.

(** the same call without its context *)
Definition unaddressed (k : call) : call :=
  match k with
  | KStartService _ a b => KStartService CNil a b | KStartHttp _ r => KStartHttp CNil r | KInherit _ _ => KInherit CNil O | KGo _ a => KGo CNil a
  | KGoBegin _ => KGoBegin CNil | KGoEnd _ => KGoEnd CNil | KEndService _ => KEndService CNil | KEndHttp _ s => KEndHttp CNil s
  | KIsStream _ => KIsStream CNil | KSetAsStream _ => KSetAsStream CNil | KMarkError _ m => KMarkError CNil m
  | KMarkErrorForcibly _ m => KMarkErrorForcibly CNil m | KSetServiceName _ m => KSetServiceName CNil m | KAddStep _ s => KAddStep CNil s
  | KAddMessage _ m => KAddMessage CNil m | KAddHashed _ m v e => KAddHashed CNil m v e | KAddPMessage _ l m e p => KAddPMessage CNil l m e p
  | KStartMethod _ f p => KStartMethod CNil f p | KStartCustom _ f p => KStartCustom CNil f p | KEndMethod _ p => KEndMethod CNil p
  | KStartApi _ a b => KStartApi CNil a b | KStartApiProp _ q a b => KStartApiProp CNil q a b | KEndApi _ p e => KEndApi CNil p e
  | KUser _ u a b c d e f g => KUser CNil u a b c d e f g
  | KActiveCount => KActiveCount | KResetText => KResetText | KConf => KConf
  end.
Definition seen_by (n : env) : env := mkN (n_conf n) (n_now n) (fun _ _ => true) 0 (n_key n) (n_goid n) [].

Inductive tale := Began (n : env) (k : call) (parent : option tale) | Then (t : tale) (n : env) (k : call).
Definition began (n : env) (k : call) (parent : option tale) : tale := Began (seen_by n) (unaddressed k) parent.
Definition and_then (t : tale) (n : env) (k : call) : tale := Then t (seen_by n) (unaddressed k).

(** the service a call is made on *)
Definition made_on (k : call) : option nat :=
  match k with
  | KStartService c _ _ | KStartHttp c _ | KInherit c _ | KGo c _ | KGoBegin c | KGoEnd c | KEndService c | KEndHttp c _
  | KIsStream c | KSetAsStream c | KMarkError c _ | KMarkErrorForcibly c _ | KSetServiceName c _ | KAddStep c _ | KAddMessage c _
  | KAddHashed c _ _ _ | KAddPMessage c _ _ _ _ | KStartMethod c _ _ | KStartCustom c _ _ | KEndMethod c _ | KStartApi c _ _
  | KStartApiProp c _ _ _ | KEndApi c _ _ | KUser c _ _ _ _ _ _ _ _ => match c with CTrace h => Some h | _ => None end
  | KActiveCount | KResetText | KConf => None
  end.
(** the service a call begins, [on] being the tale of the service it is made on: StartService and StartHttpService on a context without
    trace, StartNewInheritanceService, GoWithTrace on a context with a trace *)
Definition begins (n : env) (k : call) (on : option tale) (ts : list tale) : list tale :=
  match k with
  | KStartService _ _ _ => match on with None => [began n k None] | Some _ => [] end
  | KStartHttp c (Some _) => match c, on with CNil, _ => [] | _, None => [began n k None] | _, Some _ => [] end
  | KInherit _ p => match nth_error ts p with Some t => [began n k (Some t)] | None => [] end
  | KGo _ _ => match on with Some t => [began n k (Some t)] | None => [] end
  | _ => []
  end.
Definition goes_on (ts : list tale) (h : nat) (n : env) (k : call) : list tale :=
  match nth_error ts h with Some t => firstn h ts ++ and_then t n k :: skipn (S h) ts | None => ts end.
(** the tales of all services, in the order in which the services were begun; a count of the active services that may end services belongs to
    the tale of each of them *)
Definition tell (ts : list tale) (nk : env * call) : list tale :=
  let '(n, k) := nk in
  match k with
  | KActiveCount => if cf_stuck_remove (n_conf n) then map (fun t => and_then t n k) ts else ts
  | _ => match made_on k with
         | Some h => goes_on ts h n k ++ begins n k (nth_error ts h) ts
         | None => ts ++ begins n k None ts
         end
  end.
Definition tales (ops : list (env * call)) : list tale := fold_left tell ops [].

(** ** What the collector is told about service [h] *)
Definition samples_of (h : nat) (log : list aevent) : list (Z * bool) :=
  flat_map (fun e => match e with EvMeter g el er => if Nat.eqb g h then [(el, er)] else [] | _ => [] end) log.
(** an xlog without the numbers of steps and bytes of the profile sent so far and the sampler's decision *)
Definition bare (p : xlog_pack) : xlog_pack :=
  mk_xlog_pack (xl_EndTime p) (xl_ObjHash p) (xl_Service p) (xl_Txid p) (xl_Caller p) (xl_Gxid p) (xl_Elapsed p) (xl_Error p) (xl_Cpu p)
    (xl_SqlCount p) (xl_SqlTime p) (xl_Ipaddr p) (xl_Kbytes p) (xl_Status p) (xl_Userid p) (xl_UserAgent p) (xl_Referer p) (xl_Group p)
    (xl_ApicallCount p) (xl_ApicallTime p) (xl_CountryCode p) (xl_City p) (xl_XType p) (xl_Login p) (xl_Desc p) (xl_WebHash p) (xl_WebTime p)
    (xl_HasDump p) (xl_ThreadNameHash p) (xl_Text1 p) (xl_Text2 p) (xl_QueuingHostHash p) (xl_QueuingTime p) (xl_Queuing2ndHostHash p)
    (xl_Queuing2ndTime p) (xl_Text3 p) (xl_Text4 p) (xl_Text5 p) 0 (xl_B3Mode p) 0 0 (xl_IgnoreGCS p).
(** the result of a call without the contexts in it *)
Definition neutral (r : res) : res := match r with RCtx _ => RCtx CNil | RRun _ => RRun None | _ => r end.
