(** What the tracing API promises to record, as a ledger: one account per service, changed by each call the way the
    documentation of the call says. There are no text caches, no table of active services, no sampler, no memory limits and
    no panics here; the agent is compared with the ledger in P_Ledger.v. *)
From Verif Require Import GoInt M_Util M_Hash M_StrMatch M_Packs M_Steps M_Profile M_Sampler M_Trace S_Profile S_Steps.

(** numbers and texts that are kept for a service; NGoid: the goroutine that started it; TMethod: the function that called StartMethod last,
    or the name given to StartCustomMethod *)
Inductive num := NTxid | NGxid | NCaller | NXtype | NStart | NError | NStatus | NUserid | NUserAgent | NReferer | NApiCount | NApiTime | NGoid.
Inductive txt := TName | TIp | TLogin | TDesc | TText1 | TText2 | TText3 | TText4 | TText5 | TMethod.
(** [over]: the service was ended. [did]: what was done to its profile, oldest first: a step was added, a method or API call
    was started, the step started as number [a] was ended (S_Profile.v) *)
Record account := mkAcc { num_of : num -> Z; txt_of : txt -> gostring; stream : bool; over : bool; did : list prof_op }.

Definition num_eqb (f g : num) : bool :=
  match f, g with
  | NTxid, NTxid | NGxid, NGxid | NCaller, NCaller | NXtype, NXtype | NStart, NStart | NError, NError | NStatus, NStatus
  | NUserid, NUserid | NUserAgent, NUserAgent | NReferer, NReferer | NApiCount, NApiCount | NApiTime, NApiTime | NGoid, NGoid => true
  | _, _ => false
  end.
Definition txt_eqb (f g : txt) : bool :=
  match f, g with
  | TName, TName | TIp, TIp | TLogin, TLogin | TDesc, TDesc | TText1, TText1 | TText2, TText2 | TText3, TText3 | TText4, TText4
  | TText5, TText5 | TMethod, TMethod => true
  | _, _ => false
  end.
Definition put_num (f : num) (v : Z) (c : account) : account :=
  mkAcc (fun g => if num_eqb f g then v else num_of c g) (txt_of c) (stream c) (over c) (did c).
Definition put_txt (f : txt) (v : gostring) (c : account) : account :=
  mkAcc (num_of c) (fun g => if txt_eqb f g then v else txt_of c g) (stream c) (over c) (did c).
Definition put_did (o : prof_op) (c : account) : account := mkAcc (num_of c) (txt_of c) (stream c) (over c) (did c ++ [o]).
Definition add_step_to (st : step) : account -> account := put_did (OAdd st).
Definition finish (c : account) : account := mkAcc (num_of c) (txt_of c) (stream c) true (did c).
Definition as_stream (c : account) : account := mkAcc (num_of c) (txt_of c) true (over c) (did c).

(** the number that stands for a text in packs and steps (the collector learns the text separately): 0 for the empty text, else its
    CRC-32 (C16) *)
Definition text_id (s : gostring) : Z := match s with [] => 0 | _ => match hash_string s with Some z => z | None => 0 end end.
(** the nanoseconds between two times; a Go Duration stays within 64 bits *)
Definition span (from to : Z) : Z :=
  let d := to - from in
  if d <? -9223372036854775808 then -9223372036854775808 else if d >? 9223372036854775807 then 9223372036854775807 else d.
(** the level of a message that marks an error, and the kind of a service that is a web request, in Scouter's protocol *)
Definition error_level : Z := 3.
Definition web_request : Z := 0.
(** milliseconds since the service started (C20) *)
Definition ms (n : env) (c : account) : Z := int32 (Z.quot (span (num_of c NStart) (n_now n)) 1000000).
Definition at_ms (t : Z) : single := mk_single 0 0 t.
(** an address without port *)
Fixpoint host_of (addr : gostring) : gostring :=
  match addr with [] => [] | b :: r => if b =? 58 then [] else b :: host_of r end.
Definition error_unless_set (e : Z) (c : account) : account := if num_of c NError =? 0 then put_num NError e c else c.

(** the steps of a service by start number, with their present contents (without places in the profile) *)
Definition steps_of (ops : list prof_op) : list step :=
  fold_left (fun l o => match o with OPush st | OAdd st => l ++ [strip st] | OPop a st => heap_set l a (strip st) end) ops [].
Definition step_of (c : account) (a : nat) : option step := nth_error (steps_of (did c)) a.
Definition next_step (c : account) : nat := length (steps_of (did c)).

(* ------------------------------------------------------------------ *)
(** * Starting *)

Definition opened (n : env) (name addr : gostring) (xtype : Z) : account :=
  mkAcc (fun f => match f with NTxid | NGxid => n_key n | NXtype => xtype | NStart => n_now n | NGoid => n_goid n | _ => 0 end)
        (fun f => match f with TName => name | TIp => host_of addr | _ => [] end)
        false false [OAdd (SMessage (at_ms 0) (of_string "goroutine:" ++ format_int 10 (n_goid n)))].

(** the header and query messages of an HTTP service *)
Fixpoint comma_list (values : list gostring) : gostring :=
  match values with [] => [] | [v] => v | v :: more => v ++ of_string "," ++ comma_list more end.
Definition header_text (key : gostring) (values : list gostring) : gostring :=
  of_string "header: " ++ key ++ of_string ": " ++ comma_list values.
Definition http_texts (n : env) (r : request) : list gostring :=
  (if cf_header (n_conf n) then
     match cf_header_keys (n_conf n) with
     | [] => map (fun kv => header_text (fst kv) (snd kv)) (rq_headers r)
     | keys => flat_map (fun k => match rq_values r k with [] => [] | vs => [header_text k vs] end) (split_byte 44 keys)
     end
   else []) ++
  (if cf_query (n_conf n) then [of_string "query: " ++ rq_query r] else []).
Definition opened_http (n : env) (r : request) : account :=
  let c := opened n (rq_path r ++ of_string "<" ++ rq_method r ++ of_string ">")
                  (match rq_ip_header r with [] => rq_remote r | ip => ip end) web_request in
  let c := put_num NUserAgent (text_id (rq_ua r)) (put_num NReferer (text_id (rq_referer r)) c) in
  fold_left (fun c s => add_step_to (SMessage (at_ms (ms n c)) s) c) (http_texts n r) c.

(** a service that continues the service of account [p] *)
Definition opened_inherited (n : env) (p : account) : account :=
  let c := opened n (txt_of p TName) (txt_of p TIp) (num_of p NXtype) in
  mkAcc (fun f => match f with
                  | NTxid => n_key n | NStart => n_now n | NGoid => n_goid n
                  | NCaller => num_of p NTxid | NStatus => 0
                  | _ => num_of p f end)
        (fun f => match f with TIp => host_of (txt_of p TIp) | TMethod => [] | _ => txt_of p f end)
        (stream p) false (did c ++ [OAdd (SMessage (at_ms 0) (of_string "scouter inheritance step"))]).

(** GoWithTrace: parent (which must have a global id) and child *)
Definition with_gxid (p : account) : account := if num_of p NGxid =? 0 then put_num NGxid (num_of p NTxid) p else p.
Definition opened_child (n : env) (name : gostring) (p : account) : account :=
  put_num NGxid (num_of (with_gxid p) NGxid) (put_num NCaller (num_of p NTxid) (opened n name (txt_of p TIp) XTYPE_BACK_THREAD2)).
Definition spawned_from (n : env) (name : gostring) (p : account) : account :=
  add_step_to (SAsync (at_ms (ms n p)) (n_key n) (text_id name) 0) (with_gxid p).

(* ------------------------------------------------------------------ *)
(** * Calls on a traced context *)

(** what a call returns and how it changes the account; the account as it was when the service ended with this call *)
Record outcome := mkEff { gives : res; becomes : account; reported : option account }.
Definition quiet (c : account) : outcome := mkEff RUnit c None.
Definition ends_now (c : account) : outcome := if over c then quiet c else mkEff RUnit (finish c) (Some c).

Definition add_params_to (n : env) (params : list (option gostring)) (c : account) : account :=
  fold_left (fun c p => match p with Some s => add_step_to (SMessage (at_ms (ms n c)) (of_string "param: " ++ s)) c | None => c end) params c.
Definition method_started (n : env) (func name : gostring) (params : list (option gostring)) (c : account) : outcome :=
  let c := put_txt TMethod func (add_params_to n params c) in
  mkEff (RStep (Some (next_step c))) (put_did (OPush (SMethod (at_ms (ms n c)) (text_id name) 0 0)) c) None.
Definition api_step (n : env) (name addr : gostring) (c : account) : step :=
  SApiCall (at_ms (ms n c)) (n_key n) (text_id name) 0 0 0 (match addr with [] => 0 | _ => 1 end) addr.

(** the part of a function's name behind its last slash, with parentheses *)
Fixpoint behind_slashes (f : gostring) : gostring :=
  match f with [] => [] | b :: r => if existsb (Z.eqb 47) f then behind_slashes r else f end.
Definition called (f : gostring) : gostring := behind_slashes f ++ of_string "()".
(** the parameters of a message, each ended by ETX *)
Definition etx_list (ps : list gostring) : gostring := flat_map (fun p => p ++ [3]) ps.

Definition on_account (n : env) (k : call) (c : account) : outcome :=
  match k with
  | KGoBegin _ => quiet (put_num NStart (n_now n) c)
  | KEndService _ | KGoEnd _ | KEndHttp _ None => ends_now c
  | KEndHttp _ (Some s) => if over c then quiet c else ends_now (put_num NStatus (int32 s) c)
  | KIsStream _ => mkEff (RBool (stream c)) c None
  | KSetAsStream _ => mkEff (RBool true) (as_stream c) None
  | KMarkError _ m => quiet (add_step_to (SPMessage (at_ms (ms n c)) (text_id m) 0 error_level []) (error_unless_set (text_id m) c))
  | KMarkErrorForcibly _ m => quiet (put_num NError (text_id m) c)
  | KSetServiceName _ m => quiet (put_txt TName m c)
  | KAddStep _ (Some st) => quiet (add_step_to st c)
  | KAddMessage _ m => quiet (add_step_to (SMessage (at_ms (ms n c)) m) c)
  | KAddHashed _ m v e => quiet (add_step_to (SHashed (at_ms (ms n c)) (text_id m) e v) c)
  | KAddPMessage _ lv m e ps => quiet (add_step_to (SPMessage (at_ms (ms n c)) (text_id m) e lv (etx_list ps)) c)
  | KStartMethod _ f ps => method_started n f (called f) ps c
  | KStartCustom _ f ps => method_started n f f ps c
  | KEndMethod _ (Some a) =>
      match step_of c a with
      | Some (SMethod s hs _ cpu) => quiet (put_did (OPop a (SMethod s hs (int32 (ms n c - ss_StartTime s)) cpu)) c)
      | _ => quiet c
      end
  | KStartApi _ m ad => mkEff (RStep (Some (next_step c))) (put_did (OPush (api_step n m ad c)) c) None
  | KStartApiProp _ req m ad =>
      let c' := with_gxid (put_did (OPush (api_step n m ad c)) c) in
      mkEff (RApi (Some (next_step c))
               (if req then [int_to_xlog_string32 (num_of c' NGxid); int_to_xlog_string32 (num_of c NTxid);
                             int_to_xlog_string32 (n_key n); format_int 10 (cf_obj (n_conf n))] else []))
            c' None
  | KEndApi _ (Some a) err =>
      match step_of c a with
      | Some (SApiCall s txid hs _ cpu er opt addr) =>
          let el := int32 (ms n c - ss_StartTime s) in
          let c1 := put_num NApiTime (int32 (num_of c NApiTime + el)) (put_num NApiCount (int32 (num_of c NApiCount + 1)) c) in
          let c2 := match err with Some m => error_unless_set (text_id m) c1 | None => c1 end in
          let er' := match err with Some m => text_id m | None => er end in
          quiet (put_did (OPop a (SApiCall s txid hs el cpu er' opt addr)) c2)
      | _ => quiet c
      end
  | KUser _ u lg ds t1 t2 t3 t4 t5 =>
      quiet (put_num NUserid u (put_txt TLogin lg (put_txt TDesc ds (put_txt TText1 t1 (put_txt TText2 t2 (put_txt TText3 t3
             (put_txt TText4 t4 (put_txt TText5 t5 c))))))))
  | _ => quiet c
  end.

(** what a call on a context without trace gives *)
Definition untraced (k : call) : res :=
  match k with
  | KIsStream _ | KSetAsStream _ => RBool false
  | KStartMethod _ _ _ | KStartCustom _ _ _ | KStartApi _ _ _ => RStep None
  | KStartApiProp _ _ _ _ => RApi None []
  | _ => RUnit
  end.

(* ------------------------------------------------------------------ *)
(** * The ledger *)

Definition ledger := list account.
(** the end of service [h] with account [r_acc] in environment [r_env] *)
Record report := mkRep { r_service : nat; r_acc : account; r_env : env }.

Definition account_of (l : ledger) (c : ctx) : option (nat * account) :=
  match c with CTrace h => option_map (fun x => (h, x)) (nth_error l h) | _ => None end.
Definition ctx_arg (k : call) : ctx :=
  match k with
  | KStartService c _ _ | KStartHttp c _ | KInherit c _ | KGo c _ | KGoBegin c | KGoEnd c | KEndService c | KEndHttp c _
  | KIsStream c | KSetAsStream c | KMarkError c _ | KMarkErrorForcibly c _ | KSetServiceName c _ | KAddStep c _ | KAddMessage c _
  | KAddHashed c _ _ _ | KAddPMessage c _ _ _ _ | KStartMethod c _ _ | KStartCustom c _ _ | KEndMethod c _ | KStartApi c _ _
  | KStartApiProp c _ _ _ | KEndApi c _ _ | KUser c _ _ _ _ _ _ _ _ => c
  | KActiveCount | KResetText | KConf => CNil
  end.

(** every call but GetActiveCount: the new ledger, the result, what was reported *)
Definition ledger_call (n : env) (k : call) (l : ledger) : ledger * res * list report :=
  match k with
  | KStartService c name ip =>
      match account_of l c with
      | Some (h, _) => (l, RCtx (CTrace h), [])
      | None => (l ++ [opened n name ip XTYPE_APP], RCtx (CTrace (length l)), [])
      end
  | KStartHttp c req =>
      match c, account_of l c, req with
      | CNil, _, _ => (l, RCtx CPlain, [])
      | _, Some (h, _), _ => (l, RCtx (CTrace h), [])
      | _, None, Some r => (l ++ [opened_http n r], RCtx (CTrace (length l)), [])
      | _, None, None => (l, RCtx CNil, [])
      end
  | KInherit _ p =>
      match nth_error l p with
      | Some acc => (l ++ [opened_inherited n acc], RCtx (CTrace (length l)), [])
      | None => (l, RCtx CNil, [])
      end
  | KGo c name =>
      match account_of l c with
      | Some (p, acc) => (list_set l p (spawned_from n name acc) ++ [opened_child n name acc], RRun (Some (CTrace (length l))), [])
      | None => (l, RRun (Some c), [])
      end
  | _ =>
      match account_of l (ctx_arg k) with
      | Some (h, acc) =>
          let e := on_account n k acc in
          (list_set l h (becomes e), gives e, match reported e with Some acc' => [mkRep h acc' n] | None => [] end)
      | None => (l, untraced k, [])
      end
  end.

(** GetActiveCount ends services that run for too long, if configured so *)
Definition marked_stuck (n : env) (c : account) : account :=
  error_unless_set (text_id (of_string "This stuck service currently may running, not finished!"))
    (add_step_to (SPMessage (at_ms (ms n c)) (text_id (of_string "Service currently may running, not finished!")) 0 error_level []) c).
Definition is_stuck (n : env) (c : account) : Prop :=
  cf_stuck_remove (n_conf n) = true /\ cf_stuck_ms (n_conf n) < Z.quot (span (num_of c NStart) (n_now n)) 1000000.
Inductive removals (n : env) : ledger -> ledger -> list report -> Prop :=
| no_removal l : removals n l l []
| one_removal l h c l' rs : nth_error l h = Some c -> is_stuck n c ->
    removals n (list_set l h (becomes (ends_now (marked_stuck n c)))) l' rs ->
    removals n l l' (match reported (ends_now (marked_stuck n c)) with Some c' => [mkRep h c' n] | None => [] end ++ rs).

Definition ledger_step (n : env) (k : call) (l : ledger) (r : res) (l' : ledger) (rs : list report) : Prop :=
  match k with
  | KActiveCount => removals n l l' rs
  | _ => ledger_call n k l = (l', r, rs)
  end.
(** a history: the calls with their results *)
Inductive ledger_run : ledger -> list (env * call) -> list res -> ledger -> list report -> Prop :=
| hist_nil l : ledger_run l [] [] l []
| hist_cons l n k ops r res l1 rs1 l2 rs2 : ledger_step n k l r l1 rs1 -> ledger_run l1 ops res l2 rs2 ->
    ledger_run l ((n, k) :: ops) (r :: res) l2 (rs1 ++ rs2).

(* ------------------------------------------------------------------ *)
(** * What is sent *)

(** the xlog of an account; fields the agent has no use for are 0 or empty. The values of the counters of profile steps and bytes are left
    open (C40), and so is the decision whether to send (C46) *)
Definition describes (n : env) (c : account) (p : xlog_pack) : Prop :=
  xl_Service p = text_id (txt_of c TName) /\ xl_Txid p = num_of c NTxid /\ xl_Caller p = num_of c NCaller /\ xl_Gxid p = num_of c NGxid /\
  xl_Elapsed p = ms n c /\ xl_Error p = num_of c NError /\ xl_Ipaddr p = ip_to_bytes (txt_of c TIp) /\ xl_Status p = num_of c NStatus /\
  xl_Userid p = num_of c NUserid /\ xl_UserAgent p = num_of c NUserAgent /\ xl_Referer p = num_of c NReferer /\
  xl_ApicallCount p = num_of c NApiCount /\ xl_ApicallTime p = num_of c NApiTime /\ xl_XType p = num_of c NXtype /\
  xl_Login p = text_id (txt_of c TLogin) /\ xl_Desc p = text_id (txt_of c TDesc) /\
  xl_Text1 p = txt_of c TText1 /\ xl_Text2 p = txt_of c TText2 /\ xl_Text3 p = txt_of c TText3 /\ xl_Text4 p = txt_of c TText4 /\
  xl_Text5 p = txt_of c TText5 /\ xl_ObjHash p = cf_obj (n_conf n) /\ xl_SqlCount p = 0 /\ xl_SqlTime p = 0 /\ xl_HasDump p = 0 /\
  xl_ThreadNameHash p = text_id (format_int 10 (num_of c NGxid)) /\
  xl_EndTime p = 0 /\ xl_Cpu p = 0 /\ xl_Kbytes p = 0 /\ xl_Group p = 0 /\ xl_CountryCode p = [] /\ xl_City p = 0 /\ xl_WebHash p = 0 /\ xl_WebTime p = 0 /\
  xl_QueuingHostHash p = 0 /\ xl_QueuingTime p = 0 /\ xl_Queuing2ndHostHash p = 0 /\ xl_Queuing2ndTime p = 0 /\ xl_B3Mode p = false /\ xl_IgnoreGCS p = false /\
  in_int32 (xl_ProfileCount p) /\ in_int32 (xl_ProfileSize p) /\ 1 <= xl_DiscardType p <= 5.

(** the samples and xlogs in the log are those of the reports, in their order: a sample each, and at most one xlog, right behind it *)
Inductive tells : list report -> list aevent -> Prop :=
| tells_nil : tells [] []
| tells_alert rs lv t log : tells rs log -> tells rs (EvAlert lv t :: log)
| tells_sample h c n rs log : tells rs log -> tells (mkRep h c n :: rs) (EvMeter h (ms n c) (negb (num_of c NError =? 0)) :: log)
| tells_xlog h c n rs p log : describes n c p -> tells rs log ->
    tells (mkRep h c n :: rs) (EvMeter h (ms n c) (negb (num_of c NError =? 0)) :: EvXlog h p :: log).

(* ------------------------------------------------------------------ *)
(** * Profiles *)

(** the steps finished by profile operations, in the order in which they finish, with the contents they have then *)
Definition finished_steps (ops : list prof_op) : list step :=
  flat_map (fun o => match o with OPush _ => [] | OPop _ st => [st] | OAdd st => [st] end) ops.
(** their numbers in start order; [k]: number of the next step *)
Fixpoint finish_numbers (k : nat) (ops : list prof_op) : list nat :=
  match ops with
  | [] => []
  | OPush _ :: r => finish_numbers (S k) r
  | OAdd _ :: r => k :: finish_numbers (S k) r
  | OPop a _ :: r => a :: finish_numbers k r
  end.
(** a step that was started is ended at most once; [k]: number of the next step, [open]: those started and not ended *)
Fixpoint ended_once (k : nat) (open : list nat) (ops : list prof_op) : Prop :=
  match ops with
  | [] => True
  | OPush _ :: r => ended_once (S k) (k :: open) r
  | OAdd _ :: r => ended_once (S k) open r
  | OPop a _ :: r => In a open /\ ended_once k (remove Nat.eq_dec a open) r
  end.
(** the step that an operation puts into the profile *)
Definition op_step (o : prof_op) : step := match o with OPush st | OPop _ st | OAdd st => st end.

(** [st'] is [st] after it was ended: the same start, name, and for an API call the same callee id and address *)
Definition same_call (st st' : step) : Prop :=
  match st, st' with
  | SMethod s hs _ _, SMethod s' hs' _ _ => s' = s /\ hs' = hs
  | SApiCall s t hs _ _ _ o ad, SApiCall s' t' hs' _ _ _ o' ad' => s' = s /\ t' = t /\ hs' = hs /\ o' = o /\ ad' = ad
  | _, _ => st' = st
  end.

(** arguments of their Go types: keys are int64, the numbers given with messages int32 and byte; AddStep is called with a step other than
    a thread dump (which has no reader in the agent) *)
Definition typed (nk : env * call) : Prop :=
  in_int64 (n_key (fst nk)) /\
  match snd nk with
  | KAddStep _ (Some st) => S_Steps.go_step st = true /\ S_Steps.is_dump st = false
  | KAddHashed _ _ v e => in_int32 v /\ in_int32 e
  | KAddPMessage _ lv _ e _ => 0 <= lv <= 255 /\ in_int32 e
  | _ => True
  end.
