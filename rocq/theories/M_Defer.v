(** Go's defer, panic and recover, and the agent's use of them: scouterx/common/panic.go,
    scouterx/netio/dataproxy.go (SendPanic, SendAlert) and the functions of scouterx/strace/tracemain.go, each of which
    begins with "defer common.ReportScouterPanic()".

    The semantics is that of the Go specification, "Handling panics": a panic ends the function and runs its deferred
    calls, newest first; recover() returns the panic only when it is called directly by a function which that panic runs
    as a deferred call, and then the panic stops; a panic in a deferred call takes the place of the one it was run for.
    Left out: runtime.Goexit, os.Exit, "defer recover()" itself and unrecoverable runtime errors. *)
From Verif Require Import GoInt M_Packs M_Text M_Trace.

(** a panic, as fmt's %+v prints its value; printed by panic.go:17-23, dataproxy.go:41-45 *)
Definition pv := gostring.

(* ------------------------------------------------------------------ *)
(** * The language *)

(** a function body; Go statements as in panic.go:17-23, dataproxy.go:41-50, 156-168, tracemain.go:29-605 *)
Inductive code (St : Type) :=
| Done                                              (* return *)
| Act (f : St -> St * option pv) (k : code St)      (* statements without calls; [Some v]: they panic *)
| Test (c : St -> bool) (a b : code St)
| Call (f k : code St)
| Defer (f k : code St)
| Recover (k : option pv -> code St).               (* r := recover(); ... *)
Arguments Done {St}. Arguments Act {St}. Arguments Test {St}. Arguments Call {St}. Arguments Defer {St}. Arguments Recover {St}.

(** what a call of a function does: [p] is the panic it is run for, if a panic runs it as a deferred call. The result: the
    new state, the panic it ends with, and whether it recovered [p]. Go's calls, as in panic.go:17-23 and tracemain.go:29-605 *)
Definition meaning (St : Type) := option pv -> St -> St * option pv * bool.

(** deferred calls, newest first, of a function that returns or panics with [o]; the defers of tracemain.go:29-605, dataproxy.go:47-50 *)
Fixpoint unwind {St} (ds : list (meaning St)) (o : option pv) (s : St) : St * option pv :=
  match ds with
  | [] => (s, o)
  | d :: ds' =>
      let '(s', o', r) := d o s in
      unwind ds' (match o' with Some w => Some w | None => if (r : bool) then None else o end) s'
  end.

(** the statements of a function, with its deferred calls so far and whether it has recovered already; Go's statements as in panic.go:17-23, dataproxy.go:41-50 *)
Fixpoint exec {St} (c : code St) (p : option pv) (got : bool) (ds : list (meaning St)) (s : St) : St * option pv * bool * list (meaning St) :=
  let invoke' (f : code St) : meaning St := fun p s =>
    let '(s1, o, r, ds) := exec f p false [] s in let (s2, o2) := unwind ds o s1 in (s2, o2, r) in
  match c with
  | Done => (s, None, got, ds)
  | Act f k => match f s with (s', None) => exec k p got ds s' | (s', Some v) => (s', Some v, got, ds) end
  | Test t a b => if t s then exec a p got ds s else exec b p got ds s
  | Call f k => match invoke' f None s with (s', None, _) => exec k p got ds s' | (s', Some v, _) => (s', Some v, got, ds) end
  | Defer f k => exec k p got (invoke' f :: ds) s
  | Recover k =>
      match p with
      | Some v => if got then exec (k None) p got ds s else exec (k (Some v)) p true ds s
      | None => exec (k None) p got ds s
      end
  end.

(** a call of a Go function, as of the deferred ReportScouterPanic: panic.go:17-23 *)
Definition invoke {St} (f : code St) : meaning St := fun p s =>
  let '(s1, o, r, ds) := exec f p false [] s in let (s2, o2) := unwind ds o s1 in (s2, o2, r).

(* ------------------------------------------------------------------ *)
(** * The agent's guard *)

(** the process, as far as panics go; [A]: the application's own state; panic.go:11; configure.go:40-124 (ObjType, ObjHash); dataproxy.go:156-168 (packs sent) *)
Record gst (A : Type) := mkG {
  s_agent : agent;                  (* the tracing API's state (M_Trace.v) *)
  s_app : A;
  s_reg : bool;                     (* common.fSendPanic is set (panic.go:11-15) *)
  s_type : gostring; s_obj : Z;     (* ac.ObjType, ac.ObjHash *)
  s_sent : list alert_pack;         (* alerts given to SendPackDirect by SendPanic, newest first *)
  s_out : list gostring;            (* lines on the standard output, newest first *)
  s_res : list res }.               (* results of the tracing calls, newest first, for later tracing calls *)
Arguments mkG {A}. Arguments s_agent {A}. Arguments s_app {A}. Arguments s_reg {A}. Arguments s_type {A}. Arguments s_obj {A}.
Arguments s_sent {A}. Arguments s_out {A}. Arguments s_res {A}.

(** assignment to the agent's own state: tracemain.go:29-605 *)
Definition with_agent {A} (a : agent) (g : gst A) : gst A := mkG a (s_app g) (s_reg g) (s_type g) (s_obj g) (s_sent g) (s_out g) (s_res g).
(** assignment to the application's own state (not in /repo: the caller of tracemain.go:29-605) *)
Definition with_app {A} (x : A) (g : gst A) : gst A := mkG (s_agent g) x (s_reg g) (s_type g) (s_obj g) (s_sent g) (s_out g) (s_res g).
(** the result returned to the caller of tracemain.go:29-605 *)
Definition with_res {A} (r : res) (g : gst A) : gst A := mkG (s_agent g) (s_app g) (s_reg g) (s_type g) (s_obj g) (s_sent g) (s_out g) (r :: s_res g).
(** fmt.Printf in panic.go:17-23, dataproxy.go:41-45 *)
Definition print {A} (l : gostring) (g : gst A) : gst A := mkG (s_agent g) (s_app g) (s_reg g) (s_type g) (s_obj g) (s_sent g) (l :: s_out g) (s_res g).

(** panic.go:13-15 RegisterSendPanicF, called by agent.go:28-29 Init *)
Definition register {A} (g : gst A) : gst A := mkG (s_agent g) (s_app g) true (s_type g) (s_obj g) (s_sent g) (s_out g) (s_res g).

(** dataproxy.go:156-168 SendAlert: the pack; its other fields are those of NewAlertPack *)
Definition alert_of {A} (g : gst A) (level : Z) (title msg : gostring) : alert_pack := mk_alert_pack 0 level (s_type g) (s_obj g) title msg [].
(** SendAlert itself: nothing for an empty title; otherwise the pack goes to SendPackDirect (M_Net.v), which writes it from a
    goroutine of its own. The event is M_Trace.v's record of it. dataproxy.go:156-168 *)
Definition send_alert {A} (level : Z) (title msg : gostring) (g : gst A) : gst A * option pv :=
  match title with
  | [] => (g, None)
  | _ => (mkG (add_log (EvAlert level title) (s_agent g)) (s_app g) (s_reg g) (s_type g) (s_obj g)
              (alert_of g level title msg :: s_sent g) (s_out g) (s_res g), None)
  end.

(** dataproxy.go:41-45 reportScouterPanicFinal *)
Definition report_final {A} : code (gst A) :=
  Recover (fun r => match r with
                    | Some v => Act (fun g => (print (of_string "[scouter][panic][FATAL]" ++ v) g, None)) Done
                    | None => Done
                    end).
(** dataproxy.go:47-50 SendPanic: reportScouterPanicFinal is called, not deferred. [alert] is SendAlert. *)
Definition send_panic_with {A} (alert : Z -> gostring -> gostring -> gst A -> gst A * option pv) (msg : gostring) : code (gst A) :=
  Call report_final (Act (alert 3 (of_string "Panic") msg) Done).

(** the call of a nil function; panic.go:19 when RegisterSendPanicF (13-15) was not called *)
Definition nil_call : pv := of_string "runtime error: invalid memory address or nil pointer dereference".

(** panic.go:17-23 ReportScouterPanic; [stack] is dump.StackTrace(100) *)
Definition report_with {A} (alert : Z -> gostring -> gostring -> gst A -> gst A * option pv) (stack : gostring) : code (gst A) :=
  Recover (fun r => match r with
    | Some v =>
        Act (fun g => (print (of_string "[scouter][panic]" ++ v ++ [10] ++ stack) g, None))
          (Test s_reg (Call (send_panic_with alert (v ++ of_string " - " ++ stack)) Done)
                      (Act (fun g => (g, Some nil_call)) Done))
    | None => Done
    end).
(** panic.go:17-23 ReportScouterPanic with the registered dataproxy.go:47-50 *)
Definition report {A} (stack : gostring) : code (gst A) := report_with send_alert stack.

(** a function that begins with "defer common.ReportScouterPanic()"; tracemain.go:29-605, panic.go:17-23 *)
Definition guarded {A} (stack : gostring) (body : code (gst A)) : code (gst A) := Defer (report stack) body.

(* ------------------------------------------------------------------ *)
(** * The functions of the API *)

(** the function's statements after the defer; taken from M_Trace.v, where [recovered] stands for the defer *)
Local Ltac after_defer t := let u := eval cbv [start_service start_http_service start_inheritance go_with_trace end_service end_http_service
    is_stream set_as_stream mark_as_error mark_as_error_forcibly set_service_name add_step add_message_step
    add_hashed_message_step add_pmessage_step start_method start_custom_method end_method start_api_call start_api_call_prop end_api_call] in t in
  match u with recovered _ ?m => exact m end.
(** tracemain.go:211-223 *) Definition start_service_body n c name ip : M ctx := ltac:(after_defer (start_service n c name ip)).
(** tracemain.go:153-176 *) Definition start_http_body n c req : M ctx := ltac:(after_defer (start_http_service n c req)).
(** tracemain.go:230-240 *) Definition inheritance_body n c p : M ctx := ltac:(after_defer (start_inheritance n c p)).
(** tracemain.go:289-299 *) Definition go_body n c name : M (option ctx) := ltac:(after_defer (go_with_trace n c name)).
(** tracemain.go:225-228, 328-331 *) Definition end_service_body n c : M unit := ltac:(after_defer (end_service n c)).
(** tracemain.go:194-209 *) Definition end_http_body n c s : M unit := ltac:(after_defer (end_http_service n c s)).
(** tracemain.go:29-39 *) Definition is_stream_body c : M bool := ltac:(after_defer (is_stream c)).
(** tracemain.go:41-52 *) Definition set_as_stream_body c : M bool := ltac:(after_defer (set_as_stream c)).
(** tracemain.go:54-67 *) Definition mark_error_body n c m : M unit := ltac:(after_defer (mark_as_error n c m)).
(** tracemain.go:69-79 *) Definition mark_forcibly_body n c m : M unit := ltac:(after_defer (mark_as_error_forcibly n c m)).
(** tracemain.go:81-92 *) Definition set_name_body n c m : M unit := ltac:(after_defer (set_service_name n c m)).
(** tracemain.go:94-104 *) Definition add_step_body n c st : M unit := ltac:(after_defer (add_step n c st)).
(** tracemain.go:106-118 *) Definition add_message_body n c m : M unit := ltac:(after_defer (add_message_step n c m)).
(** tracemain.go:120-134 *) Definition add_hashed_body n c m v e : M unit := ltac:(after_defer (add_hashed_message_step n c m v e)).
(** tracemain.go:136-151 *) Definition add_pmessage_body n c l m e p : M unit := ltac:(after_defer (add_pmessage_step n c l m e p)).
(** tracemain.go:417-425 *) Definition start_method_body n c f p : M (option nat) := ltac:(after_defer (start_method n c f p)).
(** tracemain.go:427-443 *) Definition start_custom_body n c f p : M (option nat) := ltac:(after_defer (start_custom_method n c f p)).
(** tracemain.go:486-507 *) Definition end_method_body n c p : M unit := ltac:(after_defer (end_method n c p)).
(** tracemain.go:526-542 *) Definition start_api_body n c m ad : M (option nat) := ltac:(after_defer (start_api_call n c m ad)).
(** tracemain.go:544-581 *) Definition start_api_prop_body n c r m ad : M (option nat * list gostring) := ltac:(after_defer (start_api_call_prop n c r m ad)).
(** tracemain.go:583-604 *) Definition end_api_body n c p e : M unit := ltac:(after_defer (end_api_call n c p e)).

(** the guarded functions: what is returned after a recovered panic, and the statements after the defer. [None]: not one of
    them (goroutine start, field assignments, the agent's own tasks). tracemain.go:29-605 *)
Definition unguarded (n : env) (k : call) : option (res * M res) :=
  match k with
  | KStartService c name ip => Some (RCtx CNil, fmap RCtx (start_service_body n c name ip))
  | KStartHttp c req => Some (RCtx CNil, fmap RCtx (start_http_body n c req))
  | KInherit c p => Some (RCtx CNil, fmap RCtx (inheritance_body n c p))
  | KGo c name => Some (RRun None, fmap RRun (go_body n c name))
  | KGoEnd c | KEndService c => Some (RUnit, fmap (fun _ => RUnit) (end_service_body n c))
  | KEndHttp c s => Some (RUnit, fmap (fun _ => RUnit) (end_http_body n c s))
  | KIsStream c => Some (RBool false, fmap RBool (is_stream_body c))
  | KSetAsStream c => Some (RBool false, fmap RBool (set_as_stream_body c))
  | KMarkError c m => Some (RUnit, fmap (fun _ => RUnit) (mark_error_body n c m))
  | KMarkErrorForcibly c m => Some (RUnit, fmap (fun _ => RUnit) (mark_forcibly_body n c m))
  | KSetServiceName c m => Some (RUnit, fmap (fun _ => RUnit) (set_name_body n c m))
  | KAddStep c st => Some (RUnit, fmap (fun _ => RUnit) (add_step_body n c st))
  | KAddMessage c m => Some (RUnit, fmap (fun _ => RUnit) (add_message_body n c m))
  | KAddHashed c m v e => Some (RUnit, fmap (fun _ => RUnit) (add_hashed_body n c m v e))
  | KAddPMessage c l m e p => Some (RUnit, fmap (fun _ => RUnit) (add_pmessage_body n c l m e p))
  | KStartMethod c f p => Some (RStep None, fmap RStep (start_method_body n c f p))
  | KStartCustom c f p => Some (RStep None, fmap RStep (start_custom_body n c f p))
  | KEndMethod c p => Some (RUnit, fmap (fun _ => RUnit) (end_method_body n c p))
  | KStartApi c m ad => Some (RStep None, fmap RStep (start_api_body n c m ad))
  | KStartApiProp c r m ad => Some (RApi None [], fmap (fun x => RApi (fst x) (snd x)) (start_api_prop_body n c r m ad))
  | KEndApi c p e => Some (RUnit, fmap (fun _ => RUnit) (end_api_body n c p e))
  | KGoBegin _ | KUser _ _ _ _ _ _ _ _ _ | KActiveCount | KResetText | KConf => None
  end.

(** one tracing call as the program makes it: the moment, the function and its arguments may depend on everything that
    happened; [value] is the panic's value, if the agent's code panics. Calls made inside one another (MarkAsError calls
    AddPMessageStep, startService calls Goid) are part of the M_Trace.v function. tracemain.go:29-605 *)
Record tracing (A : Type) := mkT { t_env : gst A -> env; t_call : gst A -> call; t_value : gst A -> pv; t_stack : gostring }.
Arguments mkT {A}. Arguments t_env {A}. Arguments t_call {A}. Arguments t_value {A}. Arguments t_stack {A}.

(** the statements after the defer, as one action; tracemain.go:29-605 *)
Definition body_act {A} (t : tracing A) (g : gst A) : gst A * option pv :=
  match unguarded (t_env t g) (t_call t g) with
  | None => (g, None)
  | Some (dflt, m) =>
      match m (s_agent g) with
      | (a, Some r) => (with_res r (with_agent a g), None)
      | (a, None) => (with_res dflt (with_agent a g), Some (t_value t g))
      end
  end.
(** the function: tracemain.go, "defer common.ReportScouterPanic()" and the rest; tracemain.go:29-605 *)
Definition trace_code {A} (t : tracing A) : code (gst A) := guarded (t_stack t) (Act (body_act t) Done).

(* ------------------------------------------------------------------ *)
(** * Applications *)

(** an application's function: its own statements, calls, defers and recovers, and tracing calls, made directly or
    deferred; the application around tracemain.go:29-605 *)
Inductive app (A : Type) :=
| PDone
| PAct (f : A -> A * option pv) (k : app A)
| PTest (c : A -> bool) (a b : app A)
| PCall (f k : app A)
| PDefer (f k : app A)
| PRecover (k : option pv -> app A)
| PTrace (t : tracing A) (k : app A)              (* strace.F(...) *)
| PDeferTrace (t : tracing A) (k : app A).        (* defer strace.F(...) *)
Arguments PDone {A}. Arguments PAct {A}. Arguments PTest {A}. Arguments PCall {A}. Arguments PDefer {A}. Arguments PRecover {A}.
Arguments PTrace {A}. Arguments PDeferTrace {A}.

(** the program that runs; the application around tracemain.go:29-605 *)
Fixpoint weave {A} (P : app A) : code (gst A) :=
  match P with
  | PDone => Done
  | PAct f k => Act (fun g => let (x, o) := f (s_app g) in (with_app x g, o)) (weave k)
  | PTest c a b => Test (fun g => c (s_app g)) (weave a) (weave b)
  | PCall f k => Call (weave f) (weave k)
  | PDefer f k => Defer (weave f) (weave k)
  | PRecover k => Recover (fun r => weave (k r))
  | PTrace t k => Call (trace_code t) (weave k)
  | PDeferTrace t k => Defer (trace_code t) (weave k)
  end.

(** tracemain.go:289-299 GoWithTrace's goroutine: "defer endChildGoroutineService(newCtx)" and the user's function *)
Definition goroutine {A} (finish : tracing A) (f : app A) : app A := PDeferTrace finish (PCall f PDone).
