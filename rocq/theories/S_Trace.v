(** What a user of the tracing API observes. Services (trace contexts) are numbered in the order in which they are started. *)
From Verif Require Import GoInt M_Packs M_Cache M_Trace.
From Coq Require Import Permutation.

(** samples and xlogs that service [h] contributed *)
Definition is_meter (h : nat) (e : aevent) : bool := match e with EvMeter h' _ _ => Nat.eqb h h' | _ => false end.
Definition is_xlog (h : nat) (e : aevent) : bool := match e with EvXlog h' _ => Nat.eqb h h' | _ => false end.
Definition samples (h : nat) (log : list aevent) : nat := length (filter (is_meter h) log).
Definition xlogs (h : nat) (log : list aevent) : nat := length (filter (is_xlog h) log).

(** service [h] exists and was not ended yet *)
Definition running (a : agent) (h : nat) : Prop := exists x, nth_error (a_ctx a) h = Some x /\ x_Closed x = false.
Definition ended (a : agent) (h : nat) : Prop := exists x, nth_error (a_ctx a) h = Some x /\ x_Closed x = true.
Definition running_count (a : agent) : Z := zlen (filter (fun x => negb (x_Closed x)) (a_ctx a)).
Definition txids (a : agent) : list Z := map x_Txid (a_ctx a).

(** the state after a history that starts with a fresh agent *)
Definition after (c : M_Sampler.sconf) (ops : list (env * call)) : agent := fst (run ops (a_init c)).

(** sensible profile settings *)
Definition good (n : env) : Prop := 1 <= cf_keep (n_conf n) /\ 1 <= cf_bulk (n_conf n).

(** the context argument of a call *)
Definition ctx_of (k : call) : option ctx :=
  match k with
  | KStartService c _ _ | KStartHttp c _ | KInherit c _ | KGo c _ | KGoBegin c | KGoEnd c | KEndService c | KEndHttp c _
  | KIsStream c | KSetAsStream c | KMarkError c _ | KMarkErrorForcibly c _ | KSetServiceName c _ | KAddStep c _ | KAddMessage c _
  | KAddHashed c _ _ _ | KAddPMessage c _ _ _ _ | KStartMethod c _ _ | KStartCustom c _ _ | KEndMethod c _ | KStartApi c _ _
  | KStartApiProp c _ _ _ | KEndApi c _ _ | KUser c _ _ _ _ _ _ _ _ => Some c
  | KActiveCount | KResetText | KConf => None
  end.

(** the calls that end the service of context [c] *)
Definition is_end (c : ctx) (k : call) : Prop := k = KEndService c \/ k = KGoEnd c \/ exists s, k = KEndHttp c s.

(** milliseconds that the service of [x] has been running, and its place among the active counts *)
Definition running_ms (n : env) (x : tctx) : Z := Z.quot (M_Util.time_sub (n_now n) (x_StartTime x)) 1000000.
Definition bucket (n : env) (x : tctx) : Z :=
  if running_ms n x <=? cf_yellow (n_conf n) then 0 else if running_ms n x <=? cf_red (n_conf n) then 1 else 2.
Definition stuck (n : env) (x : tctx) : Prop := cf_stuck_ms (n_conf n) < running_ms n x.
(** number of running services with bucket [b] *)
Definition running_in (n : env) (a : agent) (b : Z) : Z :=
  zlen (filter (fun x => negb (x_Closed x) && (bucket n x =? b)) (a_ctx a)).

(** arguments that are not nil, and the order of a range over the table is one of its orders *)
Definition sensible (a : agent) (nk : env * call) : Prop :=
  match snd nk with
  | KStartHttp _ req => req <> None
  | KAddStep _ st => st <> None
  | KInherit _ p => (p < length (a_ctx a))%nat
  | KGoBegin (CTrace h) => (h < length (a_ctx a))%nat
  | KActiveCount => Permutation (n_order (fst nk)) (table (a_active a))
  | _ => True
  end.

(** such arguments throughout a history, and sensible profile settings *)
Definition well_used (c : M_Sampler.sconf) (ops : list (env * call)) : Prop :=
  forall p n k q, ops = p ++ (n, k) :: q -> good n /\ sensible (after c p) (n, k).
