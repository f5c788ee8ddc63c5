(** Models the text registration functions of scouterx/netio/dataproxy.go (SendServiceName .. SendStackElement,
    ResetTextSent). The eleven Send functions have the same body over different caches and text types;
    they are one definition indexed by [kind]. *)
From Verif Require Import GoInt M_Packs M_Hash M_Cache.

(** the caches of dataproxy.go:16-26 and the text types of texttype.go:3-21 *)
Inductive kind := KService | KObject | KReferer | KUserAgent | KMethod | KApicall | KError | KLogin | KDesc | KStackElement | KHashMsg.

(** the same cache? dataproxy.go:16-26 *)
Definition kind_eqb (a b : kind) : bool :=
  match a, b with
  | KService, KService | KObject, KObject | KReferer, KReferer | KUserAgent, KUserAgent | KMethod, KMethod
  | KApicall, KApicall | KError, KError | KLogin, KLogin | KDesc, KDesc | KStackElement, KStackElement
  | KHashMsg, KHashMsg => true
  | _, _ => false
  end.

(** dataproxy.go:16-26 *)
Definition kind_cap (k : kind) : Z := match k with KObject => 100 | _ => 10000 end.

(** the text type used at dataproxy.go:61, 74, 87, 100, 113, 126, 139, 152, 179, 192, 205; texttype.go:3-21 *)
Definition text_type (k : kind) : gostring :=
  match k with
  | KService => of_string "service" | KObject => of_string "object" | KReferer => of_string "referer"
  | KUserAgent => of_string "ua" | KMethod => of_string "method" | KApicall => of_string "apicall"
  | KError => of_string "error" | KLogin => of_string "login" | KDesc => of_string "desc"
  | KStackElement => of_string "stackelem" | KHashMsg => of_string "hmsg"
  end.

(** What is observed from outside: a text pack given to the UDP sender's queue ([room]: the queue had a
    free slot, otherwise the pack is dropped, udpsender.go:69-77), and the clearing of a cache. *)
Inductive tevent :=
| EvOffer (k : kind) (p : text_pack) (room : bool)
| EvClear (k : kind).

(** The package variables, dataproxy.go:16-26, and the observations so far, newest first (not program state) *)
Record tstate := mkT { t_cache : kind -> lra; t_log : list tevent }.

(** dataproxy.go:16-26 *)
Definition t_init : tstate := mkT (fun k => lra_new (kind_cap k)) [].

(** assignment to one cache: dataproxy.go:16-26 *)
Definition set_cache (k : kind) (c : lra) (f : kind -> lra) : kind -> lra := fun k' => if kind_eqb k' k then c else f k'.

(** XxxSent.AddKey(hash); dataproxy.go:52-207 *)
Definition t_add_key (k : kind) (h : Z) (t : tstate) : tstate :=
  mkT (set_cache k (fst (lra_add_key (t_cache t k) h)) (t_cache t)) (t_log t).
(** udpsender.GetInstance().AddPack(&netdata.TextPack{type, hash, name}); dataproxy.go:52-207 *)
Definition t_add_pack (k : kind) (h : Z) (name : gostring) (room : bool) (t : tstate) : tstate :=
  mkT (t_cache t) (EvOffer k (mk_text_pack (text_type k) h name) room :: t_log t).

(** dataproxy.go:52-63 and its ten copies; [None] is a panic of HashString *)
Definition text_send (k : kind) (name : gostring) (room : bool) (t : tstate) : option (tstate * Z) :=
  match name with
  | [] => Some (t, 0)
  | _ => match hash_string name with
         | None => None
         | Some h =>
             if lra_contains (t_cache t k) h then Some (t, h)
             else Some (t_add_pack k h name room (t_add_key k h t), h)
         end
  end.

(** XxxSent.Clear(); the callback OnEvicted is not set on these caches, so the iteration order of Clear is
    irrelevant; dataproxy.go:28-40 *)
Definition t_clear (k : kind) (t : tstate) : tstate :=
  mkT (set_cache k (fst (lra_clear (t_cache t k) (table (t_cache t k)))) (t_cache t)) (EvClear k :: t_log t).

(** dataproxy.go:28-40 ResetTextSent *)
Definition reset_order : list kind :=
  [KService; KObject; KReferer; KUserAgent; KMethod; KApicall; KError; KLogin; KDesc; KStackElement; KHashMsg].
(** dataproxy.go:28-40 ResetTextSent *)
Definition reset_text_sent (t : tstate) : tstate := fold_left (fun t k => t_clear k t) reset_order t.

(** Sequences of calls by one goroutine; dataproxy.go:28-40, 52-207 *)
Inductive top := TSend (k : kind) (name : gostring) (room : bool) | TReset.
(** one call of dataproxy.go:28-40 or 52-207 *)
Definition t_step (o : top) (t : tstate) : option (tstate * Z) :=
  match o with
  | TSend k name room => text_send k name room t
  | TReset => Some (reset_text_sent t, 0)
  end.
(** calls of dataproxy.go:28-40, 52-207 one after the other *)
Fixpoint t_run (ops : list top) (t : tstate) : option tstate :=
  match ops with
  | [] => Some t
  | o :: ops' => match t_step o t with Some (t', _) => t_run ops' t' | None => None end
  end.

(* ------------------------------------------------------------------ *)
(** * Concurrent callers. Contains, AddKey and Clear each hold the lra lock, AddPack is one channel
    operation; anything may happen in between. *)

(** where a goroutine is inside a Send call; dataproxy.go:52-207 *)
Inductive tphase :=
| PhCalls                                              (* between calls *)
| PhAdd (k : kind) (h : Z) (name : gostring)           (* Contains returned false, before AddKey *)
| PhPack (k : kind) (h : Z) (name : gostring).         (* after AddKey, before AddPack *)

(** calls still to make, position, and the values returned so far (newest first); dataproxy.go:52-207 *)
Record tthread := mkTT { tt_calls : list (kind * gostring); tt_phase : tphase; tt_returned : list (kind * gostring * Z) }.

(** the next step of a goroutine inside dataproxy.go:52-207 *)
Inductive tt_step (t : tstate) : tthread -> tstate -> tthread -> Prop :=
| tt_empty k rest r : tt_step t (mkTT ((k, []) :: rest) PhCalls r) t (mkTT rest PhCalls ((k, [], 0) :: r))
| tt_known k name rest r h : name <> [] -> hash_string name = Some h -> lra_contains (t_cache t k) h = true ->
    tt_step t (mkTT ((k, name) :: rest) PhCalls r) t (mkTT rest PhCalls ((k, name, h) :: r))
| tt_unknown k name rest r h : name <> [] -> hash_string name = Some h -> lra_contains (t_cache t k) h = false ->
    tt_step t (mkTT ((k, name) :: rest) PhCalls r) t (mkTT rest (PhAdd k h name) r)
| tt_add k h name rest r :
    tt_step t (mkTT rest (PhAdd k h name) r) (t_add_key k h t) (mkTT rest (PhPack k h name) r)
| tt_pack k h name room rest r :
    tt_step t (mkTT rest (PhPack k h name) r) (t_add_pack k h name room t) (mkTT rest PhCalls ((k, name, h) :: r)).

(** any goroutine moves, or the goroutine inside ResetTextSent clears some cache (any cache at any time,
    which includes every interleaving of ResetTextSent); dataproxy.go:28-40, 52-207 *)
Inductive sys_step : tstate * list tthread -> tstate * list tthread -> Prop :=
| sys_thread t t' before th th' after : tt_step t th t' th' ->
    sys_step (t, before ++ th :: after) (t', before ++ th' :: after)
| sys_clear t k ths : sys_step (t, ths) (t_clear k t, ths).

(** a goroutine about to make calls of dataproxy.go:52-207 *)
Definition tt_start (calls : list (kind * gostring)) : tthread := mkTT calls PhCalls [].
(** goroutines in dataproxy.go:28-40, 52-207, after any number of moves *)
Inductive sys_reach (callers : list (list (kind * gostring))) : tstate * list tthread -> Prop :=
| sr_init : sys_reach callers (t_init, map tt_start callers)
| sr_step s s' : sys_reach callers s -> sys_step s s' -> sys_reach callers s'.
