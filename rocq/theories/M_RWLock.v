(** The package-level sync.RWMutex that serialises the operations of one cache package
    (lra.go:8, cachemap.go:9, cacheset.go:9, cachemap2.go:10) and the lock calls each operation
    makes. Go's RWMutex: "If a goroutine holds a RWMutex for reading and another goroutine might
    call Lock, no goroutine should expect to be able to acquire a read lock until the initial read
    lock is released": a pending Lock blocks new RLock calls. *)
From Verif Require Import GoInt.

(** the calls of sync.RWMutex in lra.go:34-136, cachemap.go:16-104, cacheset.go:26-72 *)
Inductive act := ARLock | ARUnlock | ALock | AUnlock.

(** state of one goroutine's Lock call: none, announced and waiting for readers, holding; sync.RWMutex in lra.go:34-136 *)
Inductive wstate := WNone | WPending | WHeld.

(** a goroutine: lock calls still to make, read locks held, writer state; a caller of lra.go:34-136 *)
Record thread := mkThread { todo : list act; rd : nat; wr : wstate }.

(** the goroutine neither holds nor waits for the write lock of lra.go:8 *)
Definition is_wnone (t : thread) : bool := match wr t with WNone => true | _ => false end.
(** no goroutine holds or waits for the write lock; sync.RWMutex in lra.go:34-136 *)
Definition no_writer (ts : list thread) : bool := forallb is_wnone ts.
(** no goroutine holds the read lock of lra.go:8 *)
Definition no_reader (ts : list thread) : bool := forallb (fun t => Nat.eqb (rd t) 0) ts.

(** one goroutine's next move, given the whole state; [None] when it has to wait; sync.RWMutex in lra.go:34-136 *)
Definition advance (ts : list thread) (t : thread) : option thread :=
  match todo t, wr t with
  | ARLock :: rest, WNone => if no_writer ts then Some (mkThread rest (S (rd t)) WNone) else None
  | ARUnlock :: rest, WNone => match rd t with S n => Some (mkThread rest n WNone) | O => None end
  | ALock :: rest, WNone => if no_writer ts then Some (mkThread (ALock :: rest) (rd t) WPending) else None
  | ALock :: rest, WPending => if no_reader ts then Some (mkThread rest (rd t) WHeld) else None
  | AUnlock :: rest, WHeld => Some (mkThread rest (rd t) WNone)
  | _, _ => None
  end.

(** a schedule step: some goroutine moves; callers of lra.go:34-136 *)
Inductive step : list thread -> list thread -> Prop :=
| step_at before t after t' : advance (before ++ t :: after) t = Some t' ->
    step (before ++ t :: after) (before ++ t' :: after).

(** [steps n a b]: b is reached from a in n steps; callers of lra.go:34-136 *)
Inductive steps : nat -> list thread -> list thread -> Prop :=
| steps_0 a : steps 0 a a
| steps_S n a b c : steps n a b -> step b c -> steps (S n) a c.

(** Cache operations and their lock calls; lra.go:34-136 *)
Inductive cache_call :=
| LraAdd | LraGet | LraContains | LraEmpty | LraRemove | LraSize | LraClear
| LraGetValues (n : nat) (* n items iterated *)
| MapAdd | MapRemove | MapGet | MapContains | MapEmpty | MapSize | MapClear | MapGetValues (n : nat).

(** lock calls of GetValues: RLock, then RUnlock/RLock around each item, then RUnlock; lra.go:121-136 *)
Fixpoint values_acts (n : nat) : list act :=
  match n with
  | O => [ARLock; ARUnlock]
  | S m => ARLock :: ARUnlock :: values_acts m
  end.

(** lra.go:38-136; [Map*] are cachemap.go:16-104, cacheset.go:26-72 and cachemap2.go:20-121, which
    make the same lock calls as each other *)
Definition acts_of (o : cache_call) : list act :=
  match o with
  | LraAdd | LraRemove | LraClear => [ALock; AUnlock]
  | LraGet | LraContains | LraSize => [ARLock; ARUnlock]
  | LraEmpty => [ARLock; ARLock; ARUnlock; ARUnlock]   (* Empty calls Size while holding the read lock *)
  | LraGetValues n => values_acts n
  | MapAdd | MapRemove | MapClear | MapEmpty => [ALock; AUnlock]
  | MapGet | MapContains => [ARLock; ARUnlock]
  | MapSize => []
  | MapGetValues n => values_acts n
  end.

(** calls of lra.go:34-136 by one goroutine *)
Definition program (ops : list cache_call) : thread := mkThread (flat_map acts_of ops) 0 WNone.
(** calls of lra.go:34-136 by several goroutines *)
Definition programs (callers : list (list cache_call)) : list thread := map program callers.

(** every call of lra.go:34-136 has returned *)
Definition finished (t : thread) : Prop := todo t = [].
