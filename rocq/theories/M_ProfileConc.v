(** Models scouterx/netio/profilecollector.go:26-65 with SendProfile/sendProfile0 (dataproxy.go:214-248) when several goroutines use one trace context.

    The collector has no lock. Every read and write of its fields (steps, pos, currentLevel, parentLevel) and of an element of a slice is one atomic
    action and the goroutines' actions are interleaved in any order (sequentially consistent memory: an assumption, Go promises less for racing
    programs). Where the language leaves the order of operand reads open ([c.steps[c.pos] = ss], [c.steps[0 : c.pos]]) the slice is read first.
    A step is a number, its index and parent are kept beside it ([c_links]). The counters of the trace context (dataproxy.go:243-244) and the encoding
    of a batch are left out: a batch is the list of the steps written to it (StepsToBytes, step.go:81-92, skips nil). *)
From Verif Require Import GoInt.

(** one call on the collector; profilecollector.go:26-65 *)
Inductive pop_call := OAdd (s : nat) | OPush (s : nat) | OPop (s : nat) | OClose.

(** where a goroutine is inside a call; profilecollector.go:26-65 *)
Inductive pc :=
| Out
| AIndex (s : nat)                  (* Add: before ss.SetIndex(c.currentLevel) *)
| AParent (s : nat)                 (* before ss.SetParent(c.parentLevel) *)
| ALevel (s : nat)                  (* before reading currentLevel for ++ *)
| ALevel2 (s : nat) (v : Z)         (* before writing it *)
| UIndex (s : nat)                  (* Push, the same up to SetParent *)
| UParent (s : nat)
| UDown (s : nat)                   (* before reading currentLevel for parentLevel *)
| UDown2 (s : nat) (v : Z)
| ULevel (s : nat)
| ULevel2 (s : nat) (v : Z)
| OParent (s : nat)                 (* Pop: before c.parentLevel = ss.GetParent() *)
| RSlice (s : nat)                  (* Process: before reading c.steps *)
| RPos (s a : nat)                  (* before reading c.pos *)
| RStore (s a i : nat)              (* before the store into element i of slice a *)
| RInc | RInc2 (v : nat)            (* c.pos++ *)
| RTest | RTest2 (v : nat)          (* c.pos >= len(c.steps) *)
| ROld | RNew (o : nat) | RZero (o : nat)   (* o = c.steps; c.steps = make(...); c.pos = 0 *)
| Sending (o hi i : nat) (acc : list nat)   (* SendProfile of the first hi elements of slice o, before element i; acc: the batch so far *)
| CTest | CSlice | CPos (o : nat).          (* Close(true): c.pos > 0; c.steps[0 : c.pos] *)

(** the collector: the slices made so far, c.steps, c.pos, the levels, the index and parent stored in each step; the batches sent, oldest first; panics
    (recovered by the caller's ReportScouterPanic); profilecollector.go:10-17 *)
Record coll := mkColl { c_arrays : list (list (option nat)); c_steps : nat; c_pos : nat; c_cur : Z; c_par : Z; c_links : nat -> Z * Z; c_sent : list (list nat); c_panics : nat }.
(** step.go:54-56, called in profilecollector.go:26-46 *)
Definition set_index (s : nat) (v : Z) (c : coll) : coll := mkColl (c_arrays c) (c_steps c) (c_pos c) (c_cur c) (c_par c) (fun x => if Nat.eqb x s then (v, snd (c_links c s)) else c_links c x) (c_sent c) (c_panics c).
(** step.go:58-60, called in profilecollector.go:26-46 *)
Definition set_parent (s : nat) (v : Z) (c : coll) : coll := mkColl (c_arrays c) (c_steps c) (c_pos c) (c_cur c) (c_par c) (fun x => if Nat.eqb x s then (fst (c_links c s), v) else c_links c x) (c_sent c) (c_panics c).
(** profilecollector.go:26-46: currentLevelIndex = v *)
Definition set_cur (v : Z) (c : coll) : coll := mkColl (c_arrays c) (c_steps c) (c_pos c) v (c_par c) (c_links c) (c_sent c) (c_panics c).
(** profilecollector.go:26-38: parentLevelIndex = v *)
Definition set_par (v : Z) (c : coll) : coll := mkColl (c_arrays c) (c_steps c) (c_pos c) (c_cur c) v (c_links c) (c_sent c) (c_panics c).
(** profilecollector.go:40-65: pos = v *)
Definition set_pos (v : nat) (c : coll) : coll := mkColl (c_arrays c) (c_steps c) v (c_cur c) (c_par c) (c_links c) (c_sent c) (c_panics c).
(** c.steps[i] = x: profilecollector.go:40-46 *)
Fixpoint put {A} (i : nat) (x : A) (l : list A) : list A := match l, i with [], _ => [] | _ :: r, O => x :: r | y :: r, S j => y :: put j x r end.
(** the slice c.steps points to: profilecollector.go:10-17 *)
Definition arr (a : nat) (c : coll) : list (option nat) := nth a (c_arrays c) [].
(** c.steps[c.pos] = step: profilecollector.go:40-46 *)
Definition store (a i s : nat) (c : coll) : coll := mkColl (put a (put i (Some s) (arr a c)) (c_arrays c)) (c_steps c) (c_pos c) (c_cur c) (c_par c) (c_links c) (c_sent c) (c_panics c).
(** make([]netdata.Step, ...): profilecollector.go:48-58 *)
Definition fresh_slice (keep : nat) (c : coll) : coll := mkColl (c_arrays c ++ [repeat None keep]) (length (c_arrays c)) (c_pos c) (c_cur c) (c_par c) (c_links c) (c_sent c) (c_panics c).
(** SendProfile(steps): profilecollector.go:48-65 *)
Definition add_sent (b : list nat) (c : coll) : coll := mkColl (c_arrays c) (c_steps c) (c_pos c) (c_cur c) (c_par c) (c_links c) (c_sent c ++ [b]) (c_panics c).
(** index out of range in profilecollector.go:40-65 *)
Definition add_panic (c : coll) : coll := mkColl (c_arrays c) (c_steps c) (c_pos c) (c_cur c) (c_par c) (c_links c) (c_sent c) (S (c_panics c)).

(** the first action of a call; profilecollector.go:26-65 *)
Definition begin (o : pop_call) : pc := match o with OAdd s => AIndex s | OPush s => UIndex s | OPop s => OParent s | OClose => CTest end.

(** the next action of a goroutine that is inside a call. [keep], [bulk]: ProfileStepMaxKeepInMemoryCount, ProfileStepMaxCount (constant, positive).
    A batch ends after every [bulk] elements of the slice, counting nil ones (dataproxy.go:219-230). *)
Definition act (keep bulk : nat) (p : pc) (c : coll) : pc * coll :=
  match p with
  | Out => (Out, c)
  | AIndex s => (AParent s, set_index s (c_cur c) c)
  | AParent s => (ALevel s, set_parent s (c_par c) c)
  | ALevel s => (ALevel2 s (c_cur c), c)
  | ALevel2 s v => (RSlice s, set_cur (int32 (v + 1)) c)
  | UIndex s => (UParent s, set_index s (c_cur c) c)
  | UParent s => (UDown s, set_parent s (c_par c) c)
  | UDown s => (UDown2 s (c_cur c), c)
  | UDown2 s v => (ULevel s, set_par v c)
  | ULevel s => (ULevel2 s (c_cur c), c)
  | ULevel2 s v => (Out, set_cur (int32 (v + 1)) c)
  | OParent s => (RSlice s, set_par (snd (c_links c s)) c)
  | RSlice s => (RPos s (c_steps c), c)
  | RPos s a => (RStore s a (c_pos c), c)
  | RStore s a i => if Nat.ltb i (length (arr a c)) then (RInc, store a i s c) else (Out, add_panic c)
  | RInc => (RInc2 (c_pos c), c)
  | RInc2 v => (RTest, set_pos (S v) c)
  | RTest => (RTest2 (c_pos c), c)
  | RTest2 v => if Nat.leb (length (arr (c_steps c) c)) v then (ROld, c) else (Out, c)
  | ROld => (RNew (c_steps c), c)
  | RNew o => (RZero o, fresh_slice keep c)
  | RZero o => (Sending o (length (arr o c)) 0 [], set_pos 0 c)
  | Sending o hi i acc =>
      if Nat.ltb i hi then
        let acc := match nth i (arr o c) None with Some s => acc ++ [s] | None => acc end in
        if Nat.eqb (Nat.modulo (S i) bulk) 0 || Nat.eqb (S i) hi then (Sending o hi (S i) [], add_sent acc c) else (Sending o hi (S i) acc, c)
      else (Out, c)
  | CTest => if Nat.ltb 0 (c_pos c) then (CSlice, c) else (Out, c)
  | CSlice => (CPos (c_steps c), c)
  | CPos o => if Nat.leb (c_pos c) (length (arr o c)) then (Sending o (c_pos c) 0 [], c) else (Out, add_panic c)
  end.

(** goroutines: where each is, and the calls it still has to make; the callers of profilecollector.go:26-65 *)
Record psys := mkPsys { y_coll : coll; y_thr : list (pc * list pop_call) }.
(** the next action of a goroutine in profilecollector.go:26-65 *)
Definition step_thread (keep bulk : nat) (t : pc * list pop_call) (c : coll) : (pc * list pop_call) * coll :=
  match t with
  | (Out, []) => (t, c)
  | (Out, o :: r) => ((begin o, r), c)
  | (p, r) => let '(p', c') := act keep bulk p c in ((p', r), c')
  end.
(** one goroutine moves in profilecollector.go:26-65 *)
Definition sys_step (keep bulk i : nat) (y : psys) : psys :=
  match nth_error (y_thr y) i with
  | None => y
  | Some t => let '(t', c') := step_thread keep bulk t (y_coll y) in mkPsys c' (put i t' (y_thr y))
  end.
(** goroutines in profilecollector.go:26-65, in the order of the schedule *)
Definition sys_run (keep bulk : nat) (sched : list nat) (y : psys) : psys := fold_left (fun y i => sys_step keep bulk i y) sched y.
(** profilecollector.go:19-24 *)
Definition coll0 (keep : nat) : coll := mkColl [repeat None keep] 0 0 0 0 (fun _ => (0, 0)) [] 0.
(** profilecollector.go:19-24, with the callers about to begin *)
Definition psys0 (keep : nat) (progs : list (list pop_call)) : psys := mkPsys (coll0 keep) (map (fun p => (Out, p)) progs).
