(** Specification for C99: calls of a cache answered one at a time. *)
From Verif Require Import GoInt S_Cache.

(** the calls, and what they answer *)
Inductive ask := AddA (k : Z) (v : option Z) | RemoveA (k : Z) | ClearA | GetA (k : Z) | ContainsA (k : Z) | EmptyA | SizeA | ValuesA.
Inductive reply := Nothing | Value (v : option Z) | Yes (b : bool) | Count (n : Z) | All (vs : list (option Z)) | Panicked.

(** A cache as a list of entries, oldest first. Adding a key that is there: the first value stays ... *)
Definition first_wins (cap k : Z) (v : option Z) (m : fmap) : fmap := fm_add cap k v m.
(** ... or the last one replaces it where it is; capacity 0 stands for no limit. *)
Definition last_wins (cap k : Z) (v : option Z) (m : fmap) : fmap :=
  match fm_find k m with
  | Some _ => map (fun e => if fst e =? k then (k, v) else e) m
  | None => (if (cap =? 0) || (zlen m <? cap) then m else tl m) ++ [(k, v)]
  end.

Definition answer (put : Z -> option Z -> fmap -> fmap) (m : fmap) (a : ask) : fmap * reply :=
  match a with
  | AddA k v => (put k v m, Nothing)
  | RemoveA k => (fm_remove k m, Nothing)
  | ClearA => ([], Nothing)
  | GetA k => (m, Value (match fm_find k m with Some e => snd e | None => None end))
  | ContainsA k => (m, Yes (match fm_find k m with Some _ => true | None => false end))
  | EmptyA => (m, Yes (match m with [] => true | _ => false end))
  | SizeA => (m, Count (zlen m))
  | ValuesA => (m, All (filter (fun v => match v with Some _ => true | None => false end) (map snd m)))
  end.
(** every call of the log has the answer it has when the calls are made one at a time in that order *)
Fixpoint one_at_a_time (put : Z -> option Z -> fmap -> fmap) (m : fmap) (log : list (ask * reply)) : Prop :=
  match log with
  | [] => True
  | (a, r) :: log' => r = snd (answer put m a) /\ one_at_a_time put (fst (answer put m a)) log'
  end.

Definition is_size (a : ask) : bool := match a with SizeA => true | _ => false end.
(** what a set offers *)
Definition set_call (a : ask) : Prop := match a with RemoveA _ | GetA _ | ValuesA => False | _ => True end.
