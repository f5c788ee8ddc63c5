(** Specification of a bounded first-in-first-out map, independent of the implementations. *)
From Verif Require Import GoInt.

(** What a client of a cache observes: calls that add a key, and entries leaving the cache. *)
Inductive event :=
| EAdd (k : Z) (v : option Z)
| ELeft (k : Z) (v : option Z).

(** Logs are newest event first. *)

(** The value of [k] after the log: that of the most recent event about [k]. *)
Fixpoint holds (log : list event) (k : Z) : option (option Z) :=
  match log with
  | [] => None
  | EAdd k' v :: older => if k =? k' then Some v else holds older k
  | ELeft k' _ :: older => if k =? k' then None else holds older k
  end.

(** Keys present after the log, in the order in which they were inserted (oldest first): adding a
    present key changes nothing, a leaving key disappears. *)
Fixpoint fifo (log : list event) : list Z :=
  match log with
  | [] => []
  | EAdd k _ :: older => if existsb (Z.eqb k) (fifo older) then fifo older else fifo older ++ [k]
  | ELeft k _ :: older => filter (fun x => negb (x =? k)) (fifo older)
  end.

(** Number of times [k] was inserted (added while absent) and left. *)
Fixpoint inserts (k : Z) (log : list event) : nat :=
  match log with
  | [] => 0
  | EAdd k' _ :: older =>
      (if (k =? k') && match holds older k with None => true | Some _ => false end then 1 else 0) + inserts k older
  | ELeft _ _ :: older => inserts k older
  end.
Fixpoint leaves (k : Z) (log : list event) : nat :=
  match log with
  | [] => 0
  | ELeft k' _ :: older => (if k =? k' then 1 else 0) + leaves k older
  | EAdd _ _ :: older => leaves k older
  end.

(** The bounded FIFO map as a list of entries, oldest first. Adding a present key leaves the map
    unchanged; adding a new key to a full map drops the oldest entry. *)
Definition fmap := list (Z * option Z).
Definition fm_find (k : Z) (m : fmap) : option (Z * option Z) := find (fun e => fst e =? k) m.
Definition fm_add (cap : Z) (k : Z) (v : option Z) (m : fmap) : fmap :=
  match fm_find k m with
  | Some _ => m
  | None => (if zlen m <? cap then m else tl m) ++ [(k, v)]
  end.
Definition fm_remove (k : Z) (m : fmap) : fmap := filter (fun e => negb (fst e =? k)) m.

(** Operations of the map-like caches *)
Inductive mop := MAdd (k : Z) (v : option Z) | MRemove (k : Z) | MClear.
Definition fm_step (cap : Z) (m : fmap) (o : mop) : fmap :=
  match o with
  | MAdd k v => fm_add cap k v m
  | MRemove k => fm_remove k m
  | MClear => []
  end.
Definition fm_run (cap : Z) (ops : list mop) : fmap := fold_left (fm_step cap) ops [].
