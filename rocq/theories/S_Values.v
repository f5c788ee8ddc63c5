(** Specification for C84: what a listing made while the cache changes may show. [cs]: the states of the cache from the call to the return. *)
From Verif Require Import GoInt M_Cache.

Definition held (c : lra) (k : key) (v : value) : Prop := lra_contains c k = true /\ lra_get c k = v.
Definition throughout (cs : list lra) (k : key) (v : value) : Prop := forall c, In c cs -> held c k v.
Definition sometime (cs : list lra) (k : key) (v : value) : Prop := exists c, In c cs /\ held c k v.
(** how often a value is listed *)
Definition times (v : value) (l : list value) : nat := length (filter (fun x => match x, v with Some a, Some b => a =? b | None, None => true | _, _ => false end) l).
