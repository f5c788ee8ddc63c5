(** Specification for C85. *)
From Verif Require Import GoInt M_Locks.

Definition done (t : lthread) : Prop := l_todo t = [].
Definition all_done (ts : list lthread) : Prop := forall t, In t ts -> done t.
(** no goroutine can move, though some have not finished *)
Definition deadlocked (ts : list lthread) : Prop := ~ all_done ts /\ forall ts', ~ lstep ts ts'.
(** holds the lock: alone, or at all *)
Definition has_alone (l : lockid) (t : lthread) : Prop := In (l, true) (l_held t).
Definition has (l : lockid) (t : lthread) : Prop := exists x, In (l, x) (l_held t).
