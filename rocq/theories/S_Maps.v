(** Specification for C96. *)
From Verif Require Import GoInt M_Maps.

(** the goroutine is inside the map, to change it or not *)
Definition inside (t : xthread) (m : mapid) (w : bool) : Prop := In (m, w) (x_in t).
(** two goroutines inside one map, one of them changing it: what the Go run time answers with a fatal error *)
Definition clash (ts : list xthread) : Prop :=
  exists before t between u after m w w', ts = before ++ t :: between ++ u :: after /\ inside t m w /\ inside u m w' /\ (w = true \/ w' = true).
