(** Specification vocabulary for the primitive codecs. *)
From Verif Require Import GoInt.

(** [v] fits in [n] bytes two's complement; zero bytes hold only 0. *)
Definition fits (n v : Z) : Prop :=
  (n = 0 /\ v = 0) \/ (0 < n /\ - 2 ^ (8 * n - 1) <= v < 2 ^ (8 * n - 1)).

(** the length classes of the decimal format *)
Definition length_class (n : Z) : Prop := n = 0 \/ n = 1 \/ n = 2 \/ n = 4 \/ n = 8.

(** [bs] is the big-endian two's complement encoding of [v]: reading its bytes as base-256 digits,
    most significant first, gives [v] modulo 256^(number of bytes). *)
Fixpoint digits (bs : bytes) (acc : Z) : Z :=
  match bs with [] => acc | b :: bs' => digits bs' (256 * acc + b) end.
Definition big_endian (bs : bytes) (v : Z) : Prop :=
  Forall is_byte bs /\ (digits bs 0 - v) mod 256 ^ zlen bs = 0.
