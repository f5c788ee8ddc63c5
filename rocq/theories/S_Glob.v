(** Specification: glob patterns, '*' (byte 42) stands for any run of bytes. *)
From Verif Require Import GoInt.

Inductive glob : gostring -> gostring -> Prop :=
| glob_nil : glob [] []
| glob_char c p t : c <> 42 -> glob p t -> glob (c :: p) (c :: t)
| glob_star run p t : glob p t -> glob (42 :: p) (run ++ t).

Definition no_star (s : gostring) : Prop := ~ In 42 s.

(** The pattern shapes documented for the agent (at most one wildcard run between pieces and at
    most two pieces); the pieces contain no '*'. *)
Inductive exact_shape : gostring -> Prop :=
| sh_word s : no_star s -> exact_shape s
| sh_any : exact_shape [42]
| sh_any2 : exact_shape [42; 42]
| sh_prefix s : no_star s -> exact_shape (s ++ [42])
| sh_suffix s : no_star s -> exact_shape (42 :: s)
| sh_infix s : no_star s -> exact_shape (42 :: s ++ [42]).

Inductive two_piece_shape : gostring -> Prop :=
| sh_both s e : no_star s -> no_star e -> two_piece_shape (s ++ 42 :: e)
| sh_str_mid s m : no_star s -> no_star m -> two_piece_shape (s ++ 42 :: m ++ [42])
| sh_mid_end m e : no_star m -> no_star e -> two_piece_shape (42 :: m ++ 42 :: e)
| sh_mid_mid m m2 : no_star m -> no_star m2 -> two_piece_shape (42 :: m ++ 42 :: m2 ++ [42]).
