(** The number of the running goroutine: scouterx/common/panic.go:25-36. *)
From Verif Require Import GoInt M_Util M_StrMatch M_Conf.

(** strings.TrimPrefix; panic.go:25-35 *)
Definition trim_prefix (s p : gostring) : gostring := if has_prefix s p then skipn (length p) s else s.
(** white space in ASCII. strings.Fields also knows U+0085, U+00A0 and the spaces above U+00FF, left out: the text up to the number is ASCII. panic.go:25-35 *)
Definition is_space (c : Z) : bool := (9 <=? c) && (c <=? 13) || (c =? 32).
(** strings.Fields: white space before the first field; panic.go:25-35 *)
Fixpoint skip_space (s : gostring) : gostring := match s with c :: s' => if is_space c then skip_space s' else s | [] => [] end.
(** strings.Fields: the first field; panic.go:25-35 *)
Fixpoint to_space (s : gostring) : gostring := match s with c :: s' => if is_space c then [] else c :: to_space s' | [] => [] end.
(** strings.Fields(s)[0]; [None]: index out of range; panic.go:25-35 *)
Definition first_field (s : gostring) : option gostring := match to_space (skip_space s) with [] => None | f => Some f end.

(** panic.go:26-35; [stack] is the whole text of runtime.Stack, which fills at most the 64 bytes given to it; strconv.Atoi is ParseInt for 64 bits. [None]: panic. *)
Definition goid_text (stack : bytes) : option Z :=
  match first_field (trim_prefix (firstn 64 stack) (of_string "goroutine ")) with
  | None => None
  | Some f => parse_int64 f
  end.
(** panic.go:25-36 Goid: after a recovered panic its result is the zero value *)
Definition goid (stack : bytes) : Z := match goid_text stack with Some z => z | None => 0 end.
