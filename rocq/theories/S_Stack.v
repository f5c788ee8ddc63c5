(** Specification for C101: what a panic report should say about the place of the panic. *)
From Verif Require Import GoInt M_Stack S_Util S_Alert.

(** [file] is the last part of [path] *)
Definition file_in (path file : gostring) : Prop := ~ In 47 file /\ (path = file \/ exists dir, path = dir ++ 47 :: file).
(** a line about a function: name, file and line number *)
Definition line_about (f : frame) (t : gostring) : Prop :=
  exists file ln, file_in (fr_path f) file /\ shows (fr_line f) ln /\ t = fr_name f ++ [32] ++ file ++ [58] ++ ln.
Fixpoint on_lines (ls : list gostring) : gostring := match ls with [] => [] | [l] => l | l :: r => l ++ [10] ++ on_lines r end.
(** [t] has one line for each of [fs], in their order *)
Definition tells_of (fs : list frame) (t : gostring) : Prop := exists ls, Forall2 line_about fs ls /\ t = on_lines ls.

(** the functions with a name among the first [n] callers *)
Fixpoint named (l : list (option frame)) : list frame :=
  match l with [] => [] | Some f :: r => match fr_name f with [] => named r | _ => f :: named r end | None :: r => named r end.
Definition innermost (n : Z) (callers : list (option frame)) : list frame := named (firstn (Z.to_nat n) callers).

(** names that Go gives: no space and no line end; files without line ends *)
Definition ordinary (f : frame) : Prop := fr_name f <> [] /\ ~ In 32 (fr_name f) /\ ~ In 10 (fr_name f) /\ ~ In 10 (fr_path f).
(** where a frame is *)
Definition same_place (f g : frame) : Prop := fr_name f = fr_name g /\ (forall file, file_in (fr_path f) file <-> file_in (fr_path g) file) /\ fr_line f = fr_line g.
