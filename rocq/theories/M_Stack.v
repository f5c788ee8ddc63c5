(** scouterx/dump/dump.go:23-51 StackTrace, the stack in the agent's panic reports (scouterx/common/panic.go:17-23). *)
From Verif Require Import GoInt M_Util.

(** what runtime.FuncForPC says of a program counter: the function's name and FuncForPC(pc).FileLine(pc); dump.go:36-38 *)
Record frame := mkFrame { fr_name : gostring; fr_path : gostring; fr_line : Z }.

(** the file part of path.Split: what is behind the last slash; dump.go:39 *)
Fixpoint split_file (p : gostring) : gostring := match p with [] => [] | b :: r => if existsb (Z.eqb 47) p then split_file r else p end.

(** one turn of the loop; FuncForPC is nil ([None]) for a zero or unknown program counter; dump.go:35-47 *)
Definition write_frame (sb : gostring) (e : option frame) : gostring :=
  match e with
  | Some f =>
      match fr_name f with
      | [] => sb
      | _ => match sb with
             | [] => fr_name f ++ 32 :: split_file (fr_path f) ++ 58 :: format_int 10 (fr_line f)
             | _ => sb ++ 10 :: fr_name f ++ 32 :: split_file (fr_path f) ++ 58 :: format_int 10 (fr_line f)
             end
      end
  | None => sb
  end.

(** dump.go:23-51 StackTrace; [callers]: the program counters of the calling goroutine from StackTrace itself on. [None]: make with a
    negative length panics. The entries of pc behind those that runtime.Callers filled are zero. *)
Definition stack_trace (count : Z) (callers : list (option frame)) : option gostring :=
  let pcLen := if count =? 0 then 1 else count in
  if pcLen <? 0 then None else
  let got := firstn (Z.to_nat pcLen) callers in
  if zlen got <? 1 then Some [] else
  Some (fold_left write_frame (got ++ repeat None (Z.to_nat pcLen - length got)) []).
