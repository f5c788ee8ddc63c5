(** What a user of the profile expects, over the sequence of profile operations. *)
From Verif Require Import GoInt M_Steps M_Profile.

(** a step without its place in the profile *)
Definition strip (st : step) : step := set_links 0 0 st.

(** the steps finished by the operations, in the order in which they finish: an added step finishes at once,
    a started (pushed) step when it is ended (popped), with the contents it has then *)
Definition finished (ops : list (penv * prof_op)) : list step :=
  flat_map (fun eo => match snd eo with OPush _ => [] | OPop _ st => [st] | OAdd st => [st] end) ops.

(** the same as positions in start order: the n-th step started has number n *)
Fixpoint finish_order (n : nat) (ops : list (penv * prof_op)) : list nat :=
  match ops with
  | [] => []
  | (_, OPush _) :: r => finish_order (S n) r
  | (_, OAdd _) :: r => n :: finish_order (S n) r
  | (_, OPop a _) :: r => a :: finish_order n r
  end.
(** number of steps started *)
Fixpoint created (ops : list (penv * prof_op)) : nat :=
  match ops with
  | [] => 0
  | (_, OPop _ _) :: r => created r
  | _ :: r => S (created r)
  end.

(** each method is ended at most once, and only after it was started. [n]: steps created so far,
    [opened]: those started and not yet ended *)
Fixpoint each_ended_once (n : nat) (opened : list nat) (ops : list (penv * prof_op)) : Prop :=
  match ops with
  | [] => True
  | (_, OPush _) :: r => each_ended_once (S n) (n :: opened) r
  | (_, OAdd _) :: r => each_ended_once (S n) opened r
  | (_, OPop a _) :: r => In a opened /\ each_ended_once n (remove Nat.eq_dec a opened) r
  end.

(** ends match starts like brackets; [opened] is the stack of methods being executed, innermost first *)
Fixpoint well_nested (n : nat) (opened : list nat) (ops : list (penv * prof_op)) : Prop :=
  match ops with
  | [] => True
  | (_, OPush _) :: r => well_nested (S n) (n :: opened) r
  | (_, OAdd _) :: r => well_nested (S n) opened r
  | (_, OPop a _) :: r => match opened with b :: opened' => a = b /\ well_nested n opened' r | [] => False end
  end.

(** the method enclosing each step, in start order ([None]: outside any method) *)
Fixpoint enclosing (n : nat) (opened : list nat) (ops : list (penv * prof_op)) : list (option nat) :=
  match ops with
  | [] => []
  | (_, OPush _) :: r => hd_error opened :: enclosing (S n) (n :: opened) r
  | (_, OAdd _) :: r => hd_error opened :: enclosing (S n) opened r
  | (_, OPop _ _) :: r => enclosing n (tl opened) r
  end.

(** sensible configuration *)
Definition good_env (e : penv) : Prop := 1 <= e_keep e /\ 1 <= e_bulk e.
