(** What is assumed of, and expected from, goroutines that share the service meter. *)
From Verif Require Import GoInt M_Meter M_MeterConc S_Meter.

(** no goroutine stays inside Add for 301 seconds *)
Fixpoint prompt (sched : list (Z * nat)) (s : mconc) : Prop :=
  match sched with
  | [] => True
  | (cur, i) :: sched' =>
      (forall j t pos e r k, nth_error (c_threads s) j = Some (AIn t pos e r k) -> cur < t + 301) /\ prompt sched' (mstep cur i s)
  end.

(** the samples of the calls of Add that have returned *)
Fixpoint returned (ts : list mthread) : list sample :=
  match ts with
  | [] => []
  | ADone e r :: ts' => (e, r) :: returned ts'
  | _ :: ts' => returned ts'
  end.

(** nobody is inside Add *)
Definition no_add (s : mconc) : Prop := forall j t pos e r k, nth_error (c_threads s) j <> Some (AIn t pos e r k).
