(** Goroutines ending one service at the same time: tracemain.go:347-398. Each goroutine executes, in any interleaving
    with the others, the accesses to tctx.Closed and the contribution to the meter:
      P0  endAnyService reads Closed (line 352); the stuck-service removal (line 358) starts at P1
      P1  endAnyServiceOfTraceContext reads Closed (line 374)
      P2  it sets Closed (line 377)
      P3  it adds the sample and decides on the xlog (lines 379-397)
    Each access is one atomic step (sequential consistency; Go promises less to racing code). *)
From Verif Require Import GoInt M_Trace.

(** where a goroutine is in tracemain.go:373-398 *)
Inductive pc := P0 | P1 | P2 | P3 | PDone.
(** tracecontext.go:12 Closed, the service meter, and the callers of tracemain.go:373-398 *)
Record cstate := mkC { c_closed : bool; c_samples : nat; c_pcs : list pc }.

(** tracemain.go:347-398, the next step of goroutine [i] *)
Definition cstep (i : nat) (s : cstate) : cstate :=
  let go p := list_set (c_pcs s) i p in
  match nth_error (c_pcs s) i with
  | Some P0 => mkC (c_closed s) (c_samples s) (go (if c_closed s then PDone else P1))
  | Some P1 => mkC (c_closed s) (c_samples s) (go (if c_closed s then PDone else P2))
  | Some P2 => mkC true (c_samples s) (go P3)
  | Some P3 => mkC (c_closed s) (S (c_samples s)) (go PDone)
  | Some PDone | None => s
  end.
(** goroutines in tracemain.go:373-398, in the order of the schedule *)
Definition crun (sched : list nat) (s : cstate) : cstate := fold_left (fun s i => cstep i s) sched s.
(** [n] goroutines call EndService on one running service; tracemain.go:225-228 *)
Definition cinit (n : nat) : cstate := mkC false 0 (repeat P0 n).
