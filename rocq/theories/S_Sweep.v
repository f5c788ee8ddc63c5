(** GetActiveCount as the ledger of S_Ledger.v sees it when it looks at all running services: each of them that runs for too long is
    marked and ended, the others are left as they are. This makes the ledger of a history exact, where S_Ledger.v leaves open which of
    the services that run for too long are ended. *)
From Verif Require Import GoInt M_Sampler M_Trace S_Ledger S_Trace.
From Coq Require Import Permutation.

Definition overdue (n : env) (c : account) : bool :=
  negb (over c) && cf_stuck_remove (n_conf n) && (cf_stuck_ms (n_conf n) <? Z.quot (span (num_of c NStart) (n_now n)) 1000000).
Definition swept (n : env) (c : account) : account := if overdue n c then becomes (ends_now (marked_stuck n c)) else c.
Definition swept_report (n : env) (h : nat) (c : account) : list report :=
  if overdue n c then match reported (ends_now (marked_stuck n c)) with Some c' => [mkRep h c' n] | None => [] end else [].
Fixpoint swept_reports (n : env) (h : nat) (l : ledger) : list report :=
  match l with [] => [] | c :: r => swept_report n h c ++ swept_reports n (S h) r end.

(** one call, and a history of calls; the services that one count ends are reported in any order *)
Definition exact_step (n : env) (k : call) (l : ledger) (r : res) (l' : ledger) (rs : list report) : Prop :=
  match k with
  | KActiveCount => l' = map (swept n) l /\ Permutation rs (swept_reports n 0 l)
  | _ => ledger_call n k l = (l', r, rs)
  end.
Inductive exact_run : ledger -> list (env * call) -> list res -> ledger -> list report -> Prop :=
| exact_nil l : exact_run l [] [] l []
| exact_cons l n k ops r res l1 rs1 l2 rs2 : exact_step n k l r l1 rs1 -> exact_run l1 ops res l2 rs2 ->
    exact_run l ((n, k) :: ops) (r :: res) l2 (rs1 ++ rs2).

(** what the counts that end services find (C49): distinct transaction ids, at most 10000 running services so far (the size of the table)
    and at most 2000 when counting *)
Definition checks_fit (c : sconf) (ops : list (env * call)) : Prop := forall p n q, ops = p ++ (n, KActiveCount) :: q ->
  cf_stuck_remove (n_conf n) = true ->
  NoDup (txids (after c p)) /\ (forall p1 p2, p = p1 ++ p2 -> running_count (after c p1) <= 10000) /\ running_count (after c p) <= 2000.
