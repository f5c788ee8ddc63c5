(** What the counter reports should say, in terms of the services that ran (S_Ledger.v, S_Trace.v) and of windows of time (S_Meter.v). *)
From Verif Require Import GoInt M_Value M_Packs M_Access M_Meter M_Trace M_Tasks S_Meter S_Trace S_Ledger.

(** The tracing calls of an execution; each report of the 2-second loop counts the active services *)
Definition op_of (t : task) : list (env * call) :=
  match t with TCall n k => [(n, k)] | TReal n _ _ => [(n, KActiveCount)] | TFive _ _ => [] end.
Definition ops_of (ts : list task) : list (env * call) := flat_map op_of ts.
(** the environment of a task *)
Definition task_env (t : task) : env := match t with TCall n _ | TReal n _ _ | TFive n _ => n end.
(** the second in which a call is made or a loop wakes up; times are nanosecond counts since 1970 *)
Definition second (n : env) : Z := n_now n / 1000000000.
(** the clock readings, in seconds since 1970 *)
Definition clock (ts : list task) : list (Z * unit) := map (fun t => (second (task_env t), tt)) ts.

(** The services that ended: when, the milliseconds they took, whether they failed *)
Definition finished (reps : list report) : list (Z * (Z * bool)) :=
  map (fun r => (second (r_env r), (ms (r_env r) (r_acc r), negb (num_of (r_acc r) NError =? 0)))) reps.

(** The numbers of running services that the 2-second loop saw, and when; [pre]: the tracing calls before *)
Fixpoint watched (c : M_Sampler.sconf) (pre : list (env * call)) (ts : list task) : list (Z * Z) :=
  match ts with
  | [] => []
  | t :: ts' =>
      match t with TReal n _ _ => [(second n, running_count (after c pre))] | _ => [] end ++ watched c (pre ++ op_of t) ts'
  end.

(** The packs that the loops should send: the object and the kind of the counters (1: real time, 3: five minutes) *)
Definition due (t : task) : list (gostring * Z) :=
  match t with TCall _ _ => [] | TReal _ _ obj => [(obj, 1)] | TFive _ obj => [(obj, 3)] end.
Definition label (p : pack) : gostring * Z := match p with PPerf q => (pc_ObjName q, pc_Timetype q) | _ => ([], 0) end.
