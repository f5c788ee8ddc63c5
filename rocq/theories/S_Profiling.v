(** What is expected of profiling jobs that run at the same time. *)
From Verif Require Import GoInt M_Dump M_Tcp M_Profiling.

(** job [i] profiles [k] at the moment: it has changed the setting and not yet undone that *)
Definition profiling (k : pkind) (s : pstate) (i : nat) : bool :=
  match nth_error (p_jobs s) i with
  | Some (j, Sleeping _) | Some (j, Writing _ _ _) =>
      match pj_kind j, k with KBlock, KBlock | KMutex, KMutex | KCpu, KCpu => true | _, _ => false end
  | _ => false
  end.

(** The jobs of one kind are nested in time: a job ends only after those of its kind that began after it. [open]: the jobs
    under way, the youngest first. One job at a time is a special case. *)
Fixpoint nested (k : pkind) (open : list nat) (sched : list (penv * nat)) (s : pstate) : Prop :=
  match sched with
  | [] => True
  | (e, i) :: l =>
      let s' := pstep e i s in
      match profiling k s i, profiling k s' i with
      | false, true => nested k (i :: open) l s'
      | true, false => match open with j :: open' => j = i /\ nested k open' l s' | [] => False end
      | _, _ => nested k open l s'
      end
  end.

(** no job of kind [k] but [i] begins or ends *)
Fixpoint undisturbed (k : pkind) (i : nat) (sched : list (penv * nat)) (s : pstate) : Prop :=
  match sched with
  | [] => True
  | (e, i') :: l => (i' <> i -> profiling k s i' = profiling k (pstep e i' s) i') /\ undisturbed k i l (pstep e i' s)
  end.

(** a time that Go can show with four-digit years *)
Definition real_time (t : civil) : Prop :=
  0 <= c_year t <= 9999 /\ 1 <= c_month t <= 12 /\ 1 <= c_day t <= 31 /\ 0 <= c_hour t <= 23 /\ 0 <= c_minute t <= 59 /\ 0 <= c_second t <= 59.

(** a command and the second at which it arrives *)
Definition starts (home cwd : gostring) (cmds : list (civil * command)) (jobs : list pjob) : Prop :=
  Forall2 (fun tc j => real_time (fst tc) /\ job_of home cwd (fst tc) (snd tc) = Some j) cmds jobs.
