(** C71: profiling commands that run at the same time — the run-time settings they change and the files they write.
    M_Profiling.v defines the steps of a job; S_Profiling.v [profiling], [nested], [undisturbed] and [starts]. *)
From Coq Require Import ZifyBool.
From Verif Require Import GoInt L_Codec M_Value M_Dump S_Dump L_Dump M_Tcp M_Profiling S_Profiling L_Profiling.

(** ** The mutex profile fraction *)

(** It is put back once every mutex job is over, if they are nested in time (or do not overlap at all). *)
Theorem C71_mutex_restored_partial block mutex cpu d jobs sched s :
  0 <= mutex -> nested KMutex [] sched (pinit block mutex cpu d jobs) -> s = prun sched (pinit block mutex cpu d jobs) ->
  (forall i, profiling KMutex s i = false) -> p_mutex s = mutex.
Proof.
  intros Hm N -> Off. destruct (nest_run mutex sched [] _ (nest_init block mutex cpu d jobs Hm) N) as (open & _ & _ & _ & C & _).
  destruct open as [|i open]; [exact C|]. exfalso. pose proof (chain_active _ _ _ _ i C (or_introl eq_refl)). rewrite Off in H. discriminate.
Qed.

(** Otherwise the rate of one of the jobs can stay in force for ever: the commands for a text and for a binary profile
    in one session. *)
Definition noon (s : Z) : civil := mk_civil 2024 5 6 12 0 s.
Theorem C71_mutex_refuted :
  ~ (forall home cwd cmds jobs block mutex cpu d sched, starts home cwd cmds jobs -> 0 <= mutex ->
     let s := prun sched (pinit block mutex cpu d jobs) in
     (forall i, profiling KMutex s i = false) -> p_mutex s = mutex).
Proof.
  intros H. set (e := mk_penv false []).
  set (jobs := [mk_pjob KMutex (filepath_join (get_dump_path [] []) (of_string "go_mutex_" ++ stamp (noon 0) ++ of_string ".log")) 10;
                mk_pjob KMutex (filepath_join (get_binary_dump_path [] []) (of_string "go_mutex_" ++ stamp (noon 9) ++ of_string "." ++ suffix)) 5]).
  specialize (H [] [] [(noon 0, TriggerMutexProfile); (noon 9, CallMutexProfile)] jobs 0 0 CpuFree [] [(e, 0%nat); (e, 1%nat); (e, 0%nat); (e, 1%nat)]).
  specialize (H ltac:(repeat constructor; vm_compute; (discriminate || reflexivity)) ltac:(lia)).
  enough (10 = 0) by discriminate. apply H. intros [|[|[|i]]]; reflexivity.
Qed.

(** Whatever the schedule, the fraction is the one at the start or the rate of one of the jobs. *)
Theorem C71_mutex_left block mutex cpu d jobs sched :
  p_mutex (prun sched (pinit block mutex cpu d jobs)) = mutex \/
  In (p_mutex (prun sched (pinit block mutex cpu d jobs))) (map pj_rate jobs).
Proof.
  assert (left_inv mutex (pinit block mutex cpu d jobs)) as I.
  { split; [left; reflexivity|]. intros i j ph old H. unfold pinit in H. cbn [p_jobs] in H. rewrite nth_error_map in H. destruct (nth_error jobs i); [|discriminate]. injection H as <- <-. discriminate. }
  destruct (left_run mutex sched _ (wf_init block mutex cpu d jobs) I) as [[K | K] _]; [left; exact K|right].
  rewrite prun_jobs in K. unfold pinit in K at 2. cbn [p_jobs] in K. rewrite !map_map in K. exact K.
Qed.

(** ** The block profile rate *)

(** Block profiling is off once every block job is over, whatever the schedule, so the agent leaves no overhead
    behind; as long as no block job has begun the rate is the application's. *)
Theorem C71_block_off block mutex cpu d jobs sched s :
  s = prun sched (pinit block mutex cpu d jobs) ->
  ((forall i, profiling KBlock s i = false) ->
   (exists i j ph, nth_error (p_jobs s) i = Some (j, ph) /\ pj_kind j = KBlock /\ ph <> Ready) -> p_block s = 0) /\
  ((forall i j ph, nth_error (p_jobs s) i = Some (j, ph) -> pj_kind j = KBlock -> ph = Ready) -> p_block s = block).
Proof.
  intros ->.
  assert (block_inv block (pinit block mutex cpu d jobs)) as I.
  { left. split; [|reflexivity]. intros (i & j & ph & H & _ & N). unfold pinit in H. cbn [p_jobs] in H. rewrite nth_error_map in H. destruct (nth_error jobs i); [|discriminate]. injection H as _ <-. contradiction. }
  destruct (block_run block sched _ (wf_init block mutex cpu d jobs) I) as [[K1 K2] | [K1 K2]].
  - split; [intros _ B; contradiction|intros _; exact K2].
  - split; [intros Off _|intros R].
    + destruct K2 as [[i Hi] | K2]; [rewrite Off in Hi; discriminate|exact K2].
    + destruct K1 as (i & j & ph & A & B & C). exfalso. exact (C (R _ _ _ A B)).
Qed.
(** but the rate that the application had set is not put back *)
Theorem C71_block_restored_refuted :
  ~ (forall home cwd cmds jobs block mutex cpu d sched, starts home cwd cmds jobs -> 0 <= block ->
     let s := prun sched (pinit block mutex cpu d jobs) in (forall i, profiling KBlock s i = false) -> p_block s = block).
Proof.
  intros H. set (e := mk_penv false []).
  set (jobs := [mk_pjob KBlock (filepath_join (get_dump_path [] []) (of_string "go_block_" ++ stamp (noon 0) ++ of_string ".log")) 1000000]).
  specialize (H [] [] [(noon 0, TriggerBlockProfile)] jobs 1 0 CpuFree [] [(e, 0%nat); (e, 0%nat)]).
  specialize (H ltac:(repeat constructor; vm_compute; (discriminate || reflexivity)) ltac:(lia)).
  enough (0 = 1) by discriminate. apply H. intros [|[|i]]; reflexivity.
Qed.

(** ** The rate a job asks for is in force while it profiles *)

(** ... as long as no other job of its kind begins or ends meanwhile. *)
Theorem C71_in_force_partial block mutex cpu d jobs sched1 e i j sched2 s1 s2 s3 :
  s1 = prun sched1 (pinit block mutex cpu d jobs) -> nth_error (p_jobs s1) i = Some (j, Ready) -> 0 < pj_rate j ->
  s2 = pstep e i s1 -> s3 = prun sched2 s2 ->
  (pj_kind j = KBlock -> undisturbed KBlock i sched2 s2 -> profiling KBlock s3 i = true -> p_block s3 = pj_rate j) /\
  (pj_kind j = KMutex -> undisturbed KMutex i sched2 s2 -> profiling KMutex s3 i = true -> p_mutex s3 = pj_rate j).
Proof.
  intros E1 Hj Hr E2 ->. assert (wf s1) as W by (subst s1; apply wf_run, wf_init). assert (wf s2) as W2 by (subst s2; apply wf_step, W).
  split; intros Ek U P.
  - apply (in_force_run KBlock i (pj_rate j) sched2 ltac:(discriminate) s2 W2); [| |exact U|exact P]; subst s2; unfold pstep; rewrite Hj, Ek.
    + unfold profiling. cbn [p_jobs]. rewrite (job_set_same _ _ _ _ Hj), Ek. reflexivity.
    + cbn [setting p_block]. unfold set_block_rate. destruct (pj_rate j <=? 0) eqn:?; lia.
  - apply (in_force_run KMutex i (pj_rate j) sched2 ltac:(discriminate) s2 W2); [| |exact U|exact P]; subst s2; unfold pstep; rewrite Hj, Ek.
    + unfold profiling. cbn [p_jobs]. rewrite (job_set_same _ _ _ _ Hj), Ek. reflexivity.
    + cbn [setting p_mutex]. unfold set_mutex_fraction. destruct (pj_rate j <? 0) eqn:?; lia.
Qed.
(** Two block profiles that overlap: the one that ends first switches the other off, which goes on without samples. *)
Theorem C71_in_force_refuted :
  ~ (forall home cwd cmds jobs block mutex cpu d sched, starts home cwd cmds jobs ->
     let s := prun sched (pinit block mutex cpu d jobs) in forall i, profiling KBlock s i = true -> 0 < p_block s).
Proof.
  intros H. set (e := mk_penv false []).
  set (jobs := [mk_pjob KBlock (filepath_join (get_dump_path [] []) (of_string "go_block_" ++ stamp (noon 0) ++ of_string ".log")) 1000000;
                mk_pjob KBlock (filepath_join (get_binary_dump_path [] []) (of_string "go_block_" ++ stamp (noon 9) ++ of_string "." ++ suffix)) 1000000]).
  specialize (H [] [] [(noon 0, TriggerBlockProfile); (noon 9, CallBlockProfile)] jobs 0 0 CpuFree [] [(e, 0%nat); (e, 1%nat); (e, 0%nat)]).
  specialize (H ltac:(repeat constructor; vm_compute; (discriminate || reflexivity)) 1%nat eq_refl).
  vm_compute in H. discriminate.
Qed.

(** ** The CPU profiler *)

(** At most one job profiles the CPU at a time, and only that one ends it; a profile run by the application itself is
    never ended by the agent, and when no job profiles, the profiler is as it was. *)
Theorem C71_cpu block mutex cpu d jobs sched s :
  (forall i, cpu <> CpuJob i) -> s = prun sched (pinit block mutex cpu d jobs) ->
  (forall i, profiling KCpu s i = true <-> p_cpu s = CpuJob i) /\
  (forall i k, profiling KCpu s i = true -> profiling KCpu s k = true -> i = k) /\
  (cpu = CpuApp -> p_cpu s = CpuApp) /\
  ((forall i, profiling KCpu s i = false) -> p_cpu s = cpu).
Proof.
  intros Hc ->.
  assert (cpu_inv cpu (pinit block mutex cpu d jobs)) as I.
  { split.
    - intros i. rewrite no_profiling_init. cbn [pinit p_cpu]. split; [intros ->; exfalso; exact (Hc i eq_refl)|discriminate].
    - cbn [pinit p_cpu]. destruct cpu; [left; split; [reflexivity|discriminate]|exfalso; exact (Hc i eq_refl)|right; split; reflexivity]. }
  destruct (cpu_run cpu sched _ (wf_init block mutex cpu d jobs) I) as [A B]. set (s := prun sched _) in *.
  split; [intros i; symmetry; apply A|]. split; [intros i k Hi Hk; apply A in Hi, Hk; congruence|]. split.
  - intros ->. destruct B as [[B _] | [_ B]]; [discriminate|exact B].
  - intros Off. destruct B as [[-> B] | [-> B]]; [|exact B]. destruct (p_cpu s) as [|i|] eqn:E; [reflexivity| |contradiction].
    exfalso. rewrite (proj1 (A i) eq_refl) in Off || (pose proof (proj1 (A i) eq_refl) as X; rewrite Off in X; discriminate).
Qed.

(** ** The files *)

(** Commands that differ, or come in different seconds, write different files; so if the same command does not come twice
    within a second, then at any time the file of a job that has ended holds exactly the profile it was given. *)
Theorem C71_files_partial home cwd cmds jobs block mutex cpu d sched s i j data :
  starts home cwd cmds jobs -> NoDup cmds -> s = prun sched (pinit block mutex cpu d jobs) ->
  nth_error (p_jobs s) i = Some (j, Finished (Some data)) ->
  (exists t, fs_get (clean (pj_file j)) (p_fs s) = Some (mk_file data t)) /\
  (exists e, In (e, i) sched /\ data = concat (pe_profile e)).
Proof.
  intros St ND -> Hj. set (s0 := pinit block mutex cpu d jobs) in *.
  assert (map fst (p_jobs s0) = jobs) as Ej by (unfold s0, pinit; cbn [p_jobs]; rewrite map_map; cbn [fst]; apply map_id).
  assert (alone i s0) as U.
  { intros a b ja jb Ha Hb -> N. rewrite Ej in Ha, Hb. clear - St ND Ha Hb N. unfold starts in St.
    assert (forall k jk, nth_error jobs k = Some jk -> exists t c, nth_error cmds k = Some (t, c) /\ real_time t /\ job_of home cwd t c = Some jk) as K.
    { clear - St. induction St as [|[t c] jk' cmds jobs [R J] St IH]; intros [|k] jk H; cbn in H; try discriminate.
      - injection H as <-. exists t, c. auto.
      - exact (IH k jk H). }
    destruct (K _ _ Ha) as (ta & ca & Ca & Ra & Ja). destruct (K _ _ Hb) as (tb & cb & Cb & Rb & Jb).
    destruct (job_file _ _ _ _ _ Ra Ja) as (Pa & da & Fa). destruct (job_file _ _ _ _ _ Rb Jb) as (Pb & db & Fb).
    intros E. rewrite E, Fb in Fa. apply app_inj_tail in Fa. destruct Fa as [_ Fa]. destruct (base_inj _ _ _ _ Pb Pa Fa) as [-> ->].
    rewrite NoDup_nth_error in ND. apply N. apply ND; [apply nth_error_Some; congruence|congruence]. }
  assert (file_inv [] i s0) as I.
  { intros j0 ph H. unfold s0, pinit in H. cbn [p_jobs] in H. rewrite nth_error_map in H. destruct (nth_error jobs i); [|discriminate]. injection H as _ <-. exact Logic.I. }
  exact (file_run i sched [] s0 U I j (Finished (Some data)) Hj).
Qed.
(** The same command twice in one second: the second profile replaces the first. *)
Theorem C71_same_second_refuted :
  ~ (forall home cwd cmds jobs block mutex cpu d sched i j data, starts home cwd cmds jobs ->
     let s := prun sched (pinit block mutex cpu d jobs) in nth_error (p_jobs s) i = Some (j, Finished (Some data)) ->
     exists t, fs_get (clean (pj_file j)) (p_fs s) = Some (mk_file data t)).
Proof.
  intros H. set (e1 := mk_penv true [[1; 2; 3]]). set (e2 := mk_penv true [[9]]).
  set (j := mk_pjob KMutex (filepath_join (get_dump_path [] []) (of_string "go_mutex_" ++ stamp (noon 0) ++ of_string ".log")) 10).
  set (sched := [(e1, 0%nat); (e2, 1%nat); (e1, 0%nat); (e1, 0%nat); (e1, 0%nat); (e2, 1%nat); (e2, 1%nat); (e2, 1%nat)]).
  specialize (H [] [] [(noon 0, TriggerMutexProfile); (noon 0, TriggerMutexProfile)] [j; j] 0 0 CpuFree [] sched 0%nat j [1; 2; 3]).
  specialize (H ltac:(repeat constructor; vm_compute; (discriminate || reflexivity))).
  destruct H as [t H]; [vm_compute; reflexivity|]. vm_compute in H. discriminate.
Qed.

(** the hypotheses are met: three commands at different seconds, nested, interleaved, all finished *)
Definition case_cmds : list (civil * command) := [(noon 0, TriggerMutexProfile); (noon 3, CallMutexProfile); (noon 3, CallCpuProfile)].
Definition case_env (k : Z) : penv := mk_penv true [[k; k]; [k + 1]].
Definition case_sched : list (penv * nat) :=
  map (fun i => (case_env (Z.of_nat i), i)) [0; 1; 2; 2; 1; 1; 2; 1; 1; 2; 0; 2; 0; 0; 0; 2]%nat.
Example C71_case : exists jobs s, starts [] [] case_cmds jobs /\ NoDup case_cmds /\ nested KMutex [] case_sched (pinit 0 0 CpuFree [] jobs) /\
  s = prun case_sched (pinit 0 0 CpuFree [] jobs) /\ (forall i, profiling KMutex s i = false) /\ p_mutex s = 0 /\ p_cpu s = CpuFree /\
  map snd (p_jobs s) = [Finished (Some [0; 0; 1]); Finished (Some [1; 1; 2]); Finished (Some [2; 2; 3])].
Proof.
  eexists. eexists. split; [repeat constructor; vm_compute; (discriminate || reflexivity)|].
  split; [repeat constructor; cbn; intuition discriminate|]. split; [vm_compute; tauto|]. split; [reflexivity|].
  split; [intros [|[|[|[|i]]]]; vm_compute; reflexivity|]. split; [vm_compute; reflexivity|]. split; vm_compute; reflexivity.
Qed.

Print Assumptions C71_mutex_restored_partial.
Print Assumptions C71_mutex_refuted.
Print Assumptions C71_mutex_left.
Print Assumptions C71_block_off.
Print Assumptions C71_block_restored_refuted.
Print Assumptions C71_in_force_partial.
Print Assumptions C71_in_force_refuted.
Print Assumptions C71_cpu.
Print Assumptions C71_files_partial.
Print Assumptions C71_same_second_refuted.
