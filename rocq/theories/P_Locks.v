(** C85: the agent's locks. *)
From Verif Require Import GoInt M_Locks S_Locks L_Locks.

(** whatever goroutines call whatever operations of the agent, in whatever order they run, they are never deadlocked *)
Theorem C85_no_deadlock callers n ts : lsteps n (l_programs callers) ts -> ~ deadlocked ts.
Proof.
  intros R (N & S). apply N. intros t Ht. unfold done. destruct (l_todo t) eqn:E; [reflexivity|]. exfalso.
  destruct (progress ts (good_steps _ _ _ R (good_start callers))) as (ts' & St); [exists t; split; [exact Ht|rewrite E; discriminate]|]. exact (S ts' St).
Qed.
(** and every schedule comes to an end: all calls return *)
Theorem C85_all_return callers : exists bound, forall n ts, lsteps n (l_programs callers) ts -> (n <= bound)%nat /\ ((forall ts', ~ lstep ts ts') -> all_done ts).
Proof.
  exists (total (l_programs callers)). intros n ts R. pose proof (steps_bounded _ _ _ (good_start callers) R) as B. split; [lia|]. intros S t Ht. unfold done. destruct (l_todo t) eqn:E; [reflexivity|]. exfalso.
  destruct (progress ts (good_steps _ _ _ R (good_start callers))) as (ts' & St); [exists t; split; [exact Ht|rewrite E; discriminate]|]. exact (S ts' St).
Qed.
(** a lock held for writing is held by nobody else *)
Theorem C85_exclusion callers n before t between u after l : lsteps n (l_programs callers) (before ++ t :: between ++ u :: after) ->
  (has_alone l t -> ~ has l u) /\ (has_alone l u -> ~ has l t).
Proof.
  intros R. pose proof (apart_steps _ _ _ R (good_start callers) (apart_start callers)) as A. apply all_apart_app in A as (_ & A & _). cbn [all_apart] in A. destruct A as (A & _).
  rewrite Forall_forall in A. destruct (A u ltac:(apply in_or_app; right; left; reflexivity) l) as (A1 & A2 & A3). split; intros Hw Hh; apply has_alone_ex in Hw; apply has_some in Hh; rewrite Hw in *; cbn in *.
  - apply orb_prop in Hh as [Hh|Hh]; rewrite Hh in *; discriminate.
  - apply orb_prop in Hh as [Hh|Hh]; rewrite Hh in *; cbn in *; discriminate.
Qed.

(** ** A busy moment: a reload that announces a new name meets the first use of the sampler, a listing, metering and the descriptions *)
Definition busy_callers : list (list agent_op) :=
  [[GRefresh 3 true (Some (Some (false, First, First)))]; [GSampler First; GMeter First]; [GActiveList 2; GActiveSet]; [GDescriptions; GText false JustDone Done; GInit First false JustDone Done]].
(** the sampler waits for the observers while the reload holds the configuration and the observers *)
Fixpoint l_run (sched : list nat) (ts : list lthread) : list lthread :=
  match sched with
  | [] => ts
  | i :: r => match nth_error ts i with Some t => match l_advance ts t with Some t' => l_run r (firstn i ts ++ t' :: skipn (S i) ts) | None => l_run r ts end | None => l_run r ts end
  end.
Lemma l_run_steps sched : forall n a ts, lsteps n a ts -> exists m, lsteps m a (l_run sched ts).
Proof.
  induction sched as [|i sched IH]; intros n a ts R; [exists n; exact R|]. cbn [l_run]. destruct (nth_error ts i) as [t|] eqn:E; [|exact (IH _ _ _ R)]. destruct (l_advance ts t) as [t'|] eqn:A; [|exact (IH _ _ _ R)].
  apply (IH (S n)). eapply lsteps_S; [exact R|]. apply nth_error_split in E as (l1 & l2 & -> & <-). assert (firstn (length l1) (l1 ++ t :: l2) = l1) as -> by (rewrite firstn_app, firstn_all, Nat.sub_diag; apply app_nil_r).
  assert (skipn (S (length l1)) (l1 ++ t :: l2) = l2) as ->. { rewrite skipn_app, skipn_all2 by lia. replace (S (length l1) - length l1)%nat with 1%nat by lia. reflexivity. } apply lstep_at. exact A.
Qed.
Definition busy_state : list lthread := l_run (repeat 0%nat 9 ++ repeat 1%nat 4) (l_programs busy_callers).
Example C85_case : (exists n, lsteps n (l_programs busy_callers) busy_state) /\
  map l_held busy_state = [[(KObservers, false); (KConf, true)]; [(KSamplerOnce, true)]; []; []] /\ map l_wait busy_state = [None; Some KObservers; None; None].
Proof. split; [eapply l_run_steps; apply lsteps_0|]. split; vm_compute; reflexivity. Qed.

(** ** The order matters: if the sampler registered itself in the other order (observers first) and a reload asked for the sampler, they could block each other *)
Definition crossed : list lthread := [mkLT (under KSamplerOnce (under KObservers [])) [] None; mkLT (under_shared KObservers (under KSamplerOnce [])) [] None].
Example crossed_deadlocks : exists n ts, lsteps n crossed ts /\ deadlocked ts.
Proof.
  destruct (l_run_steps [0; 0; 1; 0; 1]%nat 0 crossed crossed (lsteps_0 _)) as (n & R). eexists n, _. split; [exact R|]. split.
  - intros D. specialize (D _ (or_introl eq_refl)). vm_compute in D. discriminate.
  - vm_compute. intros ts' St. inversion St as [l1 t l2 t' A E1 E2]. destruct l1 as [|x [|y [|z l1]]]; injection E1; intros; subst; vm_compute in A; discriminate.
Qed.

Print Assumptions C85_no_deadlock.
Print Assumptions C85_all_return.
Print Assumptions C85_exclusion.
