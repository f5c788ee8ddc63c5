(** Property C96: the agent's goroutines never meet in a map that one of them is changing. *)
From Verif Require Import GoInt M_Locks S_Locks L_Locks P_Locks M_Maps S_Maps L_Maps.
From Coq Require Import Lia.

(** Whatever the goroutines do and however they are scheduled, two are never inside the same map with one of them changing it. *)
Theorem C96_no_clash callers ts : xsteps (x_programs callers) ts -> ~ clash ts.
Proof.
  intros R (before & t & between & u & after & m & w & w' & -> & It & Iu & W).
  destruct (x_lockers _ _ R) as [n L]. rewrite map_app in L. cbn [map] in L. rewrite map_app in L. cbn [map] in L.
  pose proof (C85_exclusion _ _ _ _ _ _ _ (lock_of m) L) as [E1 E2].
  pose proof (guarded_steps _ _ R (guarded_start callers)) as G. apply Forall_app in G as [_ G].
  inversion G as [|? ? Gt G1]; subst. apply Forall_app in G1 as [_ G1]. inversion G1 as [|? ? Gu _]; subst.
  apply guarded_ins in Gt, Gu. rewrite Forall_forall in Gt, Gu. specialize (Gt _ It). specialize (Gu _ Iu). unfold guards in Gt, Gu. cbn [fst snd] in Gt, Gu.
  assert (has (lock_of m) (as_locker t)) as Ht by (destruct Gt as [Gt|[_ Gt]]; eexists; exact Gt).
  assert (has (lock_of m) (as_locker u)) as Hu by (destruct Gu as [Gu|[_ Gu]]; eexists; exact Gu).
  destruct W as [-> | ->].
  - destruct Gt as [Gt|[F _]]; [|discriminate F]. exact (E1 Gt Hu).
  - destruct Gu as [Gu|[F _]]; [|discriminate F]. exact (E2 Gu Ht).
Qed.

(** The maps do not change which locks are taken: these are the goroutines of C85, which therefore never deadlock. *)
Theorem C96_no_deadlock callers ts : xsteps (x_programs callers) ts -> (exists t, In t ts /\ x_todo t <> []) -> exists ts', xstep ts ts'.
Proof.
  intros R (t & It & Nt). destruct (x_lockers _ _ R) as [n L].
  assert (forall t, In t ts -> (exists m w r, x_todo t = XEnter m w :: r) \/ (exists m r, x_todo t = XLeave m :: r) \/ x_todo t = [] \/ exists a r, x_todo t = XLock a :: r) as Cases.
  { intros v _. destruct (x_todo v) as [|[a|m w|m] r]; eauto 8. }
  assert ((exists v, In v ts /\ ((exists m w r, x_todo v = XEnter m w :: r) \/ (exists m r, x_todo v = XLeave m :: r))) \/
          (forall v, In v ts -> x_todo v = [] \/ exists a r, x_todo v = XLock a :: r)) as [(v & Iv & Hv)|All].
  { clear - Cases. induction ts as [|v ts IH]; [right; intros v []|]. destruct (Cases v (or_introl eq_refl)) as [H|[H|H]].
    - left. exists v. split; [left; reflexivity|left; exact H].
    - left. exists v. split; [left; reflexivity|right; exact H].
    - destruct IH as [(w & Iw & Hw)|All]; [intros w Iw; apply Cases; right; exact Iw|left; exists w; split; [right; exact Iw|exact Hw]|].
      right. intros w [<- |Iw]; [exact H|apply All; exact Iw]. }
  - apply in_split in Iv as (l1 & l2 & ->). destruct Hv as [(m & w & r & E)|(m & r & E)].
    + exists (l1 ++ mkXT r (x_held v) (x_wait v) ((m, w) :: x_in v) :: l2). apply xstep_at. unfold x_advance. rewrite E. reflexivity.
    + exists (l1 ++ mkXT r (x_held v) (x_wait v) (x_leave m (x_in v)) :: l2). apply xstep_at. unfold x_advance. rewrite E. reflexivity.
  - destruct (progress (map as_locker ts) (good_steps _ _ _ L (good_start _))) as (ls & St).
    { exists (as_locker t). split; [apply in_map; exact It|]. unfold as_locker. cbn [l_todo]. destruct (All t It) as [E|(a & r & E)]; [contradiction|]. rewrite E. discriminate. }
    inversion St as [b u a u' A E1 E2].
    assert (exists l1 v l2, ts = l1 ++ v :: l2 /\ as_locker v = u) as (l1 & v & l2 & -> & Eu).
    { assert (In u (map as_locker ts)) as Iu by (rewrite <- E1; apply in_or_app; right; left; reflexivity). apply in_map_iff in Iu as (v & Ev & Iv).
      apply in_split in Iv as (l1 & l2 & ->). exists l1, v, l2. split; [reflexivity|exact Ev]. }
    assert (In v (l1 ++ v :: l2)) as Iv by (apply in_or_app; right; left; reflexivity).
    destruct (All v Iv) as [E|(x & r & E)].
    { exfalso. rewrite <- Eu in A. unfold l_advance, as_locker in A. cbn [l_todo] in A. rewrite E in A. cbn in A. discriminate A. }
    rewrite E1, <- Eu in A. eexists. apply xstep_at. unfold x_advance. rewrite E, A. reflexivity.
Qed.

(** ** A reload, two text lookups, a listing and a new service at once *)
Definition crowd : list (list map_op) :=
  [[QRefresh 2 true None 1]; [QText 0 (Miss ANew) Done Done]; [QText 0 Hit Done Done]; [QActiveList 11 2; QActiveEnd 11 true]; [QDescriptions 3; QSampler First]].
Fixpoint x_run (sched : list nat) (ts : list xthread) : list xthread :=
  match sched with
  | [] => ts
  | i :: r => match nth_error ts i with Some t => match x_advance ts t with Some t' => x_run r (firstn i ts ++ t' :: skipn (S i) ts) | None => x_run r ts end | None => x_run r ts end
  end.
Lemma x_run_steps sched : forall a ts, xsteps a ts -> xsteps a (x_run sched ts).
Proof.
  induction sched as [|i sched IH]; intros a ts R; [exact R|]. cbn [x_run]. destruct (nth_error ts i) as [t|] eqn:E; [|exact (IH _ _ R)]. destruct (x_advance ts t) as [t'|] eqn:A; [|exact (IH _ _ R)].
  apply IH. eapply xsteps_S; [exact R|]. apply nth_error_split in E as (l1 & l2 & -> & <-). assert (firstn (length l1) (l1 ++ t :: l2) = l1) as -> by (rewrite firstn_app, firstn_all, Nat.sub_diag; apply app_nil_r).
  assert (skipn (S (length l1)) (l1 ++ t :: l2) = l2) as ->. { rewrite skipn_app, skipn_all2 by lia. replace (S (length l1) - length l1)%nat with 1%nat by lia. reflexivity. } apply xstep_at. exact A.
Qed.
(** two readers in the dictionary and one in the active services, while a reload changes the descriptions *)
Example C96_readers : exists ts, xsteps (x_programs crowd) ts /\ map x_in ts = [[(MDesc, true)]; [(MTable 0, false)]; [(MTable 0, false)]; [(MTable 11, false)]; []].
Proof. exists (x_run ([0; 0; 0; 0; 0; 0; 0] ++ [1; 1; 2; 2; 3; 3])%nat (x_programs crowd)). split; [apply x_run_steps, xsteps_0|vm_compute; reflexivity]. Qed.
(** a writer in the dictionary; the other one waits outside *)
Example C96_writer : exists ts, xsteps (x_programs crowd) ts /\ map x_in ts = [[]; [(MTable 0, true)]; []; []; [(MDesc, false)]].
Proof. exists (x_run ([1; 1; 1; 1; 1; 1; 1; 1; 1; 2; 2; 3; 3; 4; 4])%nat (x_programs crowd)). split; [apply x_run_steps, xsteps_0|vm_compute; reflexivity]. Qed.
(** without the lock the run time's fatal error is reached *)
Example unguarded_clash : exists ts, xsteps [mkXT (looks (MTable 0)) [] None []; mkXT (changes (MTable 0)) [] None []] ts /\ clash ts.
Proof.
  exists (x_run [0; 1]%nat [mkXT (looks (MTable 0)) [] None []; mkXT (changes (MTable 0)) [] None []]). split; [apply x_run_steps, xsteps_0|].
  exists [], (mkXT [XLeave (MTable 0)] [] None [(MTable 0, false)]), [], (mkXT [XLeave (MTable 0)] [] None [(MTable 0, true)]), [], (MTable 0), false, true.
  split; [reflexivity|]. split; [left; reflexivity|]. split; [left; reflexivity|right; reflexivity].
Qed.

Print Assumptions C96_no_clash.
Print Assumptions C96_no_deadlock.
