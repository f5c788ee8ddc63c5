(** Lemmas for P_Profiling.v *)
From Coq Require Import ZifyBool.
From Verif Require Import GoInt L_Codec M_Dump S_Dump L_Dump M_Tcp M_Profiling S_Profiling.

(** ** the job list *)
Lemma job_set_split l i old t : nth_error l i = Some old -> exists l1 l2, l = l1 ++ old :: l2 /\ job_set l i t = l1 ++ t :: l2 /\ length l1 = i.
Proof.
  intros H. destruct (nth_error_split l i H) as (l1 & l2 & -> & L). exists l1, l2. split; [reflexivity|]. split; [|exact L]. subst i.
  unfold job_set. rewrite firstn_app, firstn_all, Nat.sub_diag. cbn [firstn]. rewrite app_nil_r.
  rewrite skipn_app, skipn_all2 by lia. replace (S (length l1) - length l1)%nat with 1%nat by lia. reflexivity.
Qed.
Lemma job_set_same l i old t : nth_error l i = Some old -> nth_error (job_set l i t) i = Some t.
Proof.
  intros H. destruct (job_set_split l i old t H) as (l1 & l2 & _ & -> & <-). rewrite nth_error_app2, Nat.sub_diag by lia. reflexivity.
Qed.
Lemma job_set_other l i j old t : nth_error l i = Some old -> j <> i -> nth_error (job_set l i t) j = nth_error l j.
Proof.
  intros H N. destruct (job_set_split l i old t H) as (l1 & l2 & -> & -> & <-).
  destruct (Nat.lt_ge_cases j (length l1)) as [Hl|Hl]; [rewrite !nth_error_app1 by lia; reflexivity|].
  rewrite !nth_error_app2 by lia. destruct (j - length l1)%nat as [|d] eqn:E; [lia|]. reflexivity.
Qed.

(** ** one step, as a relation *)
Definition active (ph : phase) : option Z := match ph with Sleeping o | Writing o _ _ => Some o | _ => None end.
Inductive moves (e : penv) (i : nat) (j : pjob) (s : pstate) : phase -> phase -> Z -> Z -> cpu_user -> fs -> Prop :=
| mv_block : pj_kind j = KBlock -> moves e i j s Ready (Sleeping (-1)) (set_block_rate (pj_rate j)) (p_mutex s) (p_cpu s) (p_fs s)
| mv_mutex : pj_kind j = KMutex -> moves e i j s Ready (Sleeping (p_mutex s)) (p_block s) (set_mutex_fraction (pj_rate j) (p_mutex s)) (p_cpu s) (p_fs s)
| mv_open : pj_kind j = KCpu -> pe_creatable e = true -> moves e i j s Ready Opened (p_block s) (p_mutex s) (p_cpu s) (fs_create (pj_file j) (p_fs s))
| mv_nofile : pj_kind j = KCpu -> pe_creatable e = false -> moves e i j s Ready (Finished None) (p_block s) (p_mutex s) (p_cpu s) (p_fs s)
| mv_cpu : p_cpu s = CpuFree -> moves e i j s Opened (Sleeping 0) (p_block s) (p_mutex s) (CpuJob i) (p_fs s)
| mv_busy : p_cpu s <> CpuFree -> moves e i j s Opened (Finished None) (p_block s) (p_mutex s) (p_cpu s) (p_fs s)
| mv_wake_cpu old : pj_kind j = KCpu -> moves e i j s (Sleeping old) (Writing old (pe_profile e) []) (p_block s) (p_mutex s) (p_cpu s) (p_fs s)
| mv_wake old : pj_kind j <> KCpu -> pe_creatable e = true ->
    moves e i j s (Sleeping old) (Writing old (pe_profile e) []) (p_block s) (p_mutex s) (p_cpu s) (fs_create (pj_file j) (p_fs s))
| mv_giveup old : pj_kind j <> KCpu -> pe_creatable e = false ->
    moves e i j s (Sleeping old) (Finished None) (p_block (restore (pj_kind j) old s)) (p_mutex (restore (pj_kind j) old s)) (p_cpu s) (p_fs s)
| mv_write old c todo done : moves e i j s (Writing old (c :: todo) done) (Writing old todo (done ++ [c])) (p_block s) (p_mutex s) (p_cpu s)
    (fs_pwrite (pj_file j) (length (concat done)) c (p_fs s))
| mv_end old done : moves e i j s (Writing old [] done) (Finished (Some (concat done)))
    (p_block (restore (pj_kind j) old s)) (p_mutex (restore (pj_kind j) old s)) (p_cpu (restore (pj_kind j) old s)) (p_fs s).

Lemma pstep_moves e i s : pstep e i s = s \/
  exists j ph ph' b m c d, nth_error (p_jobs s) i = Some (j, ph) /\ moves e i j s ph ph' b m c d /\
    pstep e i s = mkP b m c d (job_set (p_jobs s) i (j, ph')).
Proof.
  unfold pstep. destruct (nth_error (p_jobs s) i) as [[j ph]|] eqn:En; [|left; reflexivity].
  assert (forall ph' b m c d, moves e i j s ph ph' b m c d ->
    exists j0 ph0 ph0' b0 m0 c0 d0, Some (j, ph) = Some (j0, ph0) /\ moves e i j0 s ph0 ph0' b0 m0 c0 d0 /\
      mkP b m c d (job_set (p_jobs s) i (j, ph')) = mkP b0 m0 c0 d0 (job_set (p_jobs s) i (j0, ph0'))) as K.
  { intros ph' b m c d M. exists j, ph, ph', b, m, c, d. split; [reflexivity|]. split; [exact M|reflexivity]. }
  destruct ph as [| |old|old [|c todo] done|w]; cbn [p_block p_mutex p_cpu p_fs p_jobs].
  - right. destruct (pj_kind j) eqn:Ek; [apply K; constructor; exact Ek|apply K; constructor; exact Ek|].
    destruct (pe_creatable e) eqn:Ec; apply K; constructor; assumption.
  - right. destruct (p_cpu s) eqn:Ec; [apply K; constructor; exact Ec| |]; apply K; rewrite <- Ec; constructor; congruence.
  - right. destruct (pj_kind j) eqn:Ek; (destruct (pe_creatable e) eqn:Ec).
    + apply K. apply mv_wake; congruence.
    + apply K. pose proof (mv_giveup e i j s old ltac:(congruence) Ec) as M. rewrite Ek in M. exact M.
    + apply K. apply mv_wake; congruence.
    + apply K. pose proof (mv_giveup e i j s old ltac:(congruence) Ec) as M. rewrite Ek in M. exact M.
    + apply K. apply mv_wake_cpu; congruence.
    + apply K. apply mv_wake_cpu; congruence.
  - right. pose proof (mv_end e i j s old done) as M. destruct (pj_kind j); apply K; exact M.
  - right. apply K. constructor.
  - left. reflexivity.
Qed.

Lemma pstep_jobs e i s : map fst (p_jobs (pstep e i s)) = map fst (p_jobs s).
Proof.
  destruct (pstep_moves e i s) as [-> | (j & ph & ph' & b & m & c & d & En & _ & ->)]; [reflexivity|]. cbn [p_jobs].
  destruct (job_set_split _ _ _ (j, ph') En) as (l1 & l2 & -> & -> & _). rewrite !map_app. reflexivity.
Qed.
Lemma prun_jobs sched : forall s, map fst (p_jobs (prun sched s)) = map fst (p_jobs s).
Proof. induction sched as [|[e i] l IH]; intros s; cbn [prun]; [reflexivity|]. rewrite IH. apply pstep_jobs. Qed.
Lemma pstep_other e i k s : k <> i -> nth_error (p_jobs (pstep e i s)) k = nth_error (p_jobs s) k.
Proof.
  intros N. destruct (pstep_moves e i s) as [-> | (j & ph & ph' & b & m & c & d & En & _ & ->)]; [reflexivity|]. cbn [p_jobs].
  apply (job_set_other _ _ _ _ _ En N).
Qed.

Definition same_kind (a b : pkind) : bool := match a, b with KBlock, KBlock | KMutex, KMutex | KCpu, KCpu => true | _, _ => false end.
Lemma same_kind_eq a b : same_kind a b = true <-> a = b.
Proof. destruct a, b; cbn; split; congruence. Qed.
Lemma profiling_iff k s i : profiling k s i = true <-> exists j ph old, nth_error (p_jobs s) i = Some (j, ph) /\ pj_kind j = k /\ active ph = Some old.
Proof.
  unfold profiling. split.
  - destruct (nth_error (p_jobs s) i) as [[j ph]|]; [|discriminate].
    destruct ph as [| |old|old todo done|w]; try discriminate; intros H; exists j; eexists; exists old; (split; [reflexivity|]); (split; [|reflexivity]); destruct (pj_kind j), k; congruence.
  - intros (j & ph & old & -> & <- & A). destruct ph; try discriminate; destruct (pj_kind j); reflexivity.
Qed.
Lemma profiling_at k s i j ph : nth_error (p_jobs s) i = Some (j, ph) ->
  profiling k s i = same_kind (pj_kind j) k && match active ph with Some _ => true | None => false end.
Proof. intros H. unfold profiling. rewrite H. destruct ph; cbn [active]; destruct (pj_kind j), k; reflexivity. Qed.
Lemma profiling_other k e i i' s : i' <> i -> profiling k (pstep e i s) i' = profiling k s i'.
Proof. intros N. unfold profiling. rewrite (pstep_other _ _ _ _ N). reflexivity. Qed.

(** ** the phases a job can be in *)
Definition wf (s : pstate) : Prop := forall i j, nth_error (p_jobs s) i = Some (j, Opened) -> pj_kind j = KCpu.
Lemma wf_init b m c d jobs : wf (pinit b m c d jobs).
Proof.
  intros i j H. unfold pinit in H. cbn [p_jobs] in H. rewrite nth_error_map in H. destruct (nth_error jobs i); discriminate.
Qed.
Lemma wf_step e i s : wf s -> wf (pstep e i s).
Proof.
  intros W. destruct (pstep_moves e i s) as [-> | (j & ph & ph' & b & m & c & d & En & M & ->)]; [exact W|].
  intros k j' H. cbn [p_jobs] in H. destruct (Nat.eq_dec k i) as [-> | N].
  - rewrite (job_set_same _ _ _ _ En) in H. injection H as <- ->. inversion M; assumption.
  - rewrite (job_set_other _ _ _ _ _ En N) in H. exact (W _ _ H).
Qed.
Lemma wf_run sched : forall s, wf s -> wf (prun sched s).
Proof. induction sched as [|[e i] l IH]; intros s W; cbn [prun]; [exact W|]. apply IH, wf_step, W. Qed.
Lemma moves_opened e i j s ph' b m c d : wf s -> nth_error (p_jobs s) i = Some (j, Opened) -> moves e i j s Opened ph' b m c d -> pj_kind j = KCpu.
Proof. intros W En _. exact (W _ _ En). Qed.

(** ** mutex fraction *)
Lemma frac_set_nonneg r m : 0 <= m -> 0 <= set_mutex_fraction r m.
Proof. unfold set_mutex_fraction. destruct (r <? 0) eqn:?; lia. Qed.

(** the jobs under way, the youngest first: each keeps the setting it found *)
Fixpoint chain (m0 cur : Z) (open : list nat) (s : pstate) : Prop :=
  match open with
  | [] => cur = m0
  | i :: rest => exists j ph old, nth_error (p_jobs s) i = Some (j, ph) /\ pj_kind j = KMutex /\ active ph = Some old /\ 0 <= old /\
      cur = set_mutex_fraction (pj_rate j) old /\ chain m0 old rest s
  end.
Definition nest_inv (m0 : Z) (open : list nat) (s : pstate) : Prop :=
  wf s /\ 0 <= p_mutex s /\ NoDup open /\ chain m0 (p_mutex s) open s /\ (forall i, profiling KMutex s i = true -> In i open).

Lemma chain_other m0 e i s : forall open cur, ~ In i open -> chain m0 cur open s -> chain m0 cur open (pstep e i s).
Proof.
  induction open as [|k rest IH]; intros cur N C; cbn [chain] in *; [exact C|].
  destruct C as (j & ph & old & A & B & D & E & F & G). exists j, ph, old. split; [rewrite pstep_other by (intros ->; apply N; left; reflexivity); exact A|].
  split; [exact B|]. split; [exact D|]. split; [exact E|]. split; [exact F|]. apply IH; [|exact G]. intros H. apply N. right. exact H.
Qed.
Lemma chain_active m0 s : forall open cur i, chain m0 cur open s -> In i open -> profiling KMutex s i = true.
Proof.
  induction open as [|k rest IH]; intros cur i C H; cbn [chain In] in *; [contradiction|].
  destruct C as (j & ph & old & A & B & D & _ & _ & G). destruct H as [<- | H]; [|exact (IH _ _ G H)].
  apply profiling_iff. exists j, ph, old. auto.
Qed.
Lemma chain_same m0 e i j ph ph' s old : nth_error (p_jobs s) i = Some (j, ph) -> nth_error (p_jobs (pstep e i s)) i = Some (j, ph') ->
  active ph = Some old -> active ph' = Some old -> forall open cur, chain m0 cur open s -> chain m0 cur open (pstep e i s).
Proof.
  intros En En' A A'. induction open as [|k rest IH]; intros cur C; cbn [chain] in *; [exact C|].
  destruct C as (j1 & ph1 & old1 & B & D & E & F & G & H). destruct (Nat.eq_dec k i) as [-> | N].
  - rewrite En in B. injection B as <- <-. rewrite A in E. injection E as <-. exists j, ph', old. split; [exact En'|]. split; [exact D|]. split; [exact A'|]. split; [exact F|]. split; [exact G|]. apply IH. exact H.
  - exists j1, ph1, old1. split; [rewrite pstep_other by exact N; exact B|]. split; [exact D|]. split; [exact E|]. split; [exact F|]. split; [exact G|]. apply IH. exact H.
Qed.

Lemma nest_step m0 e i s open : nest_inv m0 open s ->
  match profiling KMutex s i, profiling KMutex (pstep e i s) i with
  | false, true => nest_inv m0 (i :: open) (pstep e i s)
  | true, false => match open with j :: open' => j = i -> nest_inv m0 open' (pstep e i s) | [] => True end
  | _, _ => nest_inv m0 open (pstep e i s)
  end.
Proof.
  intros (W & P & ND & C & A). pose proof (wf_step e i s W) as W'.
  destruct (pstep_moves e i s) as [Es | (j & ph & ph' & b & m & c & d & En & M & Es)].
  { rewrite Es. destruct (profiling KMutex s i); unfold nest_inv; auto. }
  assert (nth_error (p_jobs (pstep e i s)) i = Some (j, ph')) as En' by (rewrite Es; apply (job_set_same _ _ _ _ En)).
  assert (p_mutex (pstep e i s) = m) as Em by (rewrite Es; reflexivity).
  rewrite (profiling_at KMutex s i j ph En), (profiling_at KMutex (pstep e i s) i j ph' En').
  assert (forall k, profiling KMutex (pstep e i s) k = true -> k = i \/ profiling KMutex s k = true) as A'.
  { intros k Hk. destruct (Nat.eq_dec k i) as [-> | N]; [left; reflexivity|]. right. rewrite profiling_other in Hk by exact N. exact Hk. }
  assert (forall o, ph' = o -> active o = None \/ pj_kind j <> KMutex -> profiling KMutex (pstep e i s) i = false) as Off.
  { intros o -> Ho. rewrite (profiling_at KMutex (pstep e i s) i j o En'). destruct Ho as [-> | Ho]; [apply Bool.andb_false_r|]. destruct (pj_kind j); [reflexivity|contradiction|reflexivity]. }
  assert (profiling KMutex s i = false -> profiling KMutex (pstep e i s) i = false -> m = p_mutex s -> nest_inv m0 open (pstep e i s)) as Quiet.
  { intros Q1 Q2 Q3. assert (~ In i open) as Ni by (intros Hin; pose proof (chain_active _ _ _ _ _ C Hin); congruence).
    split; [exact W'|]. rewrite Em, Q3. split; [exact P|]. split; [exact ND|]. split; [apply chain_other; assumption|].
    intros k Hk. destruct (A' k Hk) as [-> | Hk']; [congruence|exact (A _ Hk')]. }
  assert (forall old, active ph = Some old -> active ph' = Some old -> m = p_mutex s -> nest_inv m0 open (pstep e i s)) as Goes.
  { intros old Q1 Q2 Q3. split; [exact W'|]. rewrite Em, Q3. split; [exact P|]. split; [exact ND|]. split; [exact (chain_same _ _ _ _ _ _ _ _ En En' Q1 Q2 _ _ C)|].
    intros k Hk. destruct (A' k Hk) as [-> | Hk']; [|exact (A _ Hk')]. apply A. apply profiling_iff in Hk. destruct Hk as (j1 & ph1 & old1 & B1 & B2 & B3).
    rewrite En' in B1. injection B1 as <- <-. apply profiling_iff. exists j, ph, old. auto. }
  assert (forall old, active ph = Some old -> active ph' = None -> pj_kind j = KMutex -> m = set_mutex_fraction old (p_mutex s) ->
    match open with k :: open' => k = i -> nest_inv m0 open' (pstep e i s) | [] => True end) as Ends.
  { intros old Q1 Q2 Q3 Q4. destruct open as [|k open']; [exact I|]. intros ->. cbn [chain] in C. destruct C as (j1 & ph1 & old1 & B1 & B2 & B3 & B4 & B5 & B6).
    rewrite En in B1. injection B1 as <- <-. rewrite Q1 in B3. injection B3 as <-. apply NoDup_cons_iff in ND. destruct ND as [Nin ND'].
    assert (set_mutex_fraction old (p_mutex s) = old) as Eo by (unfold set_mutex_fraction; destruct (old <? 0) eqn:?; lia).
    split; [exact W'|]. rewrite Em, Q4, Eo. split; [exact B4|]. split; [exact ND'|]. split; [apply chain_other; assumption|].
    intros k Hk. destruct (A' k Hk) as [-> | Hk']; [rewrite (Off _ eq_refl (or_introl Q2)) in Hk; discriminate|]. destruct (A _ Hk') as [<- | Hin]; [rewrite (Off _ eq_refl (or_introl Q2)) in Hk; discriminate|exact Hin]. }
  destruct M; cbn [active] in *; rewrite ?Bool.andb_false_r, ?Bool.andb_true_r.
  - rewrite H. cbn [same_kind]. apply Quiet; [rewrite (profiling_at _ _ _ _ _ En); rewrite H; reflexivity|apply (Off _ eq_refl); right; congruence|reflexivity].
  - rewrite H. cbn [same_kind andb]. assert (profiling KMutex s i = false) as Q by (rewrite (profiling_at _ _ _ _ _ En); rewrite H; reflexivity).
    assert (~ In i open) as Ni by (intros Hin; pose proof (chain_active _ _ _ _ _ C Hin); congruence).
    split; [exact W'|]. rewrite Em. split; [apply frac_set_nonneg, P|]. split; [constructor; assumption|]. split.
    + cbn [chain]. exists j, (Sleeping (p_mutex s)), (p_mutex s). split; [exact En'|]. split; [exact H|]. split; [reflexivity|]. split; [exact P|]. split; [reflexivity|]. apply chain_other; assumption.
    + intros k Hk. destruct (A' k Hk) as [-> | Hk']; [left; reflexivity|right; exact (A _ Hk')].
  - apply Quiet; [rewrite (profiling_at _ _ _ _ _ En); apply Bool.andb_false_r|apply (Off _ eq_refl); left; reflexivity|reflexivity].
  - apply Quiet; [rewrite (profiling_at _ _ _ _ _ En); apply Bool.andb_false_r|apply (Off _ eq_refl); left; reflexivity|reflexivity].
  - rewrite (W _ _ En). cbn [same_kind]. apply Quiet; [rewrite (profiling_at _ _ _ _ _ En); apply Bool.andb_false_r|apply (Off _ eq_refl); right; rewrite (W _ _ En); discriminate|reflexivity].
  - apply Quiet; [rewrite (profiling_at _ _ _ _ _ En); apply Bool.andb_false_r|apply (Off _ eq_refl); left; reflexivity|reflexivity].
  - destruct (same_kind (pj_kind j) KMutex); apply (Goes old); reflexivity.
  - destruct (same_kind (pj_kind j) KMutex); apply (Goes old); reflexivity.
  - destruct (pj_kind j) eqn:Ek; cbn [same_kind restore p_mutex] in *.
    + apply Quiet; [rewrite (profiling_at _ _ _ _ _ En), Ek; reflexivity|apply (Off _ eq_refl); left; reflexivity|reflexivity].
    + apply (Ends old); reflexivity.
    + contradiction.
  - destruct (same_kind (pj_kind j) KMutex); apply (Goes old); reflexivity.
  - destruct (pj_kind j) eqn:Ek; cbn [same_kind restore p_mutex] in *.
    + apply Quiet; [rewrite (profiling_at _ _ _ _ _ En), Ek; reflexivity|apply (Off _ eq_refl); left; reflexivity|reflexivity].
    + apply (Ends old); reflexivity.
    + apply Quiet; [rewrite (profiling_at _ _ _ _ _ En), Ek; reflexivity|apply (Off _ eq_refl); left; reflexivity|reflexivity].
Qed.

Lemma nest_run m0 sched : forall open s, nest_inv m0 open s -> nested KMutex open sched s -> exists open', nest_inv m0 open' (prun sched s).
Proof.
  induction sched as [|[e i] l IH]; intros open s I N; cbn [prun nested] in *; [exists open; exact I|].
  pose proof (nest_step m0 e i s open I) as St.
  destruct (profiling KMutex s i), (profiling KMutex (pstep e i s) i); try exact (IH _ _ St N).
  destruct open as [|k open']; [contradiction|]. destruct N as [-> N]. exact (IH _ _ (St eq_refl) N).
Qed.
Lemma no_profiling_init k b m c d jobs i : profiling k (pinit b m c d jobs) i = false.
Proof. unfold profiling, pinit. cbn [p_jobs]. rewrite nth_error_map. destruct (nth_error jobs i); reflexivity. Qed.
Lemma nest_init b m c d jobs : 0 <= m -> nest_inv m [] (pinit b m c d jobs).
Proof.
  intros H. split; [apply wf_init|]. split; [exact H|]. split; [constructor|]. split; [reflexivity|]. intros i Hi. rewrite no_profiling_init in Hi. discriminate.
Qed.

(** ** mutex fraction, any schedule *)
Definition known (m0 : Z) (s : pstate) (v : Z) : Prop := v = m0 \/ In v (map pj_rate (map fst (p_jobs s))).
Definition left_inv (m0 : Z) (s : pstate) : Prop :=
  known m0 s (p_mutex s) /\ forall i j ph old, nth_error (p_jobs s) i = Some (j, ph) -> pj_kind j = KMutex -> active ph = Some old -> known m0 s old.
Lemma left_step m0 e i s : wf s -> left_inv m0 s -> left_inv m0 (pstep e i s).
Proof.
  intros W [A B]. unfold left_inv, known in *. rewrite !pstep_jobs.
  destruct (pstep_moves e i s) as [-> | (j & ph & ph' & b & m & c & d & En & M & ->)]; [split; assumption|]. cbn [p_mutex p_jobs].
  assert (forall r v, v = m0 \/ In v (map pj_rate (map fst (p_jobs s))) -> r = m0 \/ In r (map pj_rate (map fst (p_jobs s))) ->
     set_mutex_fraction r v = m0 \/ In (set_mutex_fraction r v) (map pj_rate (map fst (p_jobs s)))) as K.
  { intros r v Hv Hr. unfold set_mutex_fraction. destruct (r <? 0); assumption. }
  assert (In (pj_rate j) (map pj_rate (map fst (p_jobs s)))) as Hr.
  { apply in_map. exact (in_map fst _ _ (nth_error_In _ _ En)). }
  split.
  - inversion M; subst; try exact A.
    + apply K; [exact A|right; exact Hr].
    + destruct (pj_kind j) eqn:Ek; cbn [restore p_mutex]; [exact A| |exact A]. apply K; [exact A|]. exact (B _ _ _ _ En Ek eq_refl).
    + destruct (pj_kind j) eqn:Ek; cbn [restore p_mutex]; [exact A| |exact A]. apply K; [exact A|]. exact (B _ _ _ _ En Ek eq_refl).
  - intros k j1 ph1 old1 Hk Ek Ha. destruct (Nat.eq_dec k i) as [-> | N]; [|rewrite (job_set_other _ _ _ _ _ En N) in Hk; exact (B _ _ _ _ Hk Ek Ha)].
    rewrite (job_set_same _ _ _ _ En) in Hk. injection Hk as <- <-. inversion M; subst; cbn [active] in Ha; try discriminate; injection Ha as <-; try congruence.
    + rewrite (W _ _ En) in Ek. discriminate.
    + exact (B _ _ _ _ En Ek eq_refl).
    + exact (B _ _ _ _ En Ek eq_refl).
Qed.
Lemma left_run m0 sched : forall s, wf s -> left_inv m0 s -> left_inv m0 (prun sched s).
Proof. induction sched as [|[e i] l IH]; intros s W I; cbn [prun]; [exact I|]. apply IH; [apply wf_step, W|apply left_step; assumption]. Qed.

(** ** block rate *)
Definition begun (k : pkind) (s : pstate) : Prop := exists i j ph, nth_error (p_jobs s) i = Some (j, ph) /\ pj_kind j = k /\ ph <> Ready.
Definition block_inv (b0 : Z) (s : pstate) : Prop :=
  (~ begun KBlock s /\ p_block s = b0) \/ (begun KBlock s /\ ((exists i, profiling KBlock s i = true) \/ p_block s = 0)).
Lemma block_step b0 e i s : wf s -> block_inv b0 s -> block_inv b0 (pstep e i s).
Proof.
  intros W I. unfold block_inv in *.
  destruct (pstep_moves e i s) as [Es | (j & ph & ph' & b & m & c & d & En & M & Es)]; [rewrite Es; exact I|].
  assert (nth_error (p_jobs (pstep e i s)) i = Some (j, ph')) as En' by (rewrite Es; apply (job_set_same _ _ _ _ En)).
  assert (p_block (pstep e i s) = b) as Eb by (rewrite Es; reflexivity).
  assert (pj_kind j <> KBlock -> b = p_block s -> block_inv b0 (pstep e i s)) as Other.
  { intros Hj Hb. assert (begun KBlock (pstep e i s) <-> begun KBlock s) as Bg.
    { split; intros (k & j1 & ph1 & A1 & A2 & A3).
      - destruct (Nat.eq_dec k i) as [-> | N]; [rewrite En' in A1; injection A1 as <- _; contradiction|]. rewrite pstep_other in A1 by exact N. exists k, j1, ph1. auto.
      - assert (k <> i) as N by (intros ->; rewrite En in A1; injection A1 as <- _; contradiction). exists k, j1, ph1. split; [rewrite pstep_other by exact N; exact A1|auto]. }
    destruct I as [[I1 I2] | [I1 I2]].
    - left. split; [rewrite Bg; exact I1|]. rewrite Eb, Hb. exact I2.
    - right. split; [rewrite Bg; exact I1|]. destruct I2 as [[k Hk] | I2]; [left|right; rewrite Eb, Hb; exact I2].
      exists k. assert (k <> i) as N by (intros ->; rewrite (profiling_at _ _ _ _ _ En) in Hk; destruct (pj_kind j); cbn in Hk; congruence).
      rewrite profiling_other by exact N. exact Hk. }
  assert (pj_kind j = KBlock -> ph' <> Ready -> (match active ph' with Some _ => True | None => b = 0 end) -> block_inv b0 (pstep e i s)) as Own.
  { intros Hj Hr Ha. right. split; [exists i, j, ph'; auto|]. destruct (active ph') as [o|] eqn:Ea; [left|right; congruence].
    exists i. apply profiling_iff. exists j, ph', o. auto. }
  fold (block_inv b0 (pstep e i s)).
  destruct M.
  - apply Own; [assumption|discriminate|exact Logic.I].
  - apply Other; [congruence|reflexivity].
  - apply Other; [congruence|reflexivity].
  - apply Other; [congruence|reflexivity].
  - apply Other; [rewrite (W _ _ En); discriminate|reflexivity].
  - apply Other; [rewrite (W _ _ En); discriminate|reflexivity].
  - apply Other; [congruence|reflexivity].
  - destruct (pj_kind j) eqn:Ek; [apply Own; [reflexivity|discriminate|exact Logic.I]|apply Other; [discriminate|reflexivity]|apply Other; [discriminate|reflexivity]].
  - destruct (pj_kind j) eqn:Ek; cbn [restore p_block] in *; [apply Own; [reflexivity|discriminate|reflexivity]|apply Other; [discriminate|reflexivity]|apply Other; [discriminate|reflexivity]].
  - destruct (pj_kind j) eqn:Ek; [apply Own; [reflexivity|discriminate|exact Logic.I]|apply Other; [discriminate|reflexivity]|apply Other; [discriminate|reflexivity]].
  - destruct (pj_kind j) eqn:Ek; cbn [restore p_block] in *; [apply Own; [reflexivity|discriminate|reflexivity]|apply Other; [discriminate|reflexivity]|apply Other; [discriminate|reflexivity]].
Qed.
Lemma block_run b0 sched : forall s, wf s -> block_inv b0 s -> block_inv b0 (prun sched s).
Proof. induction sched as [|[e i] l IH]; intros s W I; cbn [prun]; [exact I|]. apply IH; [apply wf_step, W|apply block_step; assumption]. Qed.

(** ** in force while undisturbed *)
Definition setting (k : pkind) (s : pstate) : Z := match k with KBlock => p_block s | _ => p_mutex s end.
Lemma setting_kept k e i s : wf s -> k <> KCpu -> profiling k s i = profiling k (pstep e i s) i -> setting k (pstep e i s) = setting k s.
Proof.
  intros W Hk. destruct (pstep_moves e i s) as [-> | (j & ph & ph' & b & m & c & d & En & M & Es)]; [reflexivity|].
  assert (nth_error (p_jobs (pstep e i s)) i = Some (j, ph')) as En' by (rewrite Es; apply (job_set_same _ _ _ _ En)).
  rewrite (profiling_at _ _ _ _ _ En), (profiling_at _ _ _ _ _ En'). rewrite Es. cbn [setting p_block p_mutex].
  destruct k; [| |contradiction]; cbn [setting p_block p_mutex];
  inversion M; subst; cbn [active]; rewrite ?Bool.andb_false_r, ?Bool.andb_true_r; intros Hq; try reflexivity; destruct (pj_kind j); cbn in *; congruence.
Qed.
Definition over (i : nat) (s : pstate) : Prop := exists j w, nth_error (p_jobs s) i = Some (j, Finished w).
Lemma over_step e i i' s : over i s -> over i (pstep e i' s).
Proof.
  intros (j & w & H). destruct (Nat.eq_dec i i') as [<- | N].
  - exists j, w. unfold pstep. rewrite H. exact H.
  - exists j, w. rewrite pstep_other by exact N. exact H.
Qed.
Lemma over_run sched i : forall s, over i s -> over i (prun sched s).
Proof. induction sched as [|[e i'] l IH]; intros s O; cbn [prun]; [exact O|]. apply IH, over_step, O. Qed.
Lemma ends_over k e i s : profiling k s i = true -> profiling k (pstep e i s) i = false -> over i (pstep e i s).
Proof.
  intros A B. apply profiling_iff in A. destruct A as (j & ph & old & En & Ek & Ea).
  destruct (pstep_moves e i s) as [Es | (j1 & ph1 & ph' & b & m & c & d & En1 & M & Es)].
  { rewrite Es in B. rewrite (profiling_at _ _ _ _ _ En), Ek, Ea in B. destruct k; discriminate. }
  rewrite En in En1. injection En1 as <- <-.
  assert (nth_error (p_jobs (pstep e i s)) i = Some (j, ph')) as En' by (rewrite Es; apply (job_set_same _ _ _ _ En)).
  rewrite (profiling_at _ _ _ _ _ En'), Ek in B. inversion M; subst; cbn [active] in *; try discriminate; try (destruct (pj_kind j); discriminate); eexists; eexists; exact En'.
Qed.
Lemma over_idle k i s : over i s -> profiling k s i = false.
Proof. intros (j & w & H). rewrite (profiling_at _ _ _ _ _ H). apply Bool.andb_false_r. Qed.
Lemma in_force_run k i v sched : k <> KCpu -> forall s, wf s -> profiling k s i = true -> setting k s = v -> undisturbed k i sched s ->
  profiling k (prun sched s) i = true -> setting k (prun sched s) = v.
Proof.
  intros Hk. induction sched as [|[e i'] l IH]; intros s W P S U F; cbn [prun undisturbed] in *; [exact S|]. destruct U as [U1 U2].
  destruct (Nat.eq_dec i' i) as [-> | N].
  - destruct (profiling k (pstep e i s) i) eqn:Ep.
    + apply IH; [apply wf_step, W|exact Ep| |exact U2|exact F]. rewrite setting_kept by (assumption || congruence). exact S.
    + pose proof (over_idle k i _ (over_run l i _ (ends_over k e i s P Ep))). congruence.
  - apply IH; [apply wf_step, W| | |exact U2|exact F]; [rewrite profiling_other by congruence; exact P|].
    rewrite setting_kept by (assumption || exact (U1 N)). exact S.
Qed.

(** ** CPU profiler *)
Definition cpu_inv (c0 : cpu_user) (s : pstate) : Prop :=
  (forall i, p_cpu s = CpuJob i <-> profiling KCpu s i = true) /\ ((c0 = CpuFree /\ p_cpu s <> CpuApp) \/ (c0 = CpuApp /\ p_cpu s = CpuApp)).
Lemma cpu_step c0 e i s : wf s -> cpu_inv c0 s -> cpu_inv c0 (pstep e i s).
Proof.
  intros W [A B]. destruct (pstep_moves e i s) as [Es | (j & ph & ph' & b & m & c & d & En & M & Es)]; [rewrite Es; split; assumption|].
  assert (nth_error (p_jobs (pstep e i s)) i = Some (j, ph')) as En' by (rewrite Es; apply (job_set_same _ _ _ _ En)).
  assert (p_cpu (pstep e i s) = c) as Ec by (rewrite Es; reflexivity).
  assert (c = p_cpu s -> profiling KCpu (pstep e i s) i = profiling KCpu s i -> cpu_inv c0 (pstep e i s)) as Same.
  { intros Q1 Q2. unfold cpu_inv. rewrite Ec, Q1. split; [|exact B]. intros k. rewrite A. destruct (Nat.eq_dec k i) as [-> | N]; [rewrite Q2; reflexivity|]. rewrite profiling_other by exact N. reflexivity. }
  pose proof (profiling_at KCpu _ _ _ _ En) as P1. pose proof (profiling_at KCpu _ _ _ _ En') as P2.
  destruct M; cbn [active] in P1, P2; rewrite ?Bool.andb_false_r, ?Bool.andb_true_r in P1, P2; try (apply Same; [reflexivity|congruence]).
  - apply Same; [reflexivity|]. rewrite P1, P2, H. reflexivity.
  - apply Same; [reflexivity|]. rewrite P1, P2, H. reflexivity.
  - rewrite (W _ _ En) in P2. cbn in P2. unfold cpu_inv. rewrite Ec. split; [|left; destruct B as [B | [_ B]]; [split; [apply B|discriminate]|congruence]].
    intros k. destruct (Nat.eq_dec k i) as [-> | N]; [split; [intros _; exact P2|reflexivity]|].
    rewrite profiling_other by exact N. rewrite <- A, H. split; congruence.
  - apply Same; [reflexivity|]. rewrite P1, P2. destruct (pj_kind j); (reflexivity || contradiction).
  - destruct (pj_kind j) eqn:Ek; cbn [restore p_cpu same_kind andb] in *; [apply Same; [reflexivity|congruence]|apply Same; [reflexivity|congruence]|].
    unfold cpu_inv. rewrite Ec. pose proof (proj2 (A i) P1) as Ci. split.
    + intros k. split; [discriminate|]. intros Hk. destruct (Nat.eq_dec k i) as [-> | N]; [congruence|]. rewrite profiling_other in Hk by exact N. apply A in Hk. congruence.
    + left. destruct B as [B | [_ B]]; [split; [apply B|discriminate]|congruence].
Qed.
Lemma cpu_run c0 sched : forall s, wf s -> cpu_inv c0 s -> cpu_inv c0 (prun sched s).
Proof. induction sched as [|[e i] l IH]; intros s W I; cbn [prun]; [exact I|]. apply IH; [apply wf_step, W|apply cpu_step; assumption]. Qed.

(** ** files *)
Lemma pwrite_end done c : pwrite (length (concat done)) c (concat done) = concat (done ++ [c]).
Proof.
  unfold pwrite. rewrite firstn_all, Nat.sub_diag, skipn_all2 by lia. cbn [repeat app]. rewrite app_nil_r, concat_app. cbn [concat]. rewrite app_nil_r. reflexivity.
Qed.
Lemma create_other n d p : p <> clean n -> fs_get p (fs_create n d) = fs_get p d.
Proof. intros N. unfold fs_create. rewrite fs_get_write. destruct (path_eqb p (clean n)) eqn:E; [apply path_eqb_eq in E; contradiction|reflexivity]. Qed.
Lemma create_same n d : fs_get (clean n) (fs_create n d) = Some (mk_file [] 0).
Proof. unfold fs_create. rewrite fs_get_write. replace (path_eqb (clean n) (clean n)) with true by (symmetry; apply path_eqb_eq; reflexivity). reflexivity. Qed.
Lemma pwrite_other n off c d p : p <> clean n -> fs_get p (fs_pwrite n off c d) = fs_get p d.
Proof.
  intros N. unfold fs_pwrite. destruct (fs_get (clean n) d); [|reflexivity]. rewrite fs_get_write. destruct (path_eqb p (clean n)) eqn:E; [apply path_eqb_eq in E; contradiction|reflexivity].
Qed.
Lemma pwrite_same n off c d f : fs_get (clean n) d = Some f -> fs_get (clean n) (fs_pwrite n off c d) = Some (mk_file (pwrite off c (f_data f)) 0).
Proof.
  intros H. unfold fs_pwrite. rewrite H, fs_get_write. replace (path_eqb (clean n) (clean n)) with true by (symmetry; apply path_eqb_eq; reflexivity). reflexivity.
Qed.

Definition holds (j : pjob) (d : fs) (data : bytes) : Prop := exists t, fs_get (clean (pj_file j)) d = Some (mk_file data t).
(** the profile given to job [i] in the schedule so far *)
Definition given (past : list (penv * nat)) (i : nat) (data : bytes) : Prop := exists e, In (e, i) past /\ data = concat (pe_profile e).
Definition file_inv (past : list (penv * nat)) (i : nat) (s : pstate) : Prop :=
  forall j ph, nth_error (p_jobs s) i = Some (j, ph) ->
    match ph with
    | Opened => holds j (p_fs s) []
    | Sleeping _ => pj_kind j = KCpu -> holds j (p_fs s) []
    | Writing _ todo done => holds j (p_fs s) (concat done) /\ given past i (concat (done ++ todo))
    | Finished (Some data) => holds j (p_fs s) data /\ given past i data
    | _ => True
    end.
Definition alone (i : nat) (s : pstate) : Prop :=
  forall j k jj jk, nth_error (map fst (p_jobs s)) j = Some jj -> nth_error (map fst (p_jobs s)) k = Some jk -> k = i -> j <> i -> clean (pj_file jj) <> clean (pj_file jk).

Lemma given_more past x i data : given past i data -> given (past ++ [x]) i data.
Proof. intros (e & H & E). exists e. split; [apply in_or_app; left; exact H|exact E]. Qed.

Lemma file_step past e i k s : alone i s -> file_inv past i s -> file_inv (past ++ [(e, k)]) i (pstep e k s).
Proof.
  intros U I. destruct (pstep_moves e k s) as [-> | (j & ph & ph' & b & m & c & d & En & M & Es)].
  { intros j ph H. specialize (I j ph H). destruct ph as [| | | |[w|]]; try exact I; destruct I as [I1 I2]; split; try exact I1; apply given_more; exact I2. }
  destruct (Nat.eq_dec k i) as [-> | N].
  - assert (nth_error (p_jobs (pstep e i s)) i = Some (j, ph')) as En' by (rewrite Es; apply (job_set_same _ _ _ _ En)).
    intros j1 ph1 H. rewrite En' in H. injection H as <- <-. specialize (I j ph En). rewrite Es. cbn [p_fs].
    assert (given (past ++ [(e, i)]) i (concat (pe_profile e))) as G by (exists e; split; [apply in_or_app; right; left; reflexivity|reflexivity]).
    destruct M; cbn beta iota in *.
    + intros; congruence.
    + intros; congruence.
    + exists 0. apply create_same.
    + exact Logic.I.
    + intros _. exact I.
    + exact Logic.I.
    + split; [exact (I H)|exact G].
    + split; [exists 0; apply create_same|exact G].
    + exact Logic.I.
    + destruct I as [(t & I1) I2]. split.
      * exists 0. rewrite (pwrite_same _ _ _ _ _ I1). cbn [f_data]. rewrite pwrite_end. reflexivity.
      * rewrite <- app_assoc. apply given_more. exact I2.
    + destruct I as [I1 I2]. rewrite app_nil_r in I2. split; [exact I1|apply given_more; exact I2].
  - intros j1 ph1 H. rewrite pstep_other in H by congruence. specialize (I j1 ph1 H).
    assert (clean (pj_file j1) <> clean (pj_file j)) as D.
    { pose proof (U k i j j1) as U'. rewrite !nth_error_map, En, H in U'. intros Q. symmetry in Q. exact (U' eq_refl eq_refl eq_refl N Q). }
    assert (forall data, holds j1 (p_fs s) data -> holds j1 (p_fs (pstep e k s)) data) as Keep.
    { intros data (t & Hd). exists t. rewrite Es. cbn [p_fs]. rewrite <- Hd. destruct M; try reflexivity; (apply create_other || apply pwrite_other); exact D. }
    destruct ph1 as [| | | |[w|]]; try exact I; try (apply Keep; exact I).
    + intros Hk. apply Keep. exact (I Hk).
    + destruct I as [I1 I2]. split; [apply Keep; exact I1|apply given_more; exact I2].
    + destruct I as [I1 I2]. split; [apply Keep; exact I1|apply given_more; exact I2].
Qed.
Lemma alone_step i e k s : alone i s -> alone i (pstep e k s).
Proof. unfold alone. rewrite pstep_jobs. exact (fun H => H). Qed.
Lemma file_run i sched : forall past s, alone i s -> file_inv past i s -> file_inv (past ++ sched) i (prun sched s).
Proof.
  induction sched as [|[e k] l IH]; intros past s U I; cbn [prun]; [rewrite app_nil_r; exact I|].
  replace (past ++ (e, k) :: l) with ((past ++ [(e, k)]) ++ l) by (rewrite <- app_assoc; reflexivity).
  apply IH; [apply alone_step, U|apply file_step; assumption].
Qed.

(** ** names *)
Lemma two_inj a b : two a = two b -> a = b.
Proof. unfold two, digit. intros H. pose proof (f_equal (fun l => nth 0 l 0) H) as H1. pose proof (f_equal (fun l => nth 1 l 0) H) as H2. cbn [nth] in H1, H2. clear H. assert (a / 10 = b / 10 /\ a mod 10 = b mod 10) as [E1 E2] by (split; lia). rewrite (Z.div_mod a 10), (Z.div_mod b 10), E1, E2 by lia. reflexivity. Qed.
Lemma two_length a : length (two a) = 2%nat. Proof. reflexivity. Qed.
Lemma stamp_length t : length (stamp t) = 15%nat. Proof. reflexivity. Qed.
Lemma app_inj_len {A} (a b c d : list A) : length a = length c -> a ++ b = c ++ d -> a = c /\ b = d.
Proof.
  revert c. induction a as [|x a IH]; intros [|y c] L H; try discriminate; [split; [reflexivity|exact H]|].
  cbn in H. injection H as -> H. destruct (IH c ltac:(cbn in L; lia) H) as [-> ->]. split; reflexivity.
Qed.
Lemma stamp_inj a b : stamp a = stamp b -> a = b.
Proof.
  unfold stamp. intros H. repeat (apply app_inj_len in H; [destruct H as [? H]|reflexivity]).
  repeat match goal with X : two _ = two _ |- _ => apply two_inj in X end.
  destruct a as [y mo d h mi s], b as [y' mo' d' h' mi' s']. cbn in *.
  assert (y = y') as -> by (rewrite (Z.div_mod y 100), (Z.div_mod y' 100) by lia; congruence). congruence.
Qed.
Lemma stamp_chars t : real_time t -> ~ In 47 (stamp t).
Proof.
  intros (A & B & C & D & E & F) H. unfold stamp, two, digit in H. cbn [app of_string In] in H.
  pose proof (Z.div_pos (c_year t) 100). pose proof (Z.mod_pos_bound (c_year t) 100).
  repeat match type of H with _ \/ _ => destruct H as [H | H] end;
  try (match type of H with 48 + ?x / 10 = _ => pose proof (Z.div_pos x 10); lia | 48 + ?x mod 10 = _ => pose proof (Z.mod_pos_bound x 10); lia end);
  try (vm_compute in H; discriminate); try contradiction.
Qed.

(** the base name of the file of a command *)
Definition base (t : civil) (c : command) : gostring :=
  match c with
  | TriggerBlockProfile => of_string "go_block_" ++ stamp t ++ of_string ".log"
  | TriggerMutexProfile => of_string "go_mutex_" ++ stamp t ++ of_string ".log"
  | CallCpuProfile => of_string "go_cpu_" ++ stamp t ++ of_string "." ++ suffix
  | CallBlockProfile => of_string "go_block_" ++ stamp t ++ of_string "." ++ suffix
  | _ => of_string "go_mutex_" ++ stamp t ++ of_string "." ++ suffix
  end.
Definition profile_command (c : command) : Prop := c = TriggerBlockProfile \/ c = TriggerMutexProfile \/ c = CallCpuProfile \/ c = CallBlockProfile \/ c = CallMutexProfile.
Lemma base_plain t c : real_time t -> plain_name (base t c).
Proof.
  intros R. pose proof (stamp_chars t R) as K. pose proof (stamp_length t) as L. unfold plain_name.
  assert (forall a b, (3 <= length a)%nat -> ~ In 47 a -> ~ In 47 b -> a ++ stamp t ++ b <> [] /\ a ++ stamp t ++ b <> of_string "." /\ a ++ stamp t ++ b <> of_string ".." /\ ~ In 47 (a ++ stamp t ++ b)) as G.
  { intros a b La Na Nb. repeat split.
    - intros H. apply (f_equal (@length Z)) in H. rewrite !app_length in H. cbn in H. lia.
    - intros H. apply (f_equal (@length Z)) in H. rewrite !app_length in H. cbn in H. lia.
    - intros H. apply (f_equal (@length Z)) in H. rewrite !app_length in H. cbn in H. lia.
    - rewrite !in_app_iff. tauto. }
  destruct c; apply G; try (cbn; lia); vm_compute; lia.
Qed.
Lemma base_inj t c t' c' : profile_command c -> profile_command c' -> base t c = base t' c' -> t = t' /\ c = c'.
Proof.
  intros P P' H.
  assert (forall a a' b b', length a = length a' -> a ++ stamp t ++ b = a' ++ stamp t' ++ b' -> a = a' /\ t = t' /\ b = b') as K.
  { intros a a' b b' L Q. apply app_inj_len in Q; [|exact L]. destruct Q as [-> Q]. apply app_inj_len in Q; [|reflexivity]. destruct Q as [Q ->]. apply stamp_inj in Q. auto. }
  assert (forall a a' b b', a ++ stamp t ++ b = a' ++ stamp t' ++ b' -> firstn 6 a = firstn 6 (a ++ stamp t ++ b) -> firstn 6 a' = firstn 6 (a' ++ stamp t' ++ b') -> firstn 6 a = firstn 6 a') as K6.
  { intros a a' b b' Q Q1 Q2. rewrite Q1, Q2, Q. reflexivity. }
  destruct P as [-> | [-> | [-> | [-> | ->]]]], P' as [-> | [-> | [-> | [-> | ->]]]]; cbn [base] in H;
  try (apply K in H; [|reflexivity]; destruct H as (H1 & H2 & H3); split; [exact H2|reflexivity || (vm_compute in H1; discriminate) || (vm_compute in H3; discriminate)]);
  (apply K6 in H; [vm_compute in H; discriminate|reflexivity|reflexivity]).
Qed.
Lemma job_file home cwd t c j : real_time t -> job_of home cwd t c = Some j -> profile_command c /\ exists dir, snd (clean (pj_file j)) = dir ++ [base t c].
Proof.
  intros R. destruct (dump_path_render home cwd) as [E1 N1]. destruct (binary_path_render home cwd) as [E2 N2]. unfold profile_command, job_of.
  pose proof (base_plain t c R) as B.
  destruct c; intros H; try discriminate; injection H as <-; (split; [tauto|]); cbn [pj_file]; rewrite ?E1, ?E2; eexists.
  all: match goal with |- context [filepath_join (render ?p) ?n] => change n with (base t TriggerBlockProfile) || change n with (base t TriggerMutexProfile) || change n with (base t CallCpuProfile) || change n with (base t CallBlockProfile) || change n with (base t CallMutexProfile) end.
  all: rewrite joined_plain by assumption; reflexivity.
Qed.
