(** C75: goroutines that end services (Add) while the counter tasks read (GetAllCounter), in any interleaving.
    M_MeterConc.v defines the steps, S_MeterConc.v [prompt] (nobody stays inside Add for 301 seconds),
    [returned] and [no_add]; [ticking]: the clock does not go back. *)
From Coq Require Import ZifyBool Permutation.
From Coq Require Import Floats.SpecFloat.
From Verif Require Import GoInt L_Codec M_Float M_Meter S_Meter L_Meter M_MeterConc S_MeterConc L_MeterConc L_MeterConc2 P_Meter.

(** Every sample is recorded exactly once, under the second in which its call entered Add: when nobody is inside Add the
    recorded samples are those of the calls that returned, and the counters of any window are exact. *)
Theorem C75_no_sample_lost now ts sched s :
  0 <= now -> Forall waiting ts -> ticking now sched -> prompt sched (minit now ts) ->
  s = mrun sched (minit now ts) -> no_add s ->
  Permutation (map snd (c_log s)) (returned (c_threads s)) /\
  forall cur p, last_time now sched <= cur -> fits (window cur (Z.min p 300) (c_log s)) ->
    exists c m', service_counters cur p (c_meter s) = Some (c, m') /\
      counters_of_samples (Z.min p 300) (window cur (Z.min p 300) (c_log s)) c.
Proof.
  intros Hn W T P -> NA.
  destruct (mrun_inv sched None [] _ now (minv_init now ts Hn W) Hn ltac:(reflexivity) T P) as (x & h & I & L & L2 & _ & _ & _).
  destruct x as [[[[[i t] e] r] k]|]; [destruct (mi_holder _ _ _ I) as (_ & Hi & _); exfalso; exact (NA _ _ _ _ _ _ Hi)|].
  pose proof (mi_log _ _ _ I) as Lg. cbn [in_log] in Lg. rewrite app_nil_r in Lg.
  split; [rewrite Lg; exact (mi_returned _ _ _ I)|]. intros cur p Hc F.
  assert (exact_after sbucket0 smp_add (cur - 301) (c_log (mrun sched (minit now ts))) (c_meter (mrun sched (minit now ts)))) as X.
  { split; [exact (mi_shape _ _ _ I)|]. split; [exact (mi_old _ _ _ I)|]. intros u _ Hu. rewrite (mi_contents _ _ _ I u Hu), Lg. reflexivity. }
  set (s := mrun sched (minit now ts)) in *.
  destruct (search_exact sbucket0 smp_add (cur - 301) cur p (c_log s) (c_meter s) ltac:(lia) ltac:(lia) X ltac:(left; lia)) as (m' & E & _ & _).
  unfold service_counters. rewrite E. eexists. exists m'. split; [reflexivity|]. apply counter_exact. exact F.
Qed.

(** the calls of Add that have left the mutex *)
Definition settled (s : mconc) : list (Z * sample) := if c_locked s then removelast (c_log s) else c_log s.

(** What a reader returns while others go on adding: every sum it reports lies between the one over the samples recorded
    before it started and the one over those recorded when it finishes, if it finishes while the seconds of its window
    are still kept. *)
Theorem C75_read_bounds now ts sched1 cur i p sched2 s1 s2 acc :
  0 <= now -> Forall waiting ts -> ticking now (sched1 ++ (cur, i) :: sched2) -> prompt (sched1 ++ (cur, i) :: sched2) (minit now ts) ->
  s1 = mrun sched1 (minit now ts) -> nth_error (c_threads s1) i = Some (RWait p) -> 0 <= p ->
  s2 = mrun sched2 (mstep cur i s1) -> last_time cur sched2 <= cur + 301 - Z.min p 300 ->
  nth_error (c_threads s2) i = Some (RDone (Z.min p 300) acc) ->
  fits (window cur (Z.min p 300) (c_log s2)) ->
  zlen (window cur (Z.min p 300) (settled s1)) <= sb_count acc <= zlen (window cur (Z.min p 300) (c_log s2)) /\
  sum_elapsed (window cur (Z.min p 300) (settled s1)) <= sb_elapsed acc <= sum_elapsed (window cur (Z.min p 300) (c_log s2)) /\
  n_errors (window cur (Z.min p 300) (settled s1)) <= sb_error acc <= n_errors (window cur (Z.min p 300) (c_log s2)).
Proof.
  intros Hn W T P E1 Hi Hp E2 L Hd [F1 F2]. set (q := Z.min p 300) in *.
  assert (ticking now sched1 /\ last_time now sched1 <= cur /\ ticking cur sched2) as (T1 & T2 & T3).
  { clear - T. revert now T. induction sched1 as [|[c j] l IH]; intros now T; cbn [app ticking last_time] in *; [destruct T; split; [exact I|split; assumption]|].
    destruct T as [Ta Tb]. destruct (IH _ Tb) as (A & B & C). split; [split; assumption|]. split; assumption. }
  assert (prompt sched1 (minit now ts) /\ prompt ((cur, i) :: sched2) s1) as (P1 & P2).
  { subst s1. clear - P. revert P. generalize (minit now ts) as s. induction sched1 as [|[c j] l IH]; intros s P; cbn [app mrun] in *; [split; [exact I|exact P]|].
    cbn [prompt] in P. destruct P as [Pa Pb]. destruct (IH _ Pb) as [A B]. split; [|exact B]. cbn [prompt]. split; assumption. }
  destruct (mrun_inv sched1 None [] _ now (minv_init now ts Hn W) Hn ltac:(reflexivity) T1 P1) as (x & h & I & L1 & L2 & _ & _ & _). rewrite <- E1 in *.
  cbn [prompt] in P2. destruct P2 as [P2 P3].
  destruct (mstep_inv x h s1 cur i I ltac:(lia) ltac:(lia) P2) as (x1 & h1 & I1 & M1 & (a1 & ->) & Lg1).
  assert (settled s1 = h) as Es.
  { unfold settled. pose proof (mi_log _ _ _ I) as Lg. pose proof (mi_holder _ _ _ I) as Ho. destruct x as [[[[[i0 t0] e0] r0] k0]|]; cbn [in_log holder] in *.
    - destruct Ho as (-> & _). rewrite Lg. apply removelast_last.
    - destruct Ho as (-> & _). rewrite Lg. apply app_nil_r. }
  rewrite Es.
  assert (reading h cur q i (mstep cur i s1) /\ m_time (c_meter (mstep cur i s1)) = cur) as (R & Tm).
  { destruct (get_position_shape sbucket0 cur (c_meter s1) ltac:(lia) (mi_shape _ _ _ I)) as (m' & Eg & _ & Tm & _).
    unfold mstep. rewrite Hi, Eg. cbn [c_meter c_threads]. split; [|exact Tm]. left.
    replace (check_period p) with q by (unfold q, check_period, bucket_size; destruct (301 <=? p) eqn:?; lia).
    exists (ring cur), (Z.to_nat q), 0%nat, sbucket0. split; [apply (thread_set_same _ _ _ _ Hi)|]. split; [lia|]. split; [f_equal; lia|]. split; [lia|]. split; [reflexivity|].
    intros j Hj. exists 0. cbn [Nat.ltb Nat.leb]. replace (j <? 0)%nat with false by lia.
    rewrite !window_empty by lia. split; [destruct j as [|[|[|j]]]; (reflexivity || lia)|]. unfold total. cbn [fold_right]. lia. }
  pose proof (reading_run h cur q i ltac:(lia) sched2 x1 (h ++ a1) (mstep cur i s1) cur I1 ltac:(exists a1; reflexivity) ltac:(lia) ltac:(lia) ltac:(lia) T3 P3 L R) as R2.
  rewrite <- E2 in R2. destruct R2 as [(pos & n & k & acc' & E & _)|(acc' & E & S)]; [congruence|]. rewrite Hd in E. injection E as <-.
  pose proof (zlen_nonneg (window cur q h)). pose proof (sum_elapsed_nonneg (window cur q h)). pose proof (n_errors_range (window cur q h)). pose proof (n_errors_range (window cur q (c_log s2))).
  destruct (S 0%nat ltac:(lia)) as (v0 & V0 & B0). destruct (S 1%nat ltac:(lia)) as (v1 & V1 & B1). destruct (S 2%nat ltac:(lia)) as (v2 & V2 & B2).
  change (ftot 0) with cnt in B0. change (ftot 1) with ela in B1. change (ftot 2) with err in B2. rewrite !total_cnt in B0. rewrite (total_ela (window cur q h)), (total_ela (window cur q (c_log s2))) in B1. rewrite !total_err in B2.
  cbv beta in B0, B1, B2. cbn [fval] in V0, V1, V2. rewrite V0, V1, V2. rewrite (int64_id v0), (int64_id v1), (int64_id v2) by (unfold in_int64; lia). lia.
Qed.

(** A reader may see the update of one field and not of another: the error rate it returns can exceed 100 percent
    (C34 does not extend to concurrent use). *)
Theorem C75_error_rate_refuted :
  ~ (forall now ts sched i p acc, 0 <= now -> Forall waiting ts -> ticking now sched -> prompt sched (minit now ts) ->
     nth_error (c_threads (mrun sched (minit now ts))) i = Some (RDone p acc) ->
     SFleb (sc_error_rate (counter_of p acc)) (f32_of_int 100) = true).
Proof.
  intros H. set (ts := [AWait 5 true; AWait 7 true; RWait 1]).
  set (sched := map (fun i => (1000, i)) [0; 0; 0; 0; 0; 2; 2; 1; 1; 1; 1; 1; 2; 2; 2]%nat).
  specialize (H 1000 ts sched 2%nat 1 {| sb_count := 1; sb_elapsed := 12; sb_error := 2 |} ltac:(lia)).
  assert (SFleb (sc_error_rate (counter_of 1 {| sb_count := 1; sb_elapsed := 12; sb_error := 2 |})) (f32_of_int 100) = false) as Hf by (vm_compute; reflexivity).
  rewrite Hf in H. enough (false = true) by discriminate. apply H.
  - repeat constructor.
  - cbn. lia.
  - unfold sched. cbn [map].
    assert (forall l s, Forall (fun e => fst e = 1000) l -> (forall j t pos e r k, nth_error (c_threads s) j = Some (AIn t pos e r k) -> t = 1000) -> prompt l s) as K.
    { induction l as [|[c i] l IH]; intros s F A; cbn [prompt]; [exact I|]. inversion F as [|? ? Fc F']; subst. cbn [fst] in Fc. subst c.
      split; [intros j t pos e r k Hj; specialize (A _ _ _ _ _ _ Hj); lia|]. apply IH; [exact F'|]. intros j t pos e r k Hj.
      destruct (Nat.eq_dec j i) as [->|N]; [|rewrite mstep_other in Hj by congruence; exact (A _ _ _ _ _ _ Hj)].
      unfold mstep in Hj. destruct (nth_error (c_threads s) i) as [th|] eqn:En; [|rewrite En in Hj; discriminate].
      destruct th as [e1 r1|t1 pos1 e1 r1 k1|e1 r1|p1|p1 pos1 n1 k1 acc1|p1 acc1].
      - destruct (c_locked s); [rewrite En in Hj; discriminate|]. destruct (get_position sbucket0 1000 (c_meter s)) as [[q m']|]; cbn [c_threads] in Hj; [|rewrite En in Hj; discriminate].
        rewrite (thread_set_same _ _ _ _ En) in Hj. injection Hj as <- _ _ _ _. reflexivity.
      - destruct (k1 <? 3)%nat.
        + destruct (tab_get (m_table (c_meter s)) pos1) as [b|]; [|rewrite En in Hj; injection Hj as <- _ _ _ _; exact (A _ _ _ _ _ _ En)].
          destruct (tab_set (m_table (c_meter s)) pos1 (field_add k1 e1 r1 b)); cbn [c_threads] in Hj; [rewrite (thread_set_same _ _ _ _ En) in Hj|rewrite En in Hj]; injection Hj as <- _ _ _ _; exact (A _ _ _ _ _ _ En).
        + cbn [c_threads] in Hj. rewrite (thread_set_same _ _ _ _ En) in Hj. discriminate.
      - rewrite En in Hj. discriminate.
      - destruct (get_position sbucket0 1000 (c_meter s)) as [[q m']|]; cbn [c_threads] in Hj; [rewrite (thread_set_same _ _ _ _ En) in Hj|rewrite En in Hj]; discriminate.
      - destruct n1 as [|n']; cbn [c_threads] in Hj; [rewrite (thread_set_same _ _ _ _ En) in Hj; discriminate|].
        destruct (tab_get (m_table (c_meter s)) pos1) as [b|]; cbn [c_threads] in Hj; [|rewrite En in Hj; discriminate].
        rewrite (thread_set_same _ _ _ _ En) in Hj. destruct (k1 <? 2)%nat; discriminate.
      - rewrite En in Hj. discriminate. }
    apply K; [repeat constructor|]. intros j t pos e r k Hj. destruct j as [|[|[|j]]]; cbn in Hj; try discriminate. destruct j; discriminate.
  - vm_compute. reflexivity.
Qed.

(** the hypotheses of the first two theorems are met: the interleaving above, read again afterwards *)
Example C75_case : exists s, s = mrun (map (fun i => (1000, i)) [0; 0; 0; 0; 0; 2; 2; 1; 1; 1; 1; 1; 2; 2; 2]%nat) (minit 1000 [AWait 5 true; AWait 7 true; RWait 1]) /\
  returned (c_threads s) = [(5, true); (7, true)] /\ c_log s = [(1000, (5, true)); (1000, (7, true))] /\ c_locked s = false.
Proof. eexists. split; [reflexivity|]. split; [vm_compute; reflexivity|]. split; vm_compute; reflexivity. Qed.

(** A call that stays inside Add for 301 seconds has its sample counted under a later second. *)
Theorem C75_stalled_refuted :
  ~ (forall now ts sched, 0 <= now -> Forall waiting ts -> ticking now sched -> no_add (mrun sched (minit now ts)) ->
     forall cur p, last_time now sched <= cur -> fits (window cur (Z.min p 300) (c_log (mrun sched (minit now ts)))) ->
     exists c m', service_counters cur p (c_meter (mrun sched (minit now ts))) = Some (c, m') /\
       counters_of_samples (Z.min p 300) (window cur (Z.min p 300) (c_log (mrun sched (minit now ts)))) c).
Proof.
  intros H. set (ts := [AWait 5 true; RWait 1]). set (sched := [(1000, 0%nat); (1301, 1%nat); (1301, 0%nat); (1301, 0%nat); (1301, 0%nat); (1301, 0%nat)]).
  specialize (H 1000 ts sched ltac:(lia) ltac:(repeat constructor) ltac:(cbn; lia)).
  destruct H with (cur := 1301) (p := 30) as (c & m' & E & (_ & C & _)).
  - intros j t pos e r k Hj. destruct j as [|[|j]]; vm_compute in Hj; try discriminate. destruct j; discriminate.
  - cbn. lia.
  - split; vm_compute; discriminate.
  - assert (match service_counters 1301 30 (c_meter (mrun sched (minit 1000 ts))) with Some (c, _) => sc_elapsed c =? 5 | None => false end = true) as V by (vm_compute; reflexivity).
    rewrite E in V. apply Z.eqb_eq in V. rewrite V in C. vm_compute in C. discriminate.
Qed.

Print Assumptions C75_no_sample_lost.
Print Assumptions C75_read_bounds.
Print Assumptions C75_error_rate_refuted.
Print Assumptions C75_stalled_refuted.
