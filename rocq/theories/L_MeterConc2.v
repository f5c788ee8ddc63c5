(** A reader of the service meter while others add. *)
From Coq Require Import ZifyBool Permutation.
From Verif Require Import GoInt L_Codec M_Meter S_Meter L_Meter M_MeterConc S_MeterConc L_MeterConc.

(** the three fields of a bucket, and what a sample adds to each *)
Definition fval (j : nat) (b : sbucket) : Z := match j with 0%nat => sb_count b | 1%nat => sb_elapsed b | _ => sb_error b end.
Definition ftot (j : nat) (x : sample) : Z := match j with 0%nat => cnt x | 1%nat => ela x | _ => err x end.
Lemma ftot_nonneg j x : 0 <= ftot j x.
Proof. unfold ftot, cnt, ela, err. destruct j as [|[|j]]; [lia|lia|destruct (snd x); lia]. Qed.
Lemma total_nonneg j l : 0 <= total (ftot j) l.
Proof. unfold total. induction l as [|x l IH]; cbn [fold_right]; [lia|]. pose proof (ftot_nonneg j x). lia. Qed.
Lemma clamp_ela e r : clamp e = ela (e, r).
Proof. unfold clamp, ela. cbn [fst]. destruct (e <? 0) eqn:E; lia. Qed.

Lemma fval_field_add j k e r b v : (k <= 2)%nat -> (j <= 2)%nat -> fval j b = int64 v ->
  fval j (field_add k e r b) = int64 (v + if (j =? k)%nat then ftot j (e, r) else 0).
Proof.
  intros Hk Hj H. 
  destruct k as [|[|[|k]]]; [| | |lia]; destruct j as [|[|[|j]]]; try lia; cbn [field_add fval sb_count sb_elapsed sb_error Nat.eqb ftot] in *; rewrite ?Z.add_0_r; try exact H.
  - rewrite H. unfold cnt. apply int64_plus_l.
  - rewrite H, (clamp_ela e r). apply int64_plus_l.
  - unfold err. cbn [snd]. destruct r; [rewrite H; apply int64_plus_l|rewrite Z.add_0_r; exact H].
Qed.
Lemma fval_part j e r b v : (j <= 2)%nat -> fval j b = int64 v -> forall k, (k <= 3)%nat ->
  fval j (part k e r b) = int64 (v + if (j <? k)%nat then ftot j (e, r) else 0).
Proof.
  intros Hj H. induction k as [|k IH]; intros Hk; cbn [part]; [rewrite Z.add_0_r; exact H|].
  rewrite (fval_field_add j k e r _ _ ltac:(lia) Hj (IH ltac:(lia))). f_equal.
  destruct (j <? k)%nat eqn:E1, (j =? k)%nat eqn:E2, (j <? S k)%nat eqn:E3; lia.
Qed.
Lemma fval_bof j s h : (j <= 2)%nat -> fval j (bof s h) = int64 (total (ftot j) (second s h)).
Proof. intros Hj. rewrite bucket_of_smp. destruct j as [|[|[|j]]]; (reflexivity || lia). Qed.

Lemma fval_contents x h s0 s j : minv x h s0 -> (j <= 2)%nat ->
  exists v, fval j (contents x h s) = int64 v /\ total (ftot j) (second s h) <= v <= total (ftot j) (second s (c_log s0)).
Proof.
  intros I Hj. rewrite (mi_log _ _ _ I). pose proof (fval_bof j s h Hj) as B. destruct x as [[[[[i t] e] r] k]|]; cbn [contents in_log].
  - destruct (mi_holder _ _ _ I) as (_ & _ & Hk & _). rewrite second_snoc. rewrite (Z.eqb_sym t s).
    destruct (s =? t).
    + exists (total (ftot j) (second s h) + if (j <? k)%nat then ftot j (e, r) else 0). split; [apply fval_part; [exact Hj|exact B|exact Hk]|].
      rewrite total_app, total_one. pose proof (ftot_nonneg j (e, r)). destruct (j <? k)%nat; lia.
    + exists (total (ftot j) (second s h)). split; [exact B|lia].
  - exists (total (ftot j) (second s h)). rewrite app_nil_r. split; [exact B|lia].
Qed.

Lemma second_app {A} s (a b : list (Z * A)) : second s (a ++ b) = second s a ++ second s b.
Proof. unfold second. rewrite filter_app, map_app. reflexivity. Qed.
Lemma window_app {A} c p (a b : list (Z * A)) : window c p (a ++ b) = window c p a ++ window c p b.
Proof. unfold window. rewrite filter_app, map_app. reflexivity. Qed.
Lemma window_mono j c p a b : total (ftot j) (window c p a) <= total (ftot j) (window c p (a ++ b)).
Proof. rewrite window_app, total_app. pose proof (total_nonneg j (window c p b)). lia. Qed.
Lemma second_mono j s a b : total (ftot j) (second s a) <= total (ftot j) (second s (a ++ b)).
Proof. rewrite second_app, total_app. pose proof (total_nonneg j (second s b)). lia. Qed.

(** the first [w] seconds of the window have been read into field [j] *)
Definition sums (lo : list (Z * sample)) (s : mconc) (cur : Z) (acc : sbucket) (w : nat -> Z) : Prop :=
  forall j, (j <= 2)%nat -> exists v, fval j acc = int64 v /\
    total (ftot j) (window cur (w j) lo) <= v <= total (ftot j) (window cur (w j) (c_log s)).
Definition reading (lo : list (Z * sample)) (cur p : Z) (i : nat) (s : mconc) : Prop :=
  (exists pos n k acc, nth_error (c_threads s) i = Some (RIn p pos n k acc) /\ Z.of_nat n <= p /\ pos = ring (cur - (p - Z.of_nat n)) /\
     (k <= 2)%nat /\ (n = 0%nat -> k = 0%nat) /\ sums lo s cur acc (fun j => p - Z.of_nat n + if (j <? k)%nat then 1 else 0)) \/
  (exists acc, nth_error (c_threads s) i = Some (RDone p acc) /\ sums lo s cur acc (fun _ => p)).

Lemma mstep_other cur i j s : i <> j -> nth_error (c_threads (mstep cur i s)) j = nth_error (c_threads s) j.
Proof.
  intros N. unfold mstep. destruct (nth_error (c_threads s) i) as [th|] eqn:En; [|reflexivity].
  assert (forall t, nth_error (thread_set (c_threads s) i t) j = nth_error (c_threads s) j) as H by (intros t; apply (thread_set_other _ _ _ _ _ En); congruence).
  destruct th as [e r|t pos e r k|e r|p|p pos n k acc|p acc]; try reflexivity.
  - destruct (c_locked s); [reflexivity|]. destruct (get_position sbucket0 cur (c_meter s)) as [[pos m']|]; [apply H|reflexivity].
  - destruct (k <? 3)%nat; [|apply H]. destruct (tab_get (m_table (c_meter s)) pos); [|reflexivity]. destruct (tab_set (m_table (c_meter s)) pos (field_add k e r s0)); [apply H|reflexivity].
  - destruct (get_position sbucket0 cur (c_meter s)) as [[pos m']|]; [apply H|reflexivity].
  - destruct n as [|n']; [apply H|]. destruct (tab_get (m_table (c_meter s)) pos); [apply H|reflexivity].
Qed.

Lemma sums_mono lo s s' cur acc w : (exists more, c_log s' = c_log s ++ more) -> sums lo s cur acc w -> sums lo s' cur acc w.
Proof.
  intros (more & E) S j Hj. destruct (S j Hj) as (v & Ev & B1 & B2). exists v. split; [exact Ev|]. split; [exact B1|].
  rewrite E. pose proof (window_mono j cur (w j) (c_log s) more). lia.
Qed.

Lemma fval_field_read j k b acc va vb : (k <= 2)%nat -> (j <= 2)%nat -> fval j acc = int64 va -> fval j b = int64 vb ->
  fval j (field_read k b acc) = int64 (va + if (j =? k)%nat then vb else 0).
Proof.
  intros Hk Hj Ha Hb. destruct k as [|[|[|k]]]; [| | |lia]; destruct j as [|[|[|j]]]; try lia;
    cbn [field_read fval sb_count sb_elapsed sb_error Nat.eqb] in *; rewrite ?Z.add_0_r; try exact Ha; rewrite Ha, Hb, int64_plus_l, int64_plus_r; reflexivity.
Qed.

(** one step of anybody keeps the reader's bounds *)
Lemma reading_step lo cur p i x h s c j : 0 <= p <= 300 -> minv x h s -> (exists more, h = lo ++ more) ->
  cur <= m_time (c_meter s) -> m_time (c_meter s) <= cur + 301 - p ->
  (exists more, c_log (mstep c j s) = c_log s ++ more) ->
  reading lo cur p i s -> reading lo cur p i (mstep c j s).
Proof.
  intros Hp I (mh & Eh) Hc1 Hc2 Lg R. destruct (Nat.eq_dec j i) as [->|N].
  2:{ destruct R as [(pos & n & k & acc & E & R1 & R2 & R3 & R4 & R5)|(acc & E & R5)].
      - left. exists pos, n, k, acc. split; [rewrite mstep_other by exact N; exact E|]. do 4 (split; [assumption|]). exact (sums_mono _ _ _ _ _ _ Lg R5).
      - right. exists acc. split; [rewrite mstep_other by exact N; exact E|]. exact (sums_mono _ _ _ _ _ _ Lg R5). }
  destruct R as [(pos & n & k & acc & E & R1 & R2 & R3 & R4 & R5)|(acc & E & R5)].
  2:{ right. exists acc. unfold mstep in *. rewrite E in *. split; [exact E|exact R5]. }
  unfold mstep in *. rewrite E in *. destruct n as [|n'].
  - right. exists acc. cbn [c_threads]. split; [apply (thread_set_same _ _ _ _ E)|]. rewrite (R4 eq_refl) in R5. intros j Hj. destruct (R5 j Hj) as (v & Ev & B). exists v. split; [exact Ev|].
    replace (p - Z.of_nat 0 + (if (j <? 0)%nat then 1 else 0)) with p in B by (destruct (j <? 0)%nat eqn:Ej; lia). exact B.
  - pose proof (mi_contents _ _ _ I (cur - (p - Z.of_nat (S n'))) ltac:(lia)) as Co. rewrite <- R2 in Co. rewrite Co in *.
    set (b := contents x h (cur - (p - Z.of_nat (S n')))) in *.
    assert (forall j, (j <= 2)%nat -> exists v, fval j (field_read k b acc) = int64 v /\
      total (ftot j) (window cur (p - Z.of_nat (S n') + if (j <? S k)%nat then 1 else 0) lo) <= v <=
      total (ftot j) (window cur (p - Z.of_nat (S n') + if (j <? S k)%nat then 1 else 0) (c_log s))) as Acc.
    { intros j Hj. destruct (R5 j Hj) as (va & Ea & A1 & A2). destruct (fval_contents x h s (cur - (p - Z.of_nat (S n'))) j I Hj) as (vb & Eb & B1 & B2). fold b in Eb.
      exists (va + if (j =? k)%nat then vb else 0). split; [apply fval_field_read; assumption|]. rewrite Eh in B1.
      pose proof (second_mono j (cur - (p - Z.of_nat (S n'))) lo mh) as B3.
      destruct (j =? k)%nat eqn:Ejk.
      - apply Nat.eqb_eq in Ejk. subst j. replace (k <? S k)%nat with true by lia. replace (k <? k)%nat with false in * by lia. rewrite Z.add_0_r in A1, A2.
        unfold total in *. rewrite !window_split by lia. lia.
      - replace (if (j <? S k)%nat then 1 else 0) with (if (j <? k)%nat then 1 else 0) by (destruct (j <? S k)%nat eqn:?, (j <? k)%nat eqn:?; lia). lia. }
    destruct (k <? 2)%nat eqn:Ek; cbn [c_threads c_log].
    + left. exists pos, (S n'), (S k), (field_read k b acc). split; [apply (thread_set_same _ _ _ _ E)|]. split; [exact R1|]. split; [exact R2|]. split; [lia|]. split; [lia|]. exact Acc.
    + left. exists (step_back pos), n', 0%nat, (field_read k b acc). split; [apply (thread_set_same _ _ _ _ E)|]. split; [lia|].
      split; [rewrite R2, ring_prev; f_equal; lia|]. split; [lia|]. split; [reflexivity|]. intros j Hj. destruct (Acc j Hj) as (v & Ev & B). exists v. split; [exact Ev|].
      replace (p - Z.of_nat (S n') + (if (j <? S k)%nat then 1 else 0)) with (p - Z.of_nat n' + (if (j <? 0)%nat then 1 else 0)) in B; [exact B|].
      replace (j <? S k)%nat with true by lia. destruct (j <? 0)%nat eqn:Ej; lia.
Qed.

Lemma reading_run lo cur p i : 0 <= p <= 300 -> forall sched x h s now, minv x h s -> (exists more, h = lo ++ more) -> 0 <= now ->
  cur <= m_time (c_meter s) -> m_time (c_meter s) <= now -> ticking now sched -> prompt sched s ->
  last_time now sched <= cur + 301 - p -> reading lo cur p i s -> reading lo cur p i (mrun sched s).
Proof.
  intros Hp. induction sched as [|[c j] sched IH]; intros x h s now I Eh Hn Hc1 Hc2 T P L R; cbn [mrun]; [exact R|].
  destruct T as [Tc T]. cbn [prompt] in P. destruct P as [P1 P2]. cbn [last_time] in L.
  destruct (mstep_inv x h s c j I ltac:(lia) ltac:(lia) P1) as (x1 & h1 & I1 & M1 & (a1 & ->) & Lg).
  assert (c <= last_time c sched) as Lc.
  { clear - T. revert c T. induction sched as [|[c1 j1] sched IH]; intros c T; cbn [last_time]; [lia|]. destruct T as [T1 T2]. specialize (IH _ T2). lia. }
  destruct Eh as (mh & ->).
  apply (IH x1 ((lo ++ mh) ++ a1) (mstep c j s) c I1); [exists (mh ++ a1); rewrite app_assoc; reflexivity|lia|lia|lia|exact T|exact P2|exact L|].
  apply (reading_step lo cur p i x (lo ++ mh) s c j Hp I); [exists mh; reflexivity|exact Hc1|lia|exact Lg|exact R].
Qed.
