(** Proofs about the ring of buckets. *)
From Coq Require Import ZifyBool.
From Coq Require Import Floats.SpecFloat.
From Verif Require Import GoInt L_Codec M_Float M_Value M_Access M_Meter S_Meter.

(** * Tables *)
Lemma tab_get_nth {B} (t : list B) i d : 0 <= i < zlen t -> tab_get t i = Some (nth (Z.to_nat i) t d).
Proof.
  intros Hi. unfold tab_get. replace ((0 <=? i) && (i <? zlen t)) with true by lia.
  apply nth_error_nth'. unfold zlen in Hi. lia.
Qed.

Lemma tab_set_some {B} (t : list B) i b : 0 <= i < zlen t ->
  exists t', tab_set t i b = Some t' /\ zlen t' = zlen t /\
    (forall j, 0 <= j < zlen t -> tab_get t' j = if j =? i then Some b else tab_get t j).
Proof.
  intros Hi. unfold tab_set. replace ((0 <=? i) && (i <? zlen t)) with true by lia.
  eexists. split; [reflexivity|].
  assert (zlen (firstn (Z.to_nat i) t ++ b :: skipn (S (Z.to_nat i)) t) = zlen t) as HL.
  { unfold zlen in *. rewrite app_length. cbn [length]. rewrite skipn_length, firstn_length. lia. }
  split; [assumption|].
  intros j Hj. unfold tab_get. rewrite HL. replace ((0 <=? j) && (j <? zlen t)) with true by lia.
  assert (length (firstn (Z.to_nat i) t) = Z.to_nat i) as HF by (rewrite firstn_length; unfold zlen in *; lia).
  destruct (j =? i) eqn:E.
  - rewrite nth_error_app2 by (rewrite HF; lia). rewrite HF. replace (Z.to_nat j - Z.to_nat i)%nat with O by lia. reflexivity.
  - destruct (j <? i) eqn:E2.
    + rewrite nth_error_app1 by (rewrite HF; lia).
      rewrite <- (firstn_skipn (Z.to_nat i) t) at 2. rewrite nth_error_app1 by (rewrite HF; lia). reflexivity.
    + rewrite nth_error_app2 by (rewrite HF; lia). rewrite HF.
      replace (Z.to_nat j - Z.to_nat i)%nat with (S (Z.to_nat j - S (Z.to_nat i)))%nat by lia. cbn [nth_error].
      rewrite <- (firstn_skipn (S (Z.to_nat i)) t) at 2.
      assert (length (firstn (S (Z.to_nat i)) t) = S (Z.to_nat i)) as HF2 by (rewrite firstn_length; unfold zlen in *; lia).
      rewrite nth_error_app2 by (rewrite HF2; lia). rewrite HF2. reflexivity.
Qed.

Lemma tab_get_repeat {B} (b : B) n i : 0 <= i < Z.of_nat n -> tab_get (repeat b n) i = Some b.
Proof.
  intros Hi. rewrite tab_get_nth with (d := b) by (unfold zlen; rewrite repeat_length; lia).
  f_equal. apply nth_repeat.
Qed.

(** * Advancing *)
Definition ring (t : Z) : Z := t mod 301.

Lemma ring_range t : 0 <= ring t < 301.
Proof. unfold ring. apply Z.mod_pos_bound. lia. Qed.

Lemma ring_next t : (if bucket_size - 1 <? ring t + 1 then 0 else ring t + 1) = ring (t + 1).
Proof.
  unfold ring, bucket_size. pose proof (Z.div_mod t 301 ltac:(lia)) as D. pose proof (Z.mod_pos_bound t 301 ltac:(lia)) as R.
  destruct (301 - 1 <? t mod 301 + 1) eqn:E.
  - apply (Z.mod_unique_pos _ _ (t / 301 + 1)); lia.
  - apply (Z.mod_unique_pos _ _ (t / 301)); lia.
Qed.

Lemma ring_prev t : step_back (ring t) = ring (t - 1).
Proof.
  unfold step_back, ring, bucket_size. pose proof (Z.div_mod t 301 ltac:(lia)) as D. pose proof (Z.mod_pos_bound t 301 ltac:(lia)) as R.
  destruct (t mod 301 =? 0) eqn:E.
  - apply (Z.mod_unique_pos _ _ (t / 301 - 1)); lia.
  - apply (Z.mod_unique_pos _ _ (t / 301)); lia.
Qed.

Lemma ring_inj s t : -301 < s - t < 301 -> ring s = ring t -> s = t.
Proof.
  intros H E. unfold ring in E.
  pose proof (Z.div_mod s 301 ltac:(lia)). pose proof (Z.div_mod t 301 ltac:(lia)).
  set (a := s / 301) in *. set (b := t / 301) in *. clearbody a b. lia.
Qed.

Lemma ring_rem t : 0 <= t -> Z.rem t bucket_size = ring t.
Proof. intros. apply Z.rem_mod_nonneg; unfold bucket_size; lia. Qed.

Lemma advance_spec {B} (b0 : B) : forall n T t, zlen t = 301 ->
  exists t', advance b0 n (ring T) t = Some (ring (T + Z.of_nat n), t') /\ zlen t' = 301 /\
    (forall s, T < s <= T + Z.of_nat n -> tab_get t' (ring s) = Some b0) /\
    (forall i, 0 <= i < 301 -> (forall s, T < s <= T + Z.of_nat n -> ring s <> i) -> tab_get t' i = tab_get t i).
Proof.
  induction n as [|n IH]; intros T t HL.
  - cbn [advance]. exists t. replace (T + Z.of_nat 0) with T by lia. split; [reflexivity|]. split; [assumption|].
    split; [intros; lia|intros; reflexivity].
  - cbn [advance]. rewrite ring_next.
    pose proof (ring_range (T + 1)) as R.
    destruct (tab_set_some t (ring (T + 1)) b0 ltac:(lia)) as (t1 & E1 & L1 & G1). rewrite E1.
    destruct (IH (T + 1) t1 ltac:(lia)) as (t2 & E2 & L2 & C2 & K2).
    exists t2. replace (T + Z.of_nat (S n)) with (T + 1 + Z.of_nat n) by lia. split; [exact E2|]. split; [exact L2|]. split.
    + intros s Hs. destruct (Z.eq_dec s (T + 1)) as [->|Hn]; [|apply C2; lia].
      destruct (in_dec Z.eq_dec (ring (T + 1)) (map ring (map (fun k => T + 1 + 1 + Z.of_nat k) (seq 0 n)))) as [I|NI].
      * apply in_map_iff in I as (s' & Es & Is). apply in_map_iff in Is as (k & <- & Ik). apply in_seq in Ik.
        rewrite <- Es. apply C2. lia.
      * rewrite K2; [rewrite G1 by lia; replace (ring (T + 1) =? ring (T + 1)) with true by lia; reflexivity|assumption|].
        intros s Hs' Heq. apply NI. rewrite <- Heq. apply in_map. apply in_map_iff. exists (Z.to_nat (s - (T + 1 + 1))).
        split; [lia|]. apply in_seq. lia.
    + intros i Hi Hn. rewrite K2; [|assumption|].
      * rewrite G1 by lia. assert (ring (T + 1) <> i) by (apply Hn; lia). replace (i =? ring (T + 1)) with false by lia. reflexivity.
      * intros s Hs. apply Hn. lia.
Qed.

  Lemma walk_spec {B} (t0 : list B) : forall n cur, zlen t0 = 301 ->
    exists bs, walk n (ring cur) t0 = Some bs /\
      Forall2 (fun k b => tab_get t0 (ring (cur - Z.of_nat k)) = Some b) (seq 0 n) (bs : list B).
  Proof.
    induction n as [|n IH]; intros cur HL; cbn [walk]; [exists []; split; [reflexivity|constructor]|].
    pose proof (ring_range cur) as R.
    assert (exists b, tab_get t0 (ring cur) = Some b) as (b & Eb).
    { destruct t0 as [|b0' t]; [change (zlen (@nil B)) with 0 in HL; lia|]. exists (nth (Z.to_nat (ring cur)) (b0' :: t) b0'). apply tab_get_nth. lia. }
    rewrite Eb, ring_prev. destruct (IH (cur - 1) HL) as (bs & -> & F).
    exists (b :: bs). split; [reflexivity|]. cbn [seq]. constructor; [rewrite <- Eb; do 2 f_equal; lia|].
    rewrite <- seq_shift. revert F. generalize (seq 0 n). clear.
    intros l F. induction F as [|k b l bs Hk F IH]; cbn [map]; constructor; [|assumption].
    rewrite <- Hk. do 2 f_equal. lia.
  Qed.

  Definition shape {B} (m : metering B) : Prop :=
    0 <= m_time m /\ m_pos m = ring (m_time m) /\ zlen (m_table m) = 301.

  Lemma get_position_shape {B} (b0 : B) cur m : 0 <= cur -> shape m ->
    exists m', get_position b0 cur m = Some (ring cur, m') /\ shape m' /\ m_time m' = cur /\
      (m_time m <= cur -> forall s, cur - 301 < s <= cur ->
         tab_get (m_table m') (ring s) = if s <=? m_time m then tab_get (m_table m) (ring s) else Some b0).
  Proof.
    intros Hc (Ht & Hp & HL). unfold get_position. destruct (cur =? m_time m) eqn:E.
    - apply Z.eqb_eq in E. subst cur. exists m. rewrite Hp. split; [reflexivity|]. split; [exact (conj Ht (conj Hp HL))|]. split; [reflexivity|].
      intros _ s Hs. replace (s <=? m_time m) with true by lia. reflexivity.
    - rewrite Hp. destruct (advance_spec b0 (Z.to_nat (Z.min (cur - m_time m) bucket_size)) (m_time m) (m_table m) HL) as (t' & -> & L & C & K).
      eexists. split; [cbn [m_pos]; rewrite ring_rem by assumption; reflexivity|].
      split; [split; [assumption|]; split; [cbn [m_pos m_time]; first [reflexivity|apply ring_rem; assumption]|exact L]|].
      split; [reflexivity|]. intros Hle s Hs. cbn [m_table].
      destruct (s <=? m_time m) eqn:E2.
      + apply K; [apply ring_range|]. intros s' Hs' Heq. apply ring_inj in Heq; unfold bucket_size in *; lia.
      + destruct (Z_le_gt_dec (cur - m_time m) 301) as [Hsm|Hbig].
        * apply C. unfold bucket_size. lia.
        * (* everything was cleared *)
          assert (exists s', m_time m < s' <= m_time m + 301 /\ ring s' = ring s) as (s' & Hs' & <-).
          { exists (m_time m + 1 + (s - (m_time m + 1)) mod 301). pose proof (Z.mod_pos_bound (s - (m_time m + 1)) 301 ltac:(lia)).
            split; [lia|]. unfold ring. rewrite Z.add_mod_idemp_r by lia. f_equal. lia. }
          apply C. unfold bucket_size. lia.
  Qed.

(** * The invariant: every bucket of a second after [c] holds exactly that second's additions. *)
Section Ring.
  Context {A B : Type} (b0 : B) (add : A -> B -> B).

  Definition bucket_of (t : Z) (h : history A) : B := fold_left (fun b a => add a b) (second t h) b0.

  Definition exact_after (c : Z) (h : history A) (m : metering B) : Prop :=
    shape m /\ Forall (fun e => fst e <= m_time m) h /\
    (forall s, c < s -> m_time m - 301 < s <= m_time m -> tab_get (m_table m) (ring s) = Some (bucket_of s h)).

  Lemma second_nil t (h : history A) : Forall (fun e => fst e <> t) h -> second t h = [].
  Proof.
    intros F. unfold second. replace (filter _ h) with (@nil (Z * A)); [reflexivity|].
    symmetry. induction F as [|e h He F IH]; [reflexivity|]. cbn [filter]. replace (fst e =? t) with false by lia. exact IH.
  Qed.

  Lemma get_position_exact c cur h m : 0 <= cur -> m_time m <= cur -> exact_after c h m ->
    exists m', get_position b0 cur m = Some (ring cur, m') /\ m_time m' = cur /\ exact_after c h m'.
  Proof.
    intros Hc Hle (Sh & F & X). destruct (get_position_shape b0 cur m Hc Sh) as (m' & E & Sh' & T' & G).
    exists m'. split; [exact E|]. split; [exact T'|]. split; [exact Sh'|]. rewrite T'. split; [eapply Forall_impl; [|exact F]; cbn beta; lia|].
    intros s Hs1 Hs2. rewrite G by (try assumption; lia). destruct (s <=? m_time m) eqn:E2; [apply X; lia|].
    unfold bucket_of. rewrite second_nil; [reflexivity|]. eapply Forall_impl; [|exact F]. cbn beta. lia.
  Qed.

  Lemma second_snoc s t a (h : history A) : second s (h ++ [(t, a)]) = if t =? s then second s h ++ [a] else second s h.
  Proof.
    unfold second. rewrite filter_app, map_app. cbn [filter fst]. destruct (t =? s); [reflexivity|]. apply app_nil_r.
  Qed.

  Lemma on_current_exact c cur a h m : 0 <= cur -> m_time m <= cur -> c <= cur -> exact_after c h m ->
    exists m', on_current b0 cur (add a) m = Some m' /\ m_time m' = cur /\ exact_after c (h ++ [(cur, a)]) m'.
  Proof.
    intros Hc Hle Hcc X. destruct (get_position_exact c cur h m Hc Hle X) as (m1 & E & T1 & (Sh1 & F1 & X1)).
    unfold on_current. rewrite E. destruct Sh1 as (S1 & S2 & S3). pose proof (ring_range cur) as R.
    assert (exists b, tab_get (m_table m1) (ring cur) = Some b) as (b & Eb).
    { destruct (m_table m1) as [|b0' t] eqn:Et; [change (zlen (@nil B)) with 0 in S3; lia|].
      exists (nth (Z.to_nat (ring cur)) (b0' :: t) b0'). apply tab_get_nth. lia. }
    rewrite Eb. destruct (tab_set_some (m_table m1) (ring cur) (add a b) ltac:(lia)) as (t & -> & L & G).
    eexists. split; [reflexivity|]. split; [exact T1|]. split; [split; [exact S1|]; split; [exact S2|]; cbn [m_table]; lia|].
    cbn [m_time m_table]. split.
    - apply Forall_app. split; [assumption|]. apply Forall_cons; [cbn [fst]; lia|constructor].
    - intros s Hs1 Hs2. pose proof (ring_range s). rewrite G by lia. unfold bucket_of. rewrite second_snoc.
      destruct (cur =? s) eqn:Es.
      + apply Z.eqb_eq in Es. subst s. rewrite Z.eqb_refl. rewrite fold_left_app. cbn [fold_left].
        rewrite (X1 cur) in Eb by lia. injection Eb as Eb. rewrite <- Eb. reflexivity.
      + destruct (ring s =? ring cur) eqn:Er; [apply Z.eqb_eq in Er; apply ring_inj in Er; lia|]. apply X1; lia.
  Qed.

  (** The buckets of the last [p] seconds, newest first. *)
  Definition buckets (cur p : Z) (h : history A) : list B :=
    map (fun k => bucket_of (cur - Z.of_nat k) h) (seq 0 (Z.to_nat p)).

  Lemma search_exact c cur period h m : 0 <= cur -> m_time m <= cur -> exact_after c h m -> c <= cur - Z.min period 300 \/ period <= 0 ->
    exists m', search b0 cur period m = Some (Z.min period 300, buckets cur (Z.min period 300) h, m') /\ m_time m' = cur /\ exact_after c h m'.
  Proof.
    intros Hc Hle X Hwin. destruct (get_position_exact c cur h m Hc Hle X) as (m1 & E & T1 & X1).
    unfold search. rewrite E.
    replace (check_period period) with (Z.min period 300) by (unfold check_period, bucket_size; destruct (301 <=? period) eqn:?; lia).
    destruct X1 as (Sh1 & F1 & X1). destruct (walk_spec (m_table m1) (Z.to_nat (Z.min period 300)) cur (proj2 (proj2 Sh1))) as (bs & -> & F).
    exists m1. split; [|split; [exact T1|exact (conj Sh1 (conj F1 X1))]]. do 3 f_equal.
    unfold buckets.
    assert (forall k, In k (seq 0 (Z.to_nat (Z.min period 300))) -> tab_get (m_table m1) (ring (cur - Z.of_nat k)) = Some (bucket_of (cur - Z.of_nat k) h)) as HX.
    { intros k Hk. apply in_seq in Hk. apply X1; lia. }
    revert F HX. generalize (seq 0 (Z.to_nat (Z.min period 300))). intros l F. induction F as [|k b l bs Hk F IH]; intros HX; [reflexivity|].
    cbn [map]. f_equal; [|apply IH; intros; apply HX; right; assumption].
    rewrite (HX k (or_introl eq_refl)) in Hk. congruence.
  Qed.
End Ring.

(** * Windows as concatenations of seconds *)
Lemma window_split {A} (cur : Z) (h : history A) p : 0 <= p ->
  forall P : A -> Z, fold_right (fun a s => P a + s) 0 (window cur (p + 1) h)
    = fold_right (fun a s => P a + s) 0 (second (cur - p) h) + fold_right (fun a s => P a + s) 0 (window cur p h).
Proof.
  intros Hp P. induction h as [|[t a] h IH]; [reflexivity|].
  unfold window, second in *. cbn [filter fst] in *.
  destruct (t =? cur - p) eqn:E1.
  - replace (cur - (p + 1) <? t) with true by lia. replace (cur - p <? t) with false by lia. replace (t <=? cur) with true by lia.
    cbn [andb map snd fold_right]. lia.
  - replace (cur - (p + 1) <? t) with (cur - p <? t) by lia. destruct ((cur - p <? t) && (t <=? cur)); cbn [map snd fold_right]; lia.
Qed.

Definition total {A} (P : A -> Z) (l : list A) : Z := fold_right (fun a s => P a + s) 0 l.

Lemma total_app {A} (P : A -> Z) l k : total P (l ++ k) = total P l + total P k.
Proof. unfold total. induction l as [|a l IH]; cbn [app fold_right]; lia. Qed.

Lemma total_one {A} (P : A -> Z) a : total P [a] = P a.
Proof. unfold total. cbn [fold_right]. lia. Qed.

(** sums of per-second totals over the window *)
Lemma window_total {A} (P : A -> Z) cur (h : history A) : forall p, 0 <= p ->
  total P (window cur p h) = total (fun k => total P (second (cur - Z.of_nat k) h)) (seq 0 (Z.to_nat p)).
Proof.
  intros p Hp. pattern p. apply natlike_ind; [| |assumption].
  - cbn [Z.to_nat seq]. unfold window. replace (filter _ h) with (@nil (Z * A)); [reflexivity|].
    symmetry. clear. induction h as [|[t a] h IH]; [reflexivity|]. cbn [filter fst]. replace ((cur - 0 <? t) && (t <=? cur)) with false by lia. exact IH.
  - intros q Hq IH. unfold Z.succ. unfold total at 1. rewrite window_split by assumption. fold (total P (second (cur - q) h)). fold (total P (window cur q h)).
    rewrite IH. replace (Z.to_nat (q + 1)) with (Z.to_nat q + 1)%nat by lia. rewrite seq_app, total_app. cbn [seq].
    rewrite total_one. replace (cur - Z.of_nat (0 + Z.to_nat q)) with (cur - q) by lia. lia.
Qed.

(** * 64-bit sums *)
Lemma int64_plus_l a b : int64 (int64 a + b) = int64 (a + b).
Proof.
  unfold int64.
  rewrite <- (wrapS_wrapU 64 (wrapS 64 a + b)) by lia.
  rewrite <- (wrapS_wrapU 64 (a + b)) by lia.
  f_equal. rewrite Z.add_mod by lia.
  replace (wrapS 64 a mod 2 ^ 64) with (a mod 2 ^ 64).
  - rewrite <- Z.add_mod by lia. reflexivity.
  - Transparent wrapS. unfold wrapS. Opaque wrapS.
    rewrite Zminus_mod_idemp_l. f_equal. lia.
Qed.
Lemma int64_plus_r a b : int64 (a + int64 b) = int64 (a + b).
Proof. rewrite Z.add_comm, int64_plus_l, Z.add_comm. reflexivity. Qed.

Definition cnt (x : sample) : Z := 1.
Definition ela (x : sample) : Z := Z.max 0 (fst x).
Definition err (x : sample) : Z := if snd x then 1 else 0.

Definition smp_add (x : sample) : sbucket -> sbucket := sb_add (fst x) (snd x).

Lemma fold_smp : forall l b c e r, b = {| sb_count := int64 c; sb_elapsed := int64 e; sb_error := int64 r |} ->
  fold_left (fun b a => smp_add a b) l b
  = {| sb_count := int64 (c + total cnt l); sb_elapsed := int64 (e + total ela l); sb_error := int64 (r + total err l) |}.
Proof.
  induction l as [|x l IH]; intros b c e r ->; cbn [fold_left total fold_right].
  - rewrite !Z.add_0_r. reflexivity.
  - rewrite (IH _ (c + cnt x) (e + ela x) (r + err x)).
    + f_equal; f_equal; unfold total; lia.
    + unfold smp_add, sb_add. cbn [sb_count sb_elapsed sb_error].
      rewrite !int64_plus_l. f_equal.
      * f_equal. f_equal. unfold ela. destruct (fst x <? 0) eqn:E; lia.
      * unfold err. destruct (snd x); [reflexivity|rewrite Z.add_0_r; reflexivity].
Qed.

Lemma bucket_of_smp t h : bucket_of sbucket0 smp_add t h
  = {| sb_count := int64 (total cnt (second t h)); sb_elapsed := int64 (total ela (second t h)); sb_error := int64 (total err (second t h)) |}.
Proof. unfold bucket_of. rewrite (fold_smp _ _ 0 0 0) by reflexivity. reflexivity. Qed.

Lemma sb_sum_spec : forall (l : list nat) f g k a c e r, a = {| sb_count := int64 c; sb_elapsed := int64 e; sb_error := int64 r |} ->
  fold_left (fun a b => {| sb_count := int64 (sb_count a + sb_count b);
                           sb_elapsed := int64 (sb_elapsed a + sb_elapsed b);
                           sb_error := int64 (sb_error a + sb_error b) |})
    (map (fun i => {| sb_count := int64 (f i); sb_elapsed := int64 (g i); sb_error := int64 (k i) |}) l) a
  = {| sb_count := int64 (c + total f l); sb_elapsed := int64 (e + total g l); sb_error := int64 (r + total k l) |}.
Proof.
  induction l as [|i l IH]; intros f g k a c e r ->; cbn [map fold_left total fold_right].
  - rewrite !Z.add_0_r. reflexivity.
  - rewrite (IH _ _ _ _ (c + f i) (e + g i) (r + k i)).
    + f_equal; f_equal; unfold total; lia.
    + cbn [sb_count sb_elapsed sb_error]. rewrite !int64_plus_l, !int64_plus_r. reflexivity.
Qed.

Lemma sums_exact cur p h : 0 <= p ->
  sb_sum (buckets sbucket0 smp_add cur p h)
  = {| sb_count := int64 (total cnt (window cur p h)); sb_elapsed := int64 (total ela (window cur p h)); sb_error := int64 (total err (window cur p h)) |}.
Proof.
  intros Hp. unfold sb_sum, buckets. rewrite !window_total by assumption.
  erewrite map_ext by (intros; apply bucket_of_smp).
  rewrite (sb_sum_spec _ _ _ _ _ 0 0 0) by reflexivity. reflexivity.
Qed.

Lemma total_cnt l : total cnt l = zlen l.
Proof. unfold total. induction l as [|x l IH]; [reflexivity|]. cbn [fold_right]. rewrite IH, zlen_cons. reflexivity. Qed.
Lemma total_ela l : total ela l = sum_elapsed l.
Proof. reflexivity. Qed.
Lemma total_err l : total err l = n_errors l.
Proof.
  unfold total, n_errors. induction l as [|x l IH]; [reflexivity|]. cbn [fold_right filter]. rewrite IH. unfold err.
  destruct (snd x); [rewrite zlen_cons; reflexivity|reflexivity].
Qed.

(** * Runs of the service meter *)
Lemma exact_init c now : 0 <= now -> exact_after sbucket0 smp_add c [] (new_metering sbucket0 now).
Proof.
  intros Hn. split; [|split; [constructor|]].
  - split; [exact Hn|]. split; [apply ring_rem; assumption|]. unfold new_metering. cbn [m_table]. unfold zlen. rewrite repeat_length. reflexivity.
  - intros s _ _. unfold new_metering. cbn [m_table]. apply tab_get_repeat. change (Z.of_nat (Z.to_nat bucket_size)) with 301. apply ring_range.
Qed.

Lemma sm_run_exact c : forall es h m, exact_after sbucket0 smp_add c h m -> c <= m_time m -> ticking (m_time m) es ->
  exists m', sm_run es m = Some m' /\ exact_after sbucket0 smp_add c (h ++ adds es) m' /\ m_time m' = last_time (m_time m) es /\ m_time m <= m_time m'.
Proof.
  induction es as [|[t o] es IH]; intros h m X Hcm T.
  - exists m. split; [reflexivity|]. cbn [adds]. rewrite app_nil_r. split; [assumption|]. split; [reflexivity|lia].
  - destruct T as [T1 T2]. assert (0 <= m_time m) as Hm by apply X. cbn [sm_run]. destruct o as [e r|p]; cbn [sm_step adds last_time].
    + destruct (on_current_exact sbucket0 smp_add c t (e, r) h m ltac:(lia) T1 ltac:(lia) X) as (m1 & E1 & Tm & X1).
      unfold service_add. change (sb_add e r) with (smp_add (e, r)). rewrite E1.
      rewrite <- Tm in T2. destruct (IH _ _ X1 ltac:(lia) T2) as (m2 & E2 & X2 & L2 & G2). exists m2. split; [exact E2|].
      rewrite <- app_assoc in X2. split; [exact X2|]. split; [congruence|lia].
    + unfold service_counters, search.
      destruct (get_position_exact sbucket0 smp_add c t h m ltac:(lia) T1 X) as (m1 & E1 & Tm & X1). rewrite E1.
      destruct (walk_spec (m_table m1) (Z.to_nat (check_period p)) t) as (bs & -> & _); [apply X1|].
      rewrite <- Tm in T2. destruct (IH _ _ X1 ltac:(lia) T2) as (m2 & E2 & X2 & L2 & G2). exists m2. split; [exact E2|].
      split; [exact X2|]. split; [congruence|lia].
Qed.

(** Any state keeps its shape whatever the (non-negative) clock readings. *)
Lemma sm_run_shape : forall es m, shape m -> Forall (fun e => 0 <= fst e) es -> exists m', sm_run es m = Some m' /\ shape m'.
Proof.
  induction es as [|[t o] es IH]; intros m Sh F; [exists m; split; [reflexivity|assumption]|].
  inversion F as [|? ? Ht F']; subst. cbn [fst] in Ht. cbn [sm_run].
  destruct (get_position_shape sbucket0 t m Ht Sh) as (m1 & E1 & Sh1 & T1 & _).
  assert (0 <= ring t < zlen (m_table m1)) as R by (destruct Sh1 as (_ & _ & ->); apply ring_range).
  destruct o as [e r|p]; cbn [sm_step].
  - unfold service_add, on_current. rewrite E1. rewrite (tab_get_nth _ _ sbucket0 R).
    destruct (tab_set_some (m_table m1) (ring t) (sb_add e r (nth (Z.to_nat (ring t)) (m_table m1) sbucket0)) R) as (t1 & -> & L1 & _).
    apply IH; [|assumption]. destruct Sh1 as (S1 & S2 & S3). split; [exact S1|]. split; [exact S2|]. cbn [m_table]. lia.
  - unfold service_counters, search. rewrite E1.
    destruct (walk_spec (m_table m1) (Z.to_nat (check_period p)) t) as (bs & -> & _); [apply Sh1|]. apply IH; assumption.
Qed.

(** A state of the right shape is exact, vacuously, for the seconds after its own. *)
Lemma shape_exact m : shape m -> exact_after sbucket0 smp_add (m_time m) [] m.
Proof. intros Sh. split; [assumption|]. split; [constructor|]. intros; lia. Qed.

(** * Runs of a value meter *)
Lemma vexact_init c now : 0 <= now -> exact_after vbucket0 vb_add c [] (new_metering vbucket0 now).
Proof.
  intros Hn. split; [|split; [constructor|]].
  - split; [exact Hn|]. split; [apply ring_rem; assumption|]. unfold new_metering. cbn [m_table]. unfold zlen. rewrite repeat_length. reflexivity.
  - intros s _ _. unfold new_metering. cbn [m_table]. apply tab_get_repeat. change (Z.of_nat (Z.to_nat bucket_size)) with 301. apply ring_range.
Qed.

Lemma vm_run_exact c : forall es h m, exact_after vbucket0 vb_add c h m -> c <= m_time m -> ticking (m_time m) es ->
  exists m', vm_run es m = Some m' /\ exact_after vbucket0 vb_add c (h ++ vadds es) m' /\ m_time m' = last_time (m_time m) es /\ m_time m <= m_time m'.
Proof.
  induction es as [|[t o] es IH]; intros h m X Hcm T.
  - exists m. split; [reflexivity|]. cbn [vadds]. rewrite app_nil_r. split; [assumption|]. split; [reflexivity|lia].
  - destruct T as [T1 T2]. assert (0 <= m_time m) as Hm by apply X. cbn [vm_run]. destruct o as [v|p]; cbn [vm_step vadds last_time].
    + destruct (on_current_exact vbucket0 vb_add c t v h m ltac:(lia) T1 ltac:(lia) X) as (m1 & E1 & Tm & X1).
      unfold value_add. rewrite E1.
      rewrite <- Tm in T2. destruct (IH _ _ X1 ltac:(lia) T2) as (m2 & E2 & X2 & L2 & G2). exists m2. split; [exact E2|].
      rewrite <- app_assoc in X2. split; [exact X2|]. split; [congruence|lia].
    + unfold value_counters, search.
      destruct (get_position_exact vbucket0 vb_add c t h m ltac:(lia) T1 X) as (m1 & E1 & Tm & X1). rewrite E1.
      destruct (walk_spec (m_table m1) (Z.to_nat (check_period p)) t) as (bs & -> & _); [apply X1|].
      rewrite <- Tm in T2. destruct (IH _ _ X1 ltac:(lia) T2) as (m2 & E2 & X2 & L2 & G2). exists m2. split; [exact E2|].
      split; [exact X2|]. split; [congruence|lia].
Qed.

Lemma fold_vcount : forall l b c, vb_count b = int32 c -> vb_count (fold_left (fun b a => vb_add a b) l b) = int32 (c + zlen l).
Proof.
  induction l as [|x l IH]; intros b c Hb; cbn [fold_left].
  - change (zlen []) with 0. rewrite Z.add_0_r. assumption.
  - rewrite (IH _ (c + 1)); [rewrite zlen_cons; f_equal; lia|]. unfold vb_add. cbn [vb_count]. rewrite Hb. apply int32_plus_l.
Qed.
Lemma fold_vvalue : forall l b, vb_value (fold_left (fun b a => vb_add a b) l b) = fold_left f64_add l (vb_value b).
Proof. induction l as [|x l IH]; intros b; cbn [fold_left]; [reflexivity|]. rewrite IH. reflexivity. Qed.

Lemma vsum_count : forall (l : list nat) (f : nat -> vbucket) a c, vb_count a = int32 c -> (forall i, exists n, vb_count (f i) = int32 n) ->
  forall g, (forall i, vb_count (f i) = int32 (g i)) ->
  vb_count (fold_left (fun a b => {| vb_value := f64_add (vb_value a) (vb_value b); vb_count := int32 (vb_count a + vb_count b) |}) (map f l) a)
  = int32 (c + total g l).
Proof.
  induction l as [|i l IH]; intros f a c Ha Hf g Hg; cbn [map fold_left].
  - unfold total. cbn [fold_right]. rewrite Z.add_0_r. assumption.
  - rewrite (IH _ _ (c + g i)) with (g := g); [|cbn [vb_count]|assumption|assumption].
    + f_equal. unfold total. cbn [fold_right]. lia.
    + rewrite Ha, Hg, int32_plus_l, int32_plus_r. reflexivity.
Qed.
Lemma vsum_value : forall (l : list vbucket) a,
  vb_value (fold_left (fun a b => {| vb_value := f64_add (vb_value a) (vb_value b); vb_count := int32 (vb_count a + vb_count b) |}) l a)
  = fold_left f64_add (map vb_value l) (vb_value a).
Proof. induction l as [|b l IH]; intros a; cbn [map fold_left]; [reflexivity|]. rewrite IH. reflexivity. Qed.

Lemma window_empty {A} cur p (h : history A) : p <= 0 -> window cur p h = [].
Proof.
  intros Hp. unfold window. replace (filter _ h) with (@nil (Z * A)); [reflexivity|].
  symmetry. induction h as [|[t a] h IH]; [reflexivity|]. cbn [filter fst]. replace ((cur - p <? t) && (t <=? cur)) with false by lia. exact IH.
Qed.
Lemma buckets_empty {A B} (b0 : B) (add : A -> B -> B) cur p h : p <= 0 -> buckets b0 add cur p h = [].
Proof. intros Hp. unfold buckets. replace (Z.to_nat p) with O by lia. reflexivity. Qed.

Lemma total_ext {A} (P Q : A -> Z) l : (forall a, P a = Q a) -> total P l = total Q l.
Proof. intros H. unfold total. induction l as [|a l IH]; [reflexivity|]. cbn [fold_right]. rewrite IH, H. reflexivity. Qed.
Lemma total_ones {A} (l : list A) : total (fun _ => 1) l = zlen l.
Proof. unfold total. induction l as [|x l IH]; [reflexivity|]. cbn [fold_right]. rewrite IH, zlen_cons. reflexivity. Qed.

Lemma vsums_exact cur p h :
  vb_value (vb_sum (buckets vbucket0 vb_add cur p h))
    = fold_left f64_add (map (fun k => fold_left f64_add (second (cur - Z.of_nat k) h) (S754_zero false)) (seq 0 (Z.to_nat p))) (S754_zero false)
  /\ vb_count (vb_sum (buckets vbucket0 vb_add cur p h)) = int32 (zlen (window cur p h)).
Proof.
  split.
  - unfold vb_sum. rewrite vsum_value. cbn [vb_value vbucket0]. f_equal. unfold buckets. rewrite map_map. apply map_ext.
    intros k. unfold bucket_of. rewrite fold_vvalue. reflexivity.
  - destruct (Z_le_gt_dec p 0) as [Hp|Hp]; [rewrite buckets_empty, window_empty by assumption; reflexivity|].
    unfold vb_sum, buckets. erewrite (vsum_count _ _ _ 0) with (g := fun k => zlen (second (cur - Z.of_nat k) h)); [|reflexivity| |].
    + rewrite <- total_ones, window_total by lia. rewrite Z.add_0_l. rewrite (total_ext (fun k => zlen (second (cur - Z.of_nat k) h)) (fun k => total (fun _ => 1) (second (cur - Z.of_nat k) h))); [reflexivity|].
      intros k. symmetry. apply total_ones.
    + intros i. eexists. unfold bucket_of. rewrite (fold_vcount _ _ 0) by reflexivity. reflexivity.
    + intros i. unfold bucket_of. rewrite (fold_vcount _ _ 0) by reflexivity. reflexivity.
Qed.
