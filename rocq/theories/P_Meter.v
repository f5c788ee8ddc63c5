(** C33-C36: metering windows, rates, clock steps, published counters. *)
From Coq Require Import ZifyBool.
From Coq Require Import Floats.SpecFloat.
From Verif Require Import GoInt L_Codec M_Float M_Value M_Access L_Access M_Meter S_Meter L_Meter L_MeterFloat.

(** ** C33 *)

(** The counters that the samples [w] of a window of [p] seconds should give. *)
Definition counters_of_samples (p : Z) (w : list sample) (c : service_counter) : Prop :=
  sc_tps c = f32_div (f32_of_int (zlen w)) (f32_of_int p) /\
  sc_elapsed c = (if zlen w =? 0 then 0 else sum_elapsed w / zlen w) /\
  sc_error_rate c = (if zlen w =? 0 then S754_zero false
                     else f32_mul (f32_div (f32_of_int (n_errors w)) (f32_of_int (zlen w))) (f32_of_int 100)).

(** The 64-bit sums of the window do not overflow. *)
Definition fits (w : list sample) : Prop := zlen w <= 9223372036854775807 /\ sum_elapsed w <= 9223372036854775807.

Lemma sum_elapsed_nonneg w : 0 <= sum_elapsed w.
Proof. unfold sum_elapsed. induction w as [|x w IH]; cbn [fold_right]; lia. Qed.
Lemma n_errors_range w : 0 <= n_errors w <= zlen w.
Proof.
  unfold n_errors. induction w as [|x w IH]; [unfold zlen; cbn; lia|]. cbn [filter]. destruct (snd x); rewrite ?zlen_cons in *; lia.
Qed.

Lemma counter_exact p cur h : fits (window cur p h) ->
  counters_of_samples p (window cur p h) (counter_of p (sb_sum (buckets sbucket0 smp_add cur p h))).
Proof.
  intros [F1 F2]. set (w := window cur p h) in *.
  assert (sb_sum (buckets sbucket0 smp_add cur p h) = {| sb_count := zlen w; sb_elapsed := sum_elapsed w; sb_error := n_errors w |}) as ->.
  { pose proof (sum_elapsed_nonneg w). pose proof (n_errors_range w). pose proof (zlen_nonneg w).
    destruct (Z_le_gt_dec p 0) as [Hp|Hp].
    - rewrite buckets_empty by assumption. subst w. rewrite window_empty by assumption. reflexivity.
    - rewrite sums_exact by lia. fold w. rewrite total_cnt, total_ela, total_err, !int64_id by (unfold in_int64; lia). reflexivity. }
  pose proof (sum_elapsed_nonneg w). pose proof (zlen_nonneg w).
  unfold counters_of_samples, counter_of. cbn [sc_tps sc_elapsed sc_error_rate sb_count sb_elapsed sb_error].
  split; [reflexivity|]. split; [|reflexivity]. destruct (zlen w =? 0) eqn:E; [reflexivity|].
  rewrite Z.quot_div_nonneg by lia. apply int64_id. unfold in_int64.
  pose proof (Z.div_pos (sum_elapsed w) (zlen w)). pose proof (Z.div_le_upper_bound (sum_elapsed w) (zlen w) (sum_elapsed w)). nia.
Qed.

(** For every start time, every sequence of additions and queries with a clock that never goes
    back, and every later query of any period, the answer is that of exactly the additions of the
    last [min p 300] seconds. *)
Theorem C33_service_window_exact now es cur p :
  0 <= now -> ticking now es -> last_time now es <= cur ->
  fits (window cur (Z.min p 300) (adds es)) ->
  exists m c m', sm_run es (new_metering sbucket0 now) = Some m /\ service_counters cur p m = Some (c, m')
    /\ counters_of_samples (Z.min p 300) (window cur (Z.min p 300) (adds es)) c.
Proof.
  intros Hn T Hl F. set (c := Z.min now (cur - 301)).
  destruct (sm_run_exact c es [] _ (exact_init c now Hn) ltac:(cbn [new_metering m_time]; lia) T) as (m & E & X & L & G).
  cbn [app new_metering m_time] in *. exists m.
  destruct (search_exact sbucket0 smp_add c cur p (adds es) m ltac:(lia) ltac:(lia) X ltac:(left; lia)) as (m' & E' & _ & _).
  unfold service_counters. rewrite E'. eexists. exists m'. split; [exact E|]. split; [reflexivity|]. apply counter_exact. exact F.
Qed.

(** The value meter: the sum is the float64 sum of the per-second sums, and the average divides it
    by the number of additions in the window. *)
Theorem C33_value_window now es cur p :
  0 <= now -> ticking now es -> last_time now es <= cur ->
  zlen (window cur (Z.min p 300) (vadds es)) <= 2147483647 ->
  exists m c m', vm_run es (new_metering vbucket0 now) = Some m /\ value_counters cur p m = Some (c, m')
    /\ vm_sum c = fold_left f64_add
         (map (fun k => fold_left f64_add (second (cur - Z.of_nat k) (vadds es)) (S754_zero false)) (seq 0 (Z.to_nat (Z.min p 300))))
         (S754_zero false)
    /\ vm_avg c = if zlen (window cur (Z.min p 300) (vadds es)) =? 0 then S754_zero false
                  else f64_div (vm_sum c) (f64_of_int (zlen (window cur (Z.min p 300) (vadds es)))).
Proof.
  intros Hn T Hl F. set (c := Z.min now (cur - 301)).
  destruct (vm_run_exact c es [] _ (vexact_init c now Hn) ltac:(cbn [new_metering m_time]; lia) T) as (m & E & X & L & G).
  cbn [app new_metering m_time] in *. exists m.
  destruct (search_exact vbucket0 vb_add c cur p (vadds es) m ltac:(lia) ltac:(lia) X ltac:(left; lia)) as (m' & E' & _ & _).
  unfold value_counters. rewrite E'. eexists. exists m'. split; [exact E|]. split; [reflexivity|]. cbn [vm_sum vm_avg].
  destruct (vsums_exact cur (Z.min p 300) (vadds es)) as [V1 V2].
  rewrite V1, V2, int32_id by (pose proof (zlen_nonneg (window cur (Z.min p 300) (vadds es))); unfold in_int32; lia).
  split; reflexivity.
Qed.

(** For whole, non-negative values (the agent records numbers of active services) with a total of at
    most 2^53 the float64 sum is exact. *)
Definition sum_ints (l : list Z) : Z := fold_right Z.add 0 l.
Definition int_adds (h : history Z) : list (Z * spec_float) := map (fun e => (fst e, f64_of_int (snd e))) h.

Lemma fold_ints : forall l a, 0 <= a -> Forall (fun x => 0 <= x) l -> a + sum_ints l <= 2 ^ 53 ->
  fold_left f64_add (map f64_of_int l) (f64_of_int a) = f64_of_int (a + sum_ints l).
Proof.
  induction l as [|x l IH]; intros a Ha F Hs; cbn [map fold_left].
  - unfold sum_ints. cbn [fold_right]. rewrite Z.add_0_r. reflexivity.
  - inversion F as [|? ? Hx F']; subst. cbn [sum_ints fold_right] in Hs. fold (sum_ints l) in Hs.
    assert (0 <= sum_ints l). { clear - F'. induction F' as [|y l Hy F IH]; unfold sum_ints in *; cbn [fold_right]; lia. }
    rewrite f64_add_int by lia. rewrite IH by (assumption || lia). f_equal. cbn [sum_ints fold_right]. fold (sum_ints l). lia.
Qed.
Lemma second_ints t h : second t (int_adds h) = map f64_of_int (second t h).
Proof.
  unfold second, int_adds. induction h as [|[s v] h IH]; [reflexivity|]. cbn [map filter fst snd]. destruct (s =? t); cbn [map snd]; [f_equal|]; exact IH.
Qed.
Lemma window_ints cur p h : window cur p (int_adds h) = map f64_of_int (window cur p h).
Proof.
  unfold window, int_adds. induction h as [|[s v] h IH]; [reflexivity|]. cbn [map filter fst snd]. destruct ((cur - p <? s) && (s <=? cur)); cbn [map snd]; [f_equal|]; exact IH.
Qed.
Lemma second_forall {A} (P : A -> Prop) t (h : history A) : Forall (fun e => P (snd e)) h -> Forall P (second t h).
Proof.
  intros F. unfold second. induction F as [|e h He F IH]; [constructor|]. cbn [filter]. destruct (fst e =? t); [|exact IH]. cbn [map]. constructor; assumption.
Qed.

Theorem C33_value_window_integers now es h cur p :
  0 <= now -> ticking now es -> last_time now es <= cur -> vadds es = int_adds h ->
  Forall (fun e => 0 <= snd e) h ->
  zlen (window cur (Z.min p 300) h) <= 2147483647 -> sum_ints (window cur (Z.min p 300) h) <= 2 ^ 53 ->
  exists m c m', vm_run es (new_metering vbucket0 now) = Some m /\ value_counters cur p m = Some (c, m')
    /\ vm_sum c = f64_of_int (sum_ints (window cur (Z.min p 300) h))
    /\ vm_avg c = if zlen (window cur (Z.min p 300) h) =? 0 then S754_zero false
                  else f64_div (f64_of_int (sum_ints (window cur (Z.min p 300) h))) (f64_of_int (zlen (window cur (Z.min p 300) h))).
Proof.
  intros Hn T Hl Eh Hpos Hz Hs.
  assert (zlen (window cur (Z.min p 300) (vadds es)) = zlen (window cur (Z.min p 300) h)) as Ez by (rewrite Eh, window_ints; unfold zlen; rewrite map_length; reflexivity).
  destruct (C33_value_window now es cur p Hn T Hl ltac:(lia)) as (m & c & m' & E1 & E2 & E3 & E4).
  exists m, c, m'. split; [exact E1|]. split; [exact E2|].
  assert (vm_sum c = f64_of_int (sum_ints (window cur (Z.min p 300) h))) as Es.
  { rewrite E3. clear E4 E3 E2 E1. rewrite Eh. set (q := Z.min p 300) in *.
    destruct (Z_le_gt_dec q 0) as [Hq|Hq]; [rewrite window_empty by assumption; replace (Z.to_nat q) with O by lia; reflexivity|].
    assert (sum_ints (window cur q h) = sum_ints (map (fun k => sum_ints (second (cur - Z.of_nat k) h)) (seq 0 (Z.to_nat q)))) as Ew.
    { pose proof (window_total (fun x => x) cur h q ltac:(lia)) as W. unfold total in W. unfold sum_ints. etransitivity; [exact W|].
      clear. induction (seq 0 (Z.to_nat q)) as [|k l IH]; [reflexivity|]. cbn [map fold_right]. rewrite <- IH. reflexivity. }
    assert (forall k, 0 <= sum_ints (second (cur - Z.of_nat k) h)) as Hk.
    { intros k. pose proof (second_forall (fun x => 0 <= x) (cur - Z.of_nat k) h Hpos) as F. clear - F.
      induction F as [|y l Hy F IH]; unfold sum_ints in *; cbn [fold_right]; lia. }
    rewrite Ew in *. change (S754_zero false) with (f64_of_int 0).
    assert (forall l, 0 <= sum_ints (map (fun k : nat => sum_ints (second (cur - Z.of_nat k) h)) l)) as Hnn.
    { clear - Hk. intros l. induction l as [|k l IH]; unfold sum_ints in *; cbn [map fold_right]; [lia|]. specialize (Hk k). lia. }
    erewrite (map_ext_in _ (fun k : nat => f64_of_int (sum_ints (second (cur - Z.of_nat k) h)))).
    - rewrite <- (map_map (fun k : nat => sum_ints (second (cur - Z.of_nat k) h)) f64_of_int). rewrite fold_ints; [reflexivity|lia| |lia].
      apply Forall_forall. intros x Hx. apply in_map_iff in Hx as (k & <- & _). apply Hk.
    - intros k Ik. rewrite second_ints. rewrite fold_ints; [reflexivity|lia|apply second_forall; assumption|].
      apply in_split in Ik as (l1 & l2 & El). rewrite El, map_app in Hs. cbn [map] in Hs.
      assert (forall a b, sum_ints (a ++ b) = sum_ints a + sum_ints b) as Sa.
      { clear. intros a b. unfold sum_ints. induction a as [|x a IH]; cbn [app fold_right]; lia. }
      rewrite Sa in Hs. assert (forall x l, sum_ints (x :: l) = x + sum_ints l) as Sc by reflexivity. rewrite Sc in Hs.
      pose proof (Hnn l1). pose proof (Hnn l2). lia. }
  split; [exact Es|]. rewrite E4, Es, Ez. reflexivity.
Qed.

Example C33_case :
  let es := [(1000, SmAdd 100 false); (1000, SmAdd 301 true); (1299, SmGet 30); (1300, SmAdd (-5) false); (1700, SmAdd 7 false)] in
  ticking 990 es /\ window 1300 300 (adds es) = [(-5, false)] /\ window 1299 300 (adds es) = [(100, false); (301, true)].
Proof. cbn [ticking]. split; [lia|]. split; reflexivity. Qed.

(** A query of period 0 divides 0 by 0. *)
Theorem C33_zero_period_is_nan m now cur c m' :
  m = new_metering sbucket0 now -> service_counters cur 0 m = Some (c, m') -> sc_tps c = S754_nan.
Proof.
  intros ->. unfold service_counters, search. destruct (get_position sbucket0 cur (new_metering sbucket0 now)) as [[pos m1]|]; [|discriminate].
  cbn [check_period bucket_size Z.leb Z.compare Z.to_nat walk]. intros [= <- <-]. reflexivity.
Qed.

(** ** C34 *)
Theorem C34_rates now es cur p m c m' :
  0 <= now -> ticking now es -> last_time now es <= cur -> 1 <= p ->
  fits (window cur (Z.min p 300) (adds es)) ->
  sm_run es (new_metering sbucket0 now) = Some m -> service_counters cur p m = Some (c, m') ->
  (* the error rate is between 0 and 100 *)
  SFleb (f32_of_int 0) (sc_error_rate c) = true /\ SFleb (sc_error_rate c) (f32_of_int 100) = true /\
  (* the mean lies between any bounds of the elapsed times of the window *)
  (forall lo hi, window cur (Z.min p 300) (adds es) <> [] ->
     Forall (fun x => lo <= Z.max 0 (fst x) <= hi) (window cur (Z.min p 300) (adds es)) -> lo <= sc_elapsed c <= hi) /\
  (* the rate per second is a non-negative number *)
  SFleb (f32_of_int 0) (sc_tps c) = true /\ SFltb (sc_tps c) (S754_infinity false) = true.
Proof.
  intros Hn T Hl Hp F E1 E2. destruct (C33_service_window_exact now es cur p Hn T Hl F) as (m0 & c0 & m0' & E3 & E4 & (Q1 & Q2 & Q3)).
  rewrite E1 in E3. injection E3 as <-. rewrite E2 in E4. injection E4 as <- <-.
  set (w := window cur (Z.min p 300) (adds es)) in *. destruct F as [F1 F2].
  pose proof (n_errors_range w) as NE. pose proof (zlen_nonneg w).
  split; [|split; [|split]].
  - rewrite Q3. destruct (zlen w =? 0) eqn:E; [reflexivity|]. apply error_rate_range; lia.
  - rewrite Q3. destruct (zlen w =? 0) eqn:E; [reflexivity|]. apply error_rate_range; lia.
  - intros lo hi Hne FB. rewrite Q2. assert (zlen w <> 0) by (intro H0; apply zlen_0_nil in H0; contradiction).
    replace (zlen w =? 0) with false by lia.
    assert (lo * zlen w <= sum_elapsed w <= hi * zlen w) as B.
    { clear - FB. unfold sum_elapsed. induction FB as [|x w Hx FB IH]; [change (zlen []) with 0; cbn [fold_right]; lia|]. rewrite zlen_cons. cbn [fold_right]. lia. }
    split; [apply Z.div_le_lower_bound; lia|apply Z.div_le_upper_bound; lia].
  - rewrite Q1. destruct (tps_range (zlen w) (Z.min p 300) ltac:(lia) ltac:(lia)) as (x & -> & Fx & Rx).
    split; [|destruct x as [| | |s mm ee B]; (discriminate Fx || reflexivity)].
    apply tps_nonneg with (1 := ltac:(lia) : 0 <= zlen w <= 2 ^ 63) (2 := ltac:(lia) : 1 <= Z.min p 300 <= 300); assumption.
Qed.

(** ** C35 *)

(** Refuted.  Here every call carries the real time and what the clock showed.  One service ends at
    real second 5000 when the clock shows 1000.  At real second 5101 the clock has been set back and
    shows 706: the 30-second counters report the service, although it ended 101 seconds ago. *)
Theorem C35_clock_step_refuted :
  exists (log : list (Z * (Z * sm_op))) real cur m c m',
    ticking 0 log /\ last_time 0 log <= real /\
    window real 30 (adds (map (fun e => (fst e, snd (snd e))) log)) = [] /\
    sm_run (map snd log) (new_metering sbucket0 990) = Some m /\
    service_counters cur 30 m = Some (c, m') /\
    sc_tps c = f32_div (f32_of_int 1) (f32_of_int 30) /\ sc_elapsed c = 1234.
Proof.
  exists [(5000, (1000, SmAdd 1234 false)); (5100, (1100, SmGet 30))] , 5101, 706.
  destruct (sm_run (map snd [(5000, (1000, SmAdd 1234 false)); (5100, (1100, SmGet 30))]) (new_metering sbucket0 990)) as [m|] eqn:E;
    [|vm_compute in E; discriminate E].
  destruct (service_counters 706 30 m) as [[c m']|] eqn:E2; [|vm_compute in E; injection E as <-; vm_compute in E2; discriminate E2].
  exists m, c, m'. split; [cbn [ticking]; lia|]. split; [cbn [last_time]; lia|]. split; [vm_compute; reflexivity|].
  split; [first [exact E|reflexivity]|]. split; [exact E2|].
  vm_compute in E. injection E as <-. vm_compute in E2. injection E2 as <- <-. split; vm_compute; reflexivity.
Qed.

(** What holds: whatever the clock did before (any non-negative readings, in any order), once it
    runs forward from some reading [c] on, every window that starts after second [c] is exact. *)
Theorem C35_recovers_partial now es0 es1 cur p m0 :
  0 <= now -> Forall (fun e => 0 <= fst e) es0 ->
  sm_run es0 (new_metering sbucket0 now) = Some m0 ->
  let c := last_time now es0 in
  ticking c es1 -> last_time c es1 <= cur -> c <= cur - Z.min p 300 ->
  fits (window cur (Z.min p 300) (adds es1)) ->
  exists m r m', sm_run (es0 ++ es1) (new_metering sbucket0 now) = Some m /\ service_counters cur p m = Some (r, m')
    /\ counters_of_samples (Z.min p 300) (window cur (Z.min p 300) (adds es1)) r.
Proof.
  intros Hn F0 E0 c T Hl Hw F.
  assert (shape (new_metering sbucket0 now)) as Sh0 by apply (exact_init 0 now Hn).
  assert (forall es m m1, shape m -> Forall (fun e => 0 <= fst e) es -> sm_run es m = Some m1 -> shape m1 /\ m_time m1 = last_time (m_time m) es) as K.
  { clear. induction es as [|[t o] es IH]; intros m m1 Sh Fa E; [injection E as <-; split; [assumption|reflexivity]|].
    inversion Fa as [|? ? Ht Fa']; subst. cbn [fst] in Ht.
    destruct (sm_run_shape [(t, o)] m Sh (Forall_cons (P := fun e => 0 <= fst e) (t, o) Ht (Forall_nil _))) as (m2 & E2 & Sh2).
    cbn [sm_run] in E, E2. destruct (sm_step m (t, o)) as [m3|] eqn:Es; [|discriminate]. injection E2 as ->.
    destruct (IH _ _ Sh2 Fa' E) as [S1 L1]. split; [exact S1|]. cbn [last_time]. rewrite L1. f_equal.
    destruct (get_position_shape sbucket0 t m Ht Sh) as (m4 & E4 & Sh4 & T4 & _). destruct o as [e r|q]; cbn [sm_step] in Es.
    - unfold service_add, on_current in Es. rewrite E4 in Es. destruct (tab_get (m_table m4) (ring t)); [|discriminate]. destruct (tab_set (m_table m4) (ring t) (sb_add e r s)); [|discriminate].
      injection Es as <-. exact T4.
    - unfold service_counters, search in Es. rewrite E4 in Es. destruct (walk (Z.to_nat (check_period q)) (ring t) (m_table m4)); [|discriminate]. injection Es as <-. exact T4. }
  destruct (K _ _ _ Sh0 F0 E0) as [Sh1 L1]. cbn [new_metering m_time] in L1. fold c in L1.
  pose proof (shape_exact m0 Sh1) as X0. rewrite L1 in X0. rewrite <- L1 in T.
  destruct (sm_run_exact c es1 [] m0 X0 ltac:(lia) T) as (m & E & X & L & G). cbn [app] in X.
  assert (0 <= c) by (rewrite <- L1; apply Sh1).
  assert (sm_run (es0 ++ es1) (new_metering sbucket0 now) = Some m) as Ea.
  { rewrite <- E. clear - E0. revert E0. generalize (new_metering sbucket0 now) as s. induction es0 as [|e es0 IH]; intros s E0; [injection E0 as ->; reflexivity|].
    cbn [app sm_run] in *. destruct (sm_step s e); [apply IH; exact E0|discriminate]. }
  exists m. rewrite L1 in L.
  destruct (search_exact sbucket0 smp_add c cur p (adds es1) m ltac:(lia) ltac:(lia) X ltac:(left; lia)) as (m' & E' & _ & _).
  unfold service_counters. rewrite E'. eexists. exists m'. split; [exact Ea|]. split; [reflexivity|]. apply counter_exact. exact F.
Qed.

Example C35_case : exists m, sm_run [(1000, SmAdd 5 true); (600, SmAdd 6 false)] (new_metering sbucket0 990) = Some m
  /\ 600 <= 640 - Z.min 30 300 /\ window 640 30 (adds [(620, SmAdd 9 true)]) = [(9, true)].
Proof. eexists. split; [vm_compute; reflexivity|]. split; [lia|reflexivity]. Qed.

(** ** C36 *)

(** Every number published under a name is the counter of that name: the service counters of the
    last 30 (300) seconds, the mean of the recorded numbers of active services, and the speeds. *)
Theorem C36_realtime_names now r a0 a1 a2 s t s' :
  all_counters now r (a0, a1, a2) s = Some (t, s') ->
  exists sc ms mv vm mv',
    service_counters now 30 (ct_service s) = Some (sc, ms) /\
    value_add now (f64_of_int (int64 (a0 + a1 + a2))) (ct_active s) = Some mv /\
    value_counters now 30 mv = Some (vm, mv') /\
    get (of_string "GoTPS") t = Some (VFloat (f32_bits (sc_tps sc))) /\
    get (of_string "GoElapsedTime") t = Some (VDec (sc_elapsed sc)) /\
    get (of_string "GoErrorRate") t = Some (VFloat (f32_bits (sc_error_rate sc))) /\
    get (of_string "GoActiveService") t = Some (VFloat (f32_bits (f32_of_f64 (vm_avg vm)))) /\
    get (of_string "ActiveSpeed") t = Some (VList [VDec a0; VDec a1; VDec a2]) /\
    get (of_string "Goroutine") t = Some (VDec (rt_goroutines r)) /\
    get (of_string "GoCgoCall") t = Some (VDec (rt_cgo r)) /\
    get (of_string "GoHeapUsed") t = Some (VDec (int64 (rt_heap r))) /\
    get (of_string "GoGcCount") t = Some (VFloat (f32_bits (f32_of_f64 (gc_per_sec (get_gocounter (ct_prev s) r))))) /\
    get (of_string "GoGcPause") t = Some (VFloat (f32_bits (f32_of_f64 (gc_pause_per_sec (get_gocounter (ct_prev s) r))))) /\
    map fst t = map of_string ["Goroutine"; "GoCgoCall"; "GoGcCount"; "GoGcPause"; "GoHeapUsed"; "GoTPS"; "GoElapsedTime"; "GoErrorRate"; "GoActiveService"; "ActiveSpeed"]%string /\
    s' = {| ct_prev := get_gocounter (ct_prev s) r; ct_service := ms; ct_active := mv' |}.
Proof.
  unfold all_counters. set (g := get_gocounter (ct_prev s) r).
  destruct (service_counters now 30 (ct_service s)) as [[sc ms]|] eqn:E1; [|discriminate].
  destruct (value_add now (f64_of_int (int64 (a0 + a1 + a2))) (ct_active s)) as [mv|] eqn:E2; [|discriminate].
  destruct (value_counters now 30 mv) as [[vm mv']|] eqn:E3; [|discriminate].
  assert (rt_goroutines r = gc_goroutines g /\ rt_cgo r = gc_cgocalls g /\ int64 (rt_heap r) = gc_heap g) as (-> & -> & ->) by (split; [reflexivity|split; reflexivity]).
  clearbody g.
  intros [= <- <-]. exists sc, ms, mv, vm, mv'.
  split; [reflexivity|]. split; [first [exact E2|reflexivity]|]. split; [exact E3|].
  clear.
  do 10 (split; [reflexivity|]). split; reflexivity.
Qed.

Theorem C36_five_minute_names now s t s' :
  five_min_counters now s = Some (t, s') ->
  exists sc ms vm mv,
    service_counters now 300 (ct_service s) = Some (sc, ms) /\
    value_counters now 300 (ct_active s) = Some (vm, mv) /\
    get (of_string "GoTPS") t = Some (VFloat (f32_bits (sc_tps sc))) /\
    get (of_string "GoElapsedTime") t = Some (VDec (sc_elapsed sc)) /\
    get (of_string "GoErrorRate") t = Some (VFloat (f32_bits (sc_error_rate sc))) /\
    get (of_string "GoActiveService") t = Some (VFloat (f32_bits (f32_of_f64 (vm_avg vm)))) /\
    map fst t = map of_string ["GoTPS"; "GoElapsedTime"; "GoErrorRate"; "GoActiveService"]%string.
Proof.
  unfold five_min_counters.
  destruct (service_counters now 300 (ct_service s)) as [[sc ms]|] eqn:E1; [|discriminate].
  destruct (value_counters now 300 (ct_active s)) as [[vm mv]|] eqn:E3; [|discriminate].
  intros [= <- <-]. exists sc, ms, vm, mv. split; [first [exact E1|reflexivity]|]. split; [first [exact E3|reflexivity]|]. clear.
  do 4 (split; [reflexivity|]). reflexivity.
Qed.

(** The start-up pack of the collector publishes them swapped. *)
Theorem C36_collector_swapped_refuted :
  exists es m t m' sc m'',
    sm_run es (new_metering sbucket0 1000) = Some m /\ collector_service_pack 1001 m = Some (t, m') /\
    service_counters 1001 30 m = Some (sc, m'') /\
    get (of_string "GoTPS") t = Some (VFloat (f32_bits (sc_error_rate sc))) /\
    get (of_string "GoErrorRate") t = Some (VFloat (f32_bits (sc_tps sc))) /\
    get (of_string "GoTPS") t <> Some (VFloat (f32_bits (sc_tps sc))).
Proof.
  exists [(1000, SmAdd 10 true)].
  destruct (sm_run [(1000, SmAdd 10 true)] (new_metering sbucket0 1000)) as [m|] eqn:E; [|vm_compute in E; discriminate E].
  destruct (service_counters 1001 30 m) as [[sc m']|] eqn:E2; [|vm_compute in E; injection E as <-; vm_compute in E2; discriminate E2].
  exists m. unfold collector_service_pack. rewrite E2. eexists. exists m', sc, m'. split; [first [exact E|reflexivity]|]. split; [reflexivity|]. split; [reflexivity|].
  split; [reflexivity|]. split; [reflexivity|].
  vm_compute in E. injection E as <-. vm_compute in E2. injection E2 as <- <-. vm_compute. discriminate.
Qed.

Example C36_case : exists t s', all_counters 1001 {| rt_now := 5; rt_goroutines := 7; rt_cgo := 1; rt_heap := 9; rt_pause := 2; rt_gcs := 3 |} (4, 2, 1)
    {| ct_prev := gocounter0; ct_service := new_metering sbucket0 1000; ct_active := new_metering vbucket0 1000 |} = Some (t, s')
  /\ get (of_string "GoActiveService") t = Some (VFloat 1088421888).
Proof. eexists. eexists. split; [vm_compute; reflexivity|vm_compute; reflexivity]. Qed.

Print Assumptions C33_service_window_exact.
Print Assumptions C33_value_window.
Print Assumptions C33_value_window_integers.
Print Assumptions C33_zero_period_is_nan.
Print Assumptions C34_rates.
Print Assumptions C35_clock_step_refuted.
Print Assumptions C35_recovers_partial.
Print Assumptions C36_realtime_names.
Print Assumptions C36_five_minute_names.
Print Assumptions C36_collector_swapped_refuted.
