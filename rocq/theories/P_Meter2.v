(** C34, C36: the published rates as real numbers. [SF2R] (Flocq) is the real number a float stands for. *)
From Coq Require Import Reals Lra ZifyBool.
From Coq Require Import Floats.SpecFloat.
From Flocq Require Import Core BinarySingleNaN.
From Verif Require Import GoInt L_Codec M_Float M_Value M_Access L_Access M_Meter S_Meter L_Meter L_MeterFloat L_FloatReal P_Meter.
Open Scope Z_scope.

(** [s] is a finite float whose value is [v] up to the relative error [e] *)
Definition close (s : spec_float) (v e : R) : Prop :=
  is_finite_SF s = true /\ (v * (1 - e) <= SF2R radix2 s <= v * (1 + e))%R.

Lemma fl_close prec emax s v e : fl prec emax s v e -> close s v e.
Proof. intros (x & -> & F & W). split; [rewrite is_finite_SF_B2SF; exact F|rewrite SF2R_B2SF; exact W]. Qed.

Lemma int32_congr a b : a mod 2 ^ 32 = b mod 2 ^ 32 -> int32 a = int32 b.
Proof. intros H. unfold int32. rewrite <- (wrapS_wrapU 32 a), <- (wrapS_wrapU 32 b) by lia. rewrite H. reflexivity. Qed.
Lemma int32_mod a : int32 a mod 2 ^ 32 = a mod 2 ^ 32.
Proof.
  pose proof (wrapS_unbe_be 4 a ltac:(lia)) as H. assert (be 4 (int32 a) = be 4 a) as E by apply be_int32.
  apply (f_equal unbe) in E. rewrite !unbe_be in E. change (2 ^ (8 * Z.of_nat 4)) with (2 ^ 32) in E. exact E.
Qed.
Lemma int32_sub a b : int32 (int32 a - int32 b) = int32 (a - b).
Proof. apply int32_congr. rewrite Zminus_mod, !int32_mod, <- Zminus_mod. reflexivity. Qed.

(** ** C34: TPS is the number of services ended in the window per second, and the error rate the percentage of
    those that failed, to within two parts in a million *)
Theorem C34_real_rates now es cur p m c m' :
  0 <= now -> ticking now es -> last_time now es <= cur -> 1 <= p ->
  fits (window cur (Z.min p 300) (adds es)) ->
  sm_run es (new_metering sbucket0 now) = Some m -> service_counters cur p m = Some (c, m') ->
  let w := window cur (Z.min p 300) (adds es) in
  close (sc_tps c) (IZR (zlen w) / IZR (Z.min p 300)) (bpow radix2 (-21)) /\
  (w <> [] -> close (sc_error_rate c) (IZR (n_errors w) / IZR (zlen w) * 100) (bpow radix2 (-19))) /\
  (w = [] -> sc_error_rate c = S754_zero false).
Proof.
  intros Hn T Hl Hp F E1 E2 w. destruct (C33_service_window_exact now es cur p Hn T Hl F) as (m0 & c0 & m0' & E3 & E4 & (Q1 & Q2 & Q3)).
  rewrite E1 in E3. injection E3 as <-. rewrite E2 in E4. injection E4 as <- <-.
  fold w in F, Q1, Q2, Q3. clearbody w. destruct F as [F1 F2].
  pose proof (n_errors_range w) as NE. pose proof (zlen_nonneg w).
  split; [|split].
  - rewrite Q1. apply (fl_close 24 128). apply tps_within; lia.
  - intros Hw. assert (zlen w <> 0) by (intro H0; apply zlen_0_nil in H0; contradiction). rewrite Q3.
    replace (zlen w =? 0) with false by lia. apply (fl_close 24 128). apply percent_within; lia.
  - intros ->. rewrite Q3. reflexivity.
Qed.

Example C34_real_case : fits (window 1003 30 (adds [(1000, SmAdd 10 true); (1002, SmAdd 20 false)])) /\
  ticking 1000 [(1000, SmAdd 10 true); (1002, SmAdd 20 false)] /\ zlen (window 1003 30 (adds [(1000, SmAdd 10 true); (1002, SmAdd 20 false)])) = 2.
Proof. split; [split; vm_compute; congruence|]. split; [cbn; lia|reflexivity]. Qed.

(** ** C36: GoGcCount is the number of garbage collections per second since the previous report and GoGcPause the
    milliseconds paused per second, to within one part in four million. NumGC is an uint32 that may wrap around. *)
Theorem C36_gc_rates now1 r1 act1 s t1 s1 now2 r2 act2 s1' t2 s2 gcs :
  all_counters now1 r1 act1 s = Some (t1, s1) -> ct_prev s1' = ct_prev s1 ->
  all_counters now2 r2 act2 s1' = Some (t2, s2) ->
  0 < rt_now r1 < rt_now r2 -> rt_now r2 < 2 ^ 63 ->
  (rt_gcs r2 - rt_gcs r1) mod 2 ^ 32 = gcs mod 2 ^ 32 -> 0 <= gcs < 2 ^ 31 ->
  0 <= rt_pause r1 <= rt_pause r2 -> rt_pause r2 < 2 ^ 63 ->
  exists x y, get (of_string "GoGcCount") t2 = Some (VFloat (f32_bits x)) /\
    get (of_string "GoGcPause") t2 = Some (VFloat (f32_bits y)) /\
    close x (IZR gcs / IZR (rt_now r2 - rt_now r1) * 1000000000) (bpow radix2 (-22)) /\
    close y (IZR (rt_pause r2 - rt_pause r1) / IZR (rt_now r2 - rt_now r1) * 1000) (bpow radix2 (-22)).
Proof.
  intros A1 Es A2 Hn Hm Hg Hg2 Hq Hq2. destruct act1 as [[a0 a1] a2]. destruct act2 as [[b0 b1] b2].
  assert (ct_prev s1 = get_gocounter (ct_prev s) r1) as P1.
  { destruct (C36_realtime_names _ _ _ _ _ _ _ _ A1) as (sc & ms & mv & vm & mv' & C1).
    destruct C1 as (_ & _ & _ & _ & _ & _ & _ & _ & _ & _ & _ & _ & _ & _ & C1). rewrite C1. reflexivity. }
  destruct (C36_realtime_names _ _ _ _ _ _ _ _ A2) as (sc & ms & mv & vm & mv' & C2).
  destruct C2 as (_ & _ & _ & _ & _ & _ & _ & _ & _ & _ & _ & G1 & G2 & _).
  eexists. eexists. split; [exact G1|]. split; [exact G2|]. clear G1 G2 A1 A2. rewrite Es, P1. clear Es P1.
  unfold get_gocounter. cbn [gc_per_sec gc_pause_per_sec gc_timestamp gc_num gc_pause_total].
  replace (rt_now r1 =? 0) with false by lia.
  rewrite (int32_sub (rt_gcs r2) (rt_gcs r1)), (int32_congr _ _ Hg), (int32_id gcs) by (unfold in_int32; lia).
  rewrite (int64_id (rt_pause r2)), (int64_id (rt_pause r1)) by (unfold in_int64; lia).
  rewrite (int64_id (rt_pause r2 - rt_pause r1)), (int64_id (rt_now r2 - rt_now r1)) by (unfold in_int64; lia).
  split; apply (fl_close 24 128); apply rate_within; lia.
Qed.

(** the first report has nothing to compare with and publishes 0 *)
Theorem C36_gc_first now r act svc acv t s' :
  all_counters now r act {| ct_prev := gocounter0; ct_service := svc; ct_active := acv |} = Some (t, s') ->
  get (of_string "GoGcCount") t = Some (VFloat 0) /\ get (of_string "GoGcPause") t = Some (VFloat 0).
Proof.
  intros A. destruct act as [[a0 a1] a2]. destruct (C36_realtime_names _ _ _ _ _ _ _ _ A) as (sc & ms & mv & vm & mv' & C2).
  destruct C2 as (_ & _ & _ & _ & _ & _ & _ & _ & _ & _ & _ & G1 & G2 & _). rewrite G1, G2. split; reflexivity.
Qed.

Example C36_gc_case : exists t1 s1 t2 s2,
  all_counters 1001 {| rt_now := 1001000000000; rt_goroutines := 7; rt_cgo := 1; rt_heap := 9; rt_pause := 2000000; rt_gcs := 4294967295 |} (4, 2, 1)
    {| ct_prev := gocounter0; ct_service := new_metering sbucket0 1000; ct_active := new_metering vbucket0 1000 |} = Some (t1, s1) /\
  all_counters 1003 {| rt_now := 1003000000000; rt_goroutines := 7; rt_cgo := 1; rt_heap := 9; rt_pause := 8000000; rt_gcs := 4 |} (4, 2, 1) s1 = Some (t2, s2) /\
  get (of_string "GoGcCount") t2 = Some (VFloat 1075838976) (* 2.5 *) /\ get (of_string "GoGcPause") t2 = Some (VFloat 1077936128) (* 3.0 *).
Proof. eexists. eexists. eexists. eexists. split; [vm_compute; reflexivity|]. split; [vm_compute; reflexivity|]. split; vm_compute; reflexivity. Qed.

Print Assumptions C34_real_rates.
Print Assumptions C36_gc_rates.
Print Assumptions C36_gc_first.
