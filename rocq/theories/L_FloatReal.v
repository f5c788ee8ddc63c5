(** How far the float computations of the meters are from the real numbers they stand for. *)
From Coq Require Import Reals Lra Lia ZArith.
From Coq Require Import Floats.SpecFloat.
From Flocq Require Import Core Relative BinarySingleNaN.
From Verif Require Import GoInt M_Float L_MeterFloat.
Open Scope R_scope.

(** [x] is [v] up to the relative error [e] *)
Definition within (e v x : R) : Prop := v * (1 - e) <= x <= v * (1 + e).

Lemma within_weaken e e' v x : 0 <= v -> e <= e' -> within e v x -> within e' v x.
Proof. unfold within. intros Hv He [H1 H2]. split; nra. Qed.

Section Prec.
  Variable prec emax : Z.
  Context (Hp : FLX.Prec_gt_0 prec) (Hm : Prec_lt_emax prec emax).
  Hypothesis big : (65 <= emax)%Z.
  Hypothesis pr : (10 <= prec)%Z.
  Notation rnd := (round radix2 (SpecFloat.fexp prec emax) ZnearestE).
  Notation u := (bpow radix2 (- prec)).
  Notation lowest := (bpow radix2 (3 - emax)).

  Instance fexp_v : Valid_exp (SpecFloat.fexp prec emax). Proof. apply fexp_correct; exact Hp. Qed.

  Lemma u_pos : 0 < u. Proof. apply bpow_gt_0. Qed.
  Lemma u_small : u <= 1 / 1024.
  Proof. apply Rle_trans with (bpow radix2 (-10)); [apply bpow_le; lia|]. right. simpl. lra. Qed.

  Lemma rnd_within e v x : 0 <= v -> 0 <= e <= 1 / 2 -> (v = 0 \/ lowest <= v) -> within e v x -> within (e + 2 * u) v (rnd x).
  Proof.
    intros Hv He Hl [W1 W2]. pose proof u_pos as U0. pose proof u_small as U1. destruct Hl as [-> | Hl].
    - assert (x = 0) as -> by lra. rewrite round_0 by exact _. split; lra.
    - assert (v / 2 <= x) as X0 by nra.
      assert (bpow radix2 (3 - emax - 1) = lowest / 2) as HB.
      { unfold Zminus at 1. rewrite bpow_plus. change (bpow radix2 (-(1))) with (/ 2). unfold Rdiv. reflexivity. }
      pose proof (bpow_gt_0 radix2 (3 - emax)) as B0.
      assert (Rabs (rnd x - x) <= / 2 * bpow radix2 (- prec + 1) * Rabs x) as R.
      { apply (relative_error_N_FLT radix2 (SpecFloat.emin prec emax) prec ltac:(unfold FLX.Prec_gt_0 in Hp; lia) (fun z => negb (Z.even z)) x).
        replace (SpecFloat.emin prec emax + prec - 1)%Z with (3 - emax - 1)%Z by (unfold SpecFloat.emin; lia).
        rewrite HB, Rabs_pos_eq by lra. lra. }
      rewrite bpow_plus in R. change (bpow radix2 1) with 2 in R. rewrite (Rabs_pos_eq x) in R by lra.
      replace (/ 2 * (u * 2) * x) with (u * x) in R by lra.
      apply Rabs_def2_le in R || (unfold Rabs in R; destruct (Rcase_abs (rnd x - x)) in R).
      + split; nra.
      + split; nra.
  Qed.

  (** the float [s] stands for the non-negative number [v], up to the relative error [e] *)
  Definition fl (s : spec_float) (v e : R) : Prop :=
    exists x : binary_float prec emax, s = B2SF x /\ is_finite x = true /\ within e v (B2R x).

  Lemma fl_weaken s v e e' : 0 <= v -> e <= e' -> fl s v e -> fl s v e'.
  Proof. intros Hv He (x & E & F & W). exists x. split; [exact E|]. split; [exact F|]. exact (within_weaken e e' v _ Hv He W). Qed.

  Lemma small v e x : 0 <= v -> 0 <= e <= 1 -> v <= bpow radix2 (emax - 2) -> within e v x -> Rabs x < bpow radix2 emax.
  Proof.
    intros Hv He Hb [W1 W2]. assert (0 <= x) by nra. rewrite Rabs_pos_eq by assumption.
    replace emax with ((emax - 2) + 2)%Z by lia. rewrite bpow_plus. change (bpow radix2 2) with 4.
    pose proof (bpow_gt_0 radix2 (emax - 2)). replace (emax - 2 + 2 - 2)%Z with (emax - 2)%Z by lia. nra.
  Qed.

  Lemma fl_int n : (0 <= n <= 2 ^ 63)%Z -> fl (SpecFloat.binary_normalize prec emax n 0 false) (IZR n) (2 * u).
  Proof.
    intros Hn. rewrite (bn_equiv prec emax Hp Hm). eexists. split; [reflexivity|]. pose proof u_small as U1. pose proof u_pos as U0.
    assert (0 <= IZR n) as N0 by (apply IZR_le; lia).
    assert (within (0 + 2 * u) (IZR n) (rnd (IZR n))) as W.
    { apply rnd_within; [exact N0|lra| |split; lra]. destruct (Z.eq_dec n 0) as [->|Hz]; [left; reflexivity|right].
      apply Rle_trans with (bpow radix2 0); [apply bpow_le; lia|]. change (bpow radix2 0) with (IZR 1). apply IZR_le. lia. }
    rewrite Rplus_0_l in W.
    pose proof (binary_normalize_correct prec emax Hp Hm mode_NE n 0 false) as C. cbv zeta in C.
    replace (F2R (Float radix2 n 0)) with (IZR n) in C by (unfold F2R; simpl; lra). cbn [round_mode] in C.
    rewrite Rlt_bool_true in C; [destruct C as (C1 & C2 & _); split; [exact C2|rewrite C1; exact W]|].
    apply small with (2 := conj (ltac:(lra) : 0 <= 2 * u) (ltac:(lra) : 2 * u <= 1)) (4 := W); [exact N0|].
    apply Rle_trans with (bpow radix2 63); [|apply bpow_le; lia]. rewrite <- (IZR_Zpower radix2) by lia. apply IZR_le. exact (proj2 Hn).
  Qed.

  Lemma fl_div s t v w e : 0 <= e <= 1 / 16 -> 0 <= v -> 0 < w -> fl s v e -> fl t w e ->
    (v / w = 0 \/ lowest <= v / w) -> v / w <= bpow radix2 (emax - 2) -> fl (SFdiv prec emax s t) (v / w) (3 * e + 2 * u).
  Proof.
    intros He Hv Hw (x & -> & Fx & [X1 X2]) (y & -> & Fy & [Y1 Y2]) Lo Hi. pose proof u_pos as U0. pose proof u_small as U1.
    rewrite (div_equiv prec emax Hp Hm). eexists. split; [reflexivity|].
    assert (0 < B2R y) as Y0 by nra.
    assert (0 <= v / w) as Q0 by (apply Rmult_le_pos; [exact Hv|apply Rlt_le, Rinv_0_lt_compat; exact Hw]).
    assert (within (3 * e) (v / w) (B2R x / B2R y)) as W.
    { assert (v = v / w * w) as Ev by (unfold Rdiv; rewrite Rmult_assoc, Rinv_l by lra; lra).
      set (q := v / w) in *. clearbody q. subst v. split.
      - apply Rmult_le_reg_r with (B2R y); [exact Y0|]. replace (B2R x / B2R y * B2R y) with (B2R x) by (field; lra).
        apply Rle_trans with (q * w * (1 - e)); [|exact X1].
        apply Rle_trans with (q * (1 - 3 * e) * (w * (1 + e))); [apply Rmult_le_compat_l; [apply Rmult_le_pos; lra|exact Y2]|].
        replace (q * (1 - 3 * e) * (w * (1 + e))) with (q * w * ((1 - 3 * e) * (1 + e))) by ring.
        apply Rmult_le_compat_l; [apply Rmult_le_pos; lra|]. nra.
      - apply Rmult_le_reg_r with (B2R y); [exact Y0|]. replace (B2R x / B2R y * B2R y) with (B2R x) by (field; lra).
        apply Rle_trans with (q * w * (1 + e)); [exact X2|].
        apply Rle_trans with (q * (1 + 3 * e) * (w * (1 - e))); [|apply Rmult_le_compat_l; [apply Rmult_le_pos; lra|exact Y1]].
        replace (q * (1 + 3 * e) * (w * (1 - e))) with (q * w * ((1 + 3 * e) * (1 - e))) by ring.
        apply Rmult_le_compat_l; [apply Rmult_le_pos; lra|]. nra. }
    assert (within (3 * e + 2 * u) (v / w) (rnd (B2R x / B2R y))) as W2 by (apply rnd_within; [exact Q0|lra|exact Lo|exact W]).
    pose proof (Bdiv_correct prec emax Hp Hm mode_NE x y ltac:(lra)) as D. cbn [round_mode] in D.
    rewrite Rlt_bool_true in D.
    - destruct D as (D1 & D2 & _). split; [rewrite D2; exact Fx|rewrite D1; exact W2].
    - apply small with (2 := conj (ltac:(lra) : 0 <= 3 * e + 2 * u) (ltac:(lra) : 3 * e + 2 * u <= 1)) (4 := W2); [exact Q0|exact Hi].
  Qed.

  Lemma fl_mul s t v w e : 0 <= e <= 1 / 16 -> 0 <= v -> 0 <= w -> fl s v e -> fl t w e ->
    (v * w = 0 \/ lowest <= v * w) -> v * w <= bpow radix2 (emax - 2) -> fl (SFmul prec emax s t) (v * w) (3 * e + 2 * u).
  Proof.
    intros He Hv Hw (x & -> & Fx & [X1 X2]) (y & -> & Fy & [Y1 Y2]) Lo Hi. pose proof u_pos as U0. pose proof u_small as U1.
    rewrite (mul_equiv prec emax Hp Hm). eexists. split; [reflexivity|].
    assert (0 <= v * w) as Q0 by (apply Rmult_le_pos; assumption).
    assert (0 <= v * (1 - e)) by (apply Rmult_le_pos; lra). assert (0 <= w * (1 - e)) by (apply Rmult_le_pos; lra).
    assert (within (3 * e) (v * w) (B2R x * B2R y)) as W.
    { split.
      - apply Rle_trans with ((v * (1 - e)) * (w * (1 - e))); [|apply Rmult_le_compat; assumption].
        replace (v * (1 - e) * (w * (1 - e))) with (v * w * ((1 - e) * (1 - e))) by ring. apply Rmult_le_compat_l; [exact Q0|nra].
      - apply Rle_trans with ((v * (1 + e)) * (w * (1 + e))); [apply Rmult_le_compat; lra|].
        replace (v * (1 + e) * (w * (1 + e))) with (v * w * ((1 + e) * (1 + e))) by ring. apply Rmult_le_compat_l; [exact Q0|nra]. }
    assert (within (3 * e + 2 * u) (v * w) (rnd (B2R x * B2R y))) as W2 by (apply rnd_within; [exact Q0|lra|exact Lo|exact W]).
    pose proof (Bmult_correct prec emax Hp Hm mode_NE x y) as D. cbn [round_mode] in D.
    rewrite Rlt_bool_true in D.
    - destruct D as (D1 & D2 & _). split; [rewrite D2, Fx, Fy; reflexivity|rewrite D1; exact W2].
    - apply small with (2 := conj (ltac:(lra) : 0 <= 3 * e + 2 * u) (ltac:(lra) : 3 * e + 2 * u <= 1)) (4 := W2); [exact Q0|exact Hi].
  Qed.
End Prec.

Lemma fl_cast s v e : 0 <= e <= 1 / 16 -> 0 <= v -> fl 53 1024 s v e ->
  (v = 0 \/ bpow radix2 (3 - 128) <= v) -> v <= bpow radix2 (128 - 2) -> fl 24 128 (f32_of_f64 s) v (e + 2 * bpow radix2 (-24)).
Proof.
  intros He Hv (x & -> & Fx & W) Lo Hi. pose proof (u_pos 24) as U0. pose proof (u_small 24 ltac:(lia)) as U1. change (- (24))%Z with (-24)%Z in *.
  assert (within (e + 2 * bpow radix2 (-24)) v (r32 (B2R x))) as W2.
  { apply (rnd_within 24 128 Hp32 ltac:(lia)); [exact Hv|lra|exact Lo|exact W]. }
  destruct x as [b|b| |b m ex B]; try discriminate Fx.
  - exists (B754_zero b). split; [reflexivity|]. split; [reflexivity|]. simpl (B2R _) in *. rewrite round_0 in W2 by exact _. exact W2.
  - simpl (f32_of_f64 _). rewrite (br_equiv 24 128). pose proof (binary_round_correct 24 128 Hp32 Hm32 mode_NE b m ex) as C. cbv zeta in C. cbn [round_mode] in C.
    destruct C as (V & C). simpl (B2R _) in W2. rewrite Rlt_bool_true in C.
    + destruct C as (C1 & C2 & _). exists (SF2B _ V). split; [rewrite B2SF_SF2B; reflexivity|]. split; [rewrite is_finite_SF2B; exact C2|].
      rewrite B2R_SF2B, C1. exact W2.
    + apply (small 128 v (e + 2 * bpow radix2 (-24))); [exact Hv|lra|exact Hi|exact W2].
Qed.

Lemma bpow_IZR (p : positive) : bpow radix2 (Zpos p) = IZR (2 ^ Zpos p).
Proof. rewrite <- (IZR_Zpower radix2) by lia. reflexivity. Qed.

Lemma ratio_range a b : (1 <= a <= 2 ^ 63)%Z -> (1 <= b <= 2 ^ 63)%Z -> bpow radix2 (-63) <= IZR a / IZR b <= bpow radix2 63.
Proof.
  intros Ha Hb. assert (1 <= IZR a) as A1 by (apply (IZR_le 1); lia). assert (1 <= IZR b) as B1 by (apply (IZR_le 1); lia).
  assert (IZR a <= bpow radix2 63) as A2 by (rewrite bpow_IZR; apply IZR_le; lia).
  assert (IZR b <= bpow radix2 63) as B2 by (rewrite bpow_IZR; apply IZR_le; lia).
  split.
  - change (-63)%Z with (- (63))%Z. rewrite bpow_opp. apply Rle_trans with (1 * / IZR b); [rewrite Rmult_1_l; apply Rinv_le; lra|].
    apply Rmult_le_compat_r; [apply Rlt_le, Rinv_0_lt_compat; lra|exact A1].
  - apply Rle_trans with (IZR a / 1); [|unfold Rdiv; rewrite Rinv_1; lra].
    apply Rmult_le_compat_l; [lra|]. apply Rinv_le; lra.
Qed.

(** a difference [d] over the nanoseconds [dt], scaled by [k], published as float32 *)
Lemma rate_within d dt k : (0 <= d <= 2 ^ 63)%Z -> (1 <= dt <= 2 ^ 63)%Z -> (1 <= k <= 2 ^ 30)%Z ->
  fl 24 128 (f32_of_f64 (f64_mul (f64_div (f64_of_int d) (f64_of_int dt)) (f64_of_int k)))
     (IZR d / IZR dt * IZR k) (bpow radix2 (-22)).
Proof.
  intros Hd Ht Hk. set (u := bpow radix2 (-53)).
  assert (0 < u) as U0 by apply bpow_gt_0.
  assert (u <= 1 / 1024) as U1 by (apply (u_small 53 ltac:(lia))).
  assert (1 <= IZR dt) as T1 by (apply (IZR_le 1); lia). assert (1 <= IZR k) as K1 by (apply (IZR_le 1); lia).
  assert (0 <= IZR d) as D0 by (apply IZR_le; lia).
  assert (0 <= IZR d / IZR dt) as Q0 by (apply Rmult_le_pos; [exact D0|apply Rlt_le, Rinv_0_lt_compat; lra]).
  assert (IZR d / IZR dt = 0 \/ bpow radix2 (-63) <= IZR d / IZR dt <= bpow radix2 63) as Q.
  { destruct (Z.eq_dec d 0) as [->|Hz]; [left; unfold Rdiv; lra|right; apply ratio_range; lia]. }
  assert (IZR d / IZR dt * IZR k = 0 \/ bpow radix2 (-63) <= IZR d / IZR dt * IZR k <= bpow radix2 93) as P.
  { destruct Q as [Q | [Q1 Q2]]; [left; rewrite Q; lra|right]. split; [pose proof (bpow_gt_0 radix2 (-63)); nra|].
    change 93%Z with (63 + 30)%Z. rewrite bpow_plus. apply Rmult_le_compat; [exact Q0|lra|exact Q2|]. rewrite bpow_IZR. apply IZR_le. lia. }
  pose proof (fl_int 53 1024 Hp64 Hm64 ltac:(lia) ltac:(lia) d Hd) as Fd. pose proof (fl_int 53 1024 Hp64 Hm64 ltac:(lia) ltac:(lia) dt ltac:(lia)) as Ft.
  pose proof (fl_int 53 1024 Hp64 Hm64 ltac:(lia) ltac:(lia) k ltac:(lia)) as Fk. change (bpow radix2 (-(53))) with u in *.
  fold (f64_of_int d) in Fd. fold (f64_of_int dt) in Ft. fold (f64_of_int k) in Fk.
  assert (fl 53 1024 (f64_div (f64_of_int d) (f64_of_int dt)) (IZR d / IZR dt) (3 * (2 * u) + 2 * u)) as Fq.
  { apply (fl_div 53 1024 Hp64 Hm64); try assumption; try lia; try lra.
    - destruct Q as [Q | [Q1 Q2]]; [left; exact Q|right]. apply Rle_trans with (2 := Q1). apply bpow_le. lia.
    - destruct Q as [-> | [Q1 Q2]]; [apply bpow_ge_0|]. apply Rle_trans with (1 := Q2). apply bpow_le. lia. }
  assert (u <= bpow radix2 (-30)) as U2 by (apply bpow_le; lia).
  assert (bpow radix2 (-30) <= 1 / 1000000000) as U3 by (simpl; lra).
  assert (fl 53 1024 (f64_mul (f64_div (f64_of_int d) (f64_of_int dt)) (f64_of_int k)) (IZR d / IZR dt * IZR k) (3 * (8 * u) + 2 * u)) as Fp.
  { apply (fl_mul 53 1024 Hp64 Hm64); try lia; try lra.
    - replace (8 * u) with (3 * (2 * u) + 2 * u) by ring. exact Fq.
    - apply fl_weaken with (3 := Fk); lra.
    - destruct P as [P | [P1 P2]]; [left; exact P|right]. apply Rle_trans with (2 := P1). apply bpow_le. lia.
    - destruct P as [-> | [P1 P2]]; [apply bpow_ge_0|]. apply Rle_trans with (1 := P2). apply bpow_le. lia. }
  apply fl_weaken with (e := 26 * u + 2 * bpow radix2 (-24)).
  - apply Rmult_le_pos; lra.
  - assert (bpow radix2 (-22) = 4 * bpow radix2 (-24)) as -> by (change (-22)%Z with (2 + -24)%Z; rewrite bpow_plus; reflexivity).
    assert (26 * u <= 32 * u) as A by lra. apply Rle_trans with (32 * u + 2 * bpow radix2 (-24)); [lra|].
    replace (32 * u) with (bpow radix2 (-48)) by (unfold u; change (-48)%Z with (5 + -53)%Z; rewrite bpow_plus; reflexivity).
    assert (bpow radix2 (-48) <= bpow radix2 (-24)) by (apply bpow_le; lia). pose proof (bpow_gt_0 radix2 (-24)). lra.
  - apply fl_cast; try lra.
    + apply Rmult_le_pos; lra.
    + replace (26 * u) with (3 * (8 * u) + 2 * u) by ring. exact Fp.
    + destruct P as [P | [P1 P2]]; [left; exact P|right]. apply Rle_trans with (2 := P1). apply bpow_le. lia.
    + destruct P as [-> | [P1 P2]]; [apply bpow_ge_0|]. apply Rle_trans with (1 := P2). apply bpow_le. lia.
Qed.

(** a count per seconds *)
Lemma tps_within n p : (0 <= n <= 2 ^ 63)%Z -> (1 <= p <= 300)%Z ->
  fl 24 128 (f32_div (f32_of_int n) (f32_of_int p)) (IZR n / IZR p) (bpow radix2 (-21)).
Proof.
  intros Hn Hq. set (u := bpow radix2 (-24)).
  assert (0 < u) as U0 by apply bpow_gt_0. assert (u <= 1 / 1024) as U1 by (apply (u_small 24 ltac:(lia))).
  assert (1 <= IZR p) as P1 by (apply (IZR_le 1); lia). assert (0 <= IZR n) as N0 by (apply IZR_le; lia).
  assert (IZR n / IZR p = 0 \/ bpow radix2 (-63) <= IZR n / IZR p <= bpow radix2 63) as Q.
  { destruct (Z.eq_dec n 0) as [->|Hz]; [left; unfold Rdiv; lra|right; apply ratio_range; lia]. }
  replace (bpow radix2 (-21)) with (3 * (2 * u) + 2 * u) by (change (-21)%Z with (3 + -24)%Z; rewrite bpow_plus; fold u; change (bpow radix2 3) with 8; ring).
  pose proof (fl_int 24 128 Hp32 Hm32 ltac:(lia) ltac:(lia) n ltac:(lia)) as Fn. pose proof (fl_int 24 128 Hp32 Hm32 ltac:(lia) ltac:(lia) p ltac:(lia)) as Fp.
  apply (fl_div 24 128 Hp32 Hm32); try assumption; try lia; try lra.
  - destruct Q as [Q | [Q1 Q2]]; [left; exact Q|right]. apply Rle_trans with (2 := Q1). apply bpow_le. lia.
  - destruct Q as [-> | [Q1 Q2]]; [apply bpow_ge_0|]. apply Rle_trans with (1 := Q2). apply bpow_le. lia.
Qed.

(** a percentage *)
Lemma percent_within e c : (0 <= e <= 2 ^ 63)%Z -> (1 <= c <= 2 ^ 63)%Z ->
  fl 24 128 (f32_mul (f32_div (f32_of_int e) (f32_of_int c)) (f32_of_int 100)) (IZR e / IZR c * 100) (bpow radix2 (-19)).
Proof.
  intros He Hc. set (u := bpow radix2 (-24)).
  assert (0 < u) as U0 by apply bpow_gt_0. assert (u <= 1 / 1024) as U1 by (apply (u_small 24 ltac:(lia))).
  assert (1 <= IZR c) as C1 by (apply (IZR_le 1); lia). assert (0 <= IZR e) as E0 by (apply IZR_le; lia).
  assert (0 <= IZR e / IZR c) as Q0 by (apply Rmult_le_pos; [exact E0|apply Rlt_le, Rinv_0_lt_compat; lra]).
  assert (IZR e / IZR c = 0 \/ bpow radix2 (-63) <= IZR e / IZR c <= bpow radix2 63) as Q.
  { destruct (Z.eq_dec e 0) as [->|Hz]; [left; unfold Rdiv; lra|right; apply ratio_range; lia]. }
  pose proof (fl_int 24 128 Hp32 Hm32 ltac:(lia) ltac:(lia) e ltac:(lia)) as Fe. pose proof (fl_int 24 128 Hp32 Hm32 ltac:(lia) ltac:(lia) c ltac:(lia)) as Fc.
  pose proof (fl_int 24 128 Hp32 Hm32 ltac:(lia) ltac:(lia) 100 ltac:(lia)) as Fh. change (bpow radix2 (-(24))) with u in *.
  assert (fl 24 128 (f32_div (f32_of_int e) (f32_of_int c)) (IZR e / IZR c) (3 * (2 * u) + 2 * u)) as Fq.
  { apply (fl_div 24 128 Hp32 Hm32); try assumption; try lia; try lra.
    - destruct Q as [Q | [Q1 Q2]]; [left; exact Q|right]. apply Rle_trans with (2 := Q1). apply bpow_le. lia.
    - destruct Q as [-> | [Q1 Q2]]; [apply bpow_ge_0|]. apply Rle_trans with (1 := Q2). apply bpow_le. lia. }
  apply fl_weaken with (e := 3 * (8 * u) + 2 * u).
  - lra.
  - replace (bpow radix2 (-19)) with (32 * u) by (change (-19)%Z with (5 + -24)%Z; rewrite bpow_plus; reflexivity). lra.
  - assert (bpow radix2 70 = 128 * bpow radix2 63) as B70 by (change 70%Z with (7 + 63)%Z; rewrite bpow_plus; reflexivity).
    pose proof (bpow_gt_0 radix2 63). pose proof (bpow_gt_0 radix2 (-63)).
    apply (fl_mul 24 128 Hp32 Hm32); try lia; try lra.
    + replace (8 * u) with (3 * (2 * u) + 2 * u) by ring. exact Fq.
    + apply fl_weaken with (3 := Fh); lra.
    + destruct Q as [-> | [Q1 Q2]]; [left; lra|right]. apply Rle_trans with (bpow radix2 (-63)); [apply bpow_le; lia|]. lra.
    + apply Rle_trans with (bpow radix2 70); [|apply bpow_le; lia]. rewrite B70. destruct Q as [-> | [Q1 Q2]]; lra.
Qed.
