(** Float facts needed for the meters, through Flocq's formalisation of IEEE 754. *)
From Coq Require Import Reals Lra Lia ZArith.
From Coq Require Import Floats.SpecFloat.
From Flocq Require Import Core.Core IEEE754.BinarySingleNaN.
From Verif Require Import GoInt M_Float.
Open Scope Z_scope.

Section Equiv.
  Variable prec emax : Z.
  Context (Hp : FLX.Prec_gt_0 prec) (Hm : Prec_lt_emax prec emax).

  Lemma rne_equiv s m l : SpecFloat.round_nearest_even m l = choice_mode mode_NE s m l.
  Proof. case l; [reflexivity|intro c]. case c; [|reflexivity..]. now simpl; unfold Round.cond_incr; case Z.even. Qed.

  Lemma bra_equiv sx mx ex lx : SpecFloat.binary_round_aux prec emax sx mx ex lx = BinarySingleNaN.binary_round_aux prec emax mode_NE sx mx ex lx.
  Proof.
    unfold SpecFloat.binary_round_aux, BinarySingleNaN.binary_round_aux. set (mrse' := shr_fexp _ _ _ _ _).
    case mrse'; intros mrs' e'; simpl. now rewrite (rne_equiv sx).
  Qed.

  Lemma br_equiv s m e : SpecFloat.binary_round prec emax s m e = BinarySingleNaN.binary_round prec emax mode_NE s m e.
  Proof.
    unfold SpecFloat.binary_round, BinarySingleNaN.binary_round, shl_align_fexp. set (mez := shl_align _ _ _); case mez as [mz ez]. apply bra_equiv.
  Qed.

  Lemma bn_equiv m e sz : SpecFloat.binary_normalize prec emax m e sz = B2SF (BinarySingleNaN.binary_normalize prec emax Hp Hm mode_NE m e sz).
  Proof. case m as [|p|p]; [reflexivity| |]; simpl; rewrite B2SF_SF2B; apply br_equiv. Qed.

  Lemma div_equiv (x y : binary_float prec emax) : SFdiv prec emax (B2SF x) (B2SF y) = B2SF (Bdiv mode_NE x y).
  Proof.
    case x as [sx|sx| |sx mx ex Bx]; case y as [sy|sy| |sy my ey By]; [now (trivial || simpl; case Bool.eqb)..|].
    simpl. rewrite B2SF_SF2B. set (melz := SFdiv_core_binary _ _ _ _ _ _). case melz as [[mz ez] lz]. apply bra_equiv.
  Qed.

  Lemma mul_equiv (x y : binary_float prec emax) : SFmul prec emax (B2SF x) (B2SF y) = B2SF (Bmult mode_NE x y).
  Proof.
    case x as [sx|sx| |sx mx ex Bx]; case y as [sy|sy| |sy my ey By]; [now trivial..|].
    simpl. rewrite B2SF_SF2B. apply bra_equiv.
  Qed.

  Lemma add_equiv (x y : binary_float prec emax) : SFadd prec emax (B2SF x) (B2SF y) = B2SF (Bplus mode_NE x y).
  Proof.
    case x as [sx|sx| |sx mx ex Bx]; case y as [sy|sy| |sy my ey By]; [now (trivial || simpl; case Bool.eqb)..|].
    apply bn_equiv.
  Qed.
End Equiv.

#[export] Instance Hp32 : FLX.Prec_gt_0 24 := eq_refl.
#[export] Instance Hm32 : Prec_lt_emax 24 128 := eq_refl.
#[export] Instance Hp64 : FLX.Prec_gt_0 53 := eq_refl.
#[export] Instance Hm64 : Prec_lt_emax 53 1024 := eq_refl.

Notation r32 := (round radix2 (SpecFloat.fexp 24 128) ZnearestE).
Notation r64 := (round radix2 (SpecFloat.fexp 53 1024) ZnearestE).

Lemma gen_int prec emax (Hp : FLX.Prec_gt_0 prec) (Hm : Prec_lt_emax prec emax) z :
  (Z.abs z <= 2 ^ prec) -> generic_format radix2 (SpecFloat.fexp prec emax) (IZR z).
Proof.
  intros Hz. unfold FLX.Prec_gt_0, Prec_lt_emax in *.
  apply generic_format_FLT. 
  destruct (Z.eq_dec (Z.abs z) (2 ^ prec)) as [E|E].
  - exists (Float radix2 (if z <? 0 then -1 else 1) prec).
    + unfold F2R. simpl. assert (z = (if z <? 0 then -1 else 1) * 2 ^ prec)%Z as Ez by (destruct (z <? 0) eqn:Es; lia).
      rewrite Ez at 1. rewrite mult_IZR. f_equal. rewrite <- IZR_Zpower by lia. reflexivity.
    + simpl. assert (2 <= 2 ^ prec)%Z by (change 2%Z with (2 ^ 1)%Z at 1; apply Z.pow_le_mono_r; lia). destruct (z <? 0); simpl; lia.
    + simpl. unfold SpecFloat.emin. lia.
  - exists (Float radix2 z 0).
    + unfold F2R. simpl. lra.
    + simpl. lia.
    + simpl. unfold SpecFloat.emin. lia.
Qed.

(** float32 of an integer *)
Lemma f32_int_R n : 0 <= n <= 2 ^ 63 ->
  exists x : binary_float 24 128, f32_of_int n = B2SF x /\ is_finite x = true /\ B2R x = r32 (IZR n).
Proof.
  intros Hn. unfold f32_of_int. rewrite (bn_equiv 24 128 Hp32 Hm32). eexists. split; [reflexivity|].
  pose proof (binary_normalize_correct 24 128 Hp32 Hm32 mode_NE n 0 false) as C. cbv zeta in C.
  replace (F2R (Float radix2 n 0)) with (IZR n) in C by (unfold F2R; simpl; lra).
  rewrite Rlt_bool_true in C; [destruct C as (C1 & C2 & _); split; [exact C2|exact C1]|].
  apply Rle_lt_trans with (bpow radix2 63); [|apply bpow_lt; lia].
  apply abs_round_le_generic; [apply fexp_correct; exact Hp32|exact _|apply generic_format_bpow; unfold SpecFloat.fexp, SpecFloat.emin; lia|].
  rewrite Rabs_pos_eq by (apply IZR_le; lia). rewrite <- (IZR_Zpower radix2) by lia. apply IZR_le. exact (proj2 Hn).
Qed.

Lemma sfle_B (x y : binary_float 24 128) : is_finite x = true -> is_finite y = true -> (B2R x <= B2R y)%R -> SFleb (B2SF x) (B2SF y) = true.
Proof.
  intros Fx Fy H. change (Bleb x y = true). rewrite Bleb_correct by assumption. apply Rle_bool_true. exact H.
Qed.

Lemma r32_id n : 0 <= n <= 2 ^ 24 -> r32 (IZR n) = IZR n.
Proof. intros. apply round_generic; [exact _|]. apply gen_int; [exact Hp32|exact Hm32|lia]. Qed.

Lemma error_rate_range e c : 0 <= e <= c -> 1 <= c <= 2 ^ 63 ->
  let r := f32_mul (f32_div (f32_of_int e) (f32_of_int c)) (f32_of_int 100) in
  SFleb (f32_of_int 0) r = true /\ SFleb r (f32_of_int 100) = true.
Proof.
  intros He Hc. cbv zeta.
  destruct (f32_int_R e ltac:(lia)) as (xe & -> & Fe & Re).
  destruct (f32_int_R c ltac:(lia)) as (xc & -> & Fc & Rc).
  destruct (f32_int_R 100 ltac:(lia)) as (xh & -> & Fh & Rh).
  destruct (f32_int_R 0 ltac:(lia)) as (xz & -> & Fz & Rz).
  assert (fexp_v : Valid_exp (SpecFloat.fexp 24 128)) by (apply fexp_correct; exact Hp32).
  rewrite r32_id in Rh, Rz by lia.
  assert (0 <= B2R xe)%R as E0 by (rewrite Re, <- Rz, Rz, <- (r32_id 0) by lia; apply round_le; [exact _|exact _|apply IZR_le; lia]).
  assert (B2R xe <= B2R xc)%R as E1 by (rewrite Re, Rc; apply round_le; [exact _|exact _|apply IZR_le; lia]).
  assert (1 <= B2R xc)%R as E2 by (rewrite Rc, <- (r32_id 1) by lia; apply round_le; [exact _|exact _|apply IZR_le; lia]).
  assert (0 <= B2R xe / B2R xc <= 1)%R as Q.
  { split; [apply Rmult_le_pos; [exact E0|apply Rlt_le, Rinv_0_lt_compat; lra]|]. apply Rmult_le_reg_r with (B2R xc); [lra|]. unfold Rdiv. rewrite Rmult_assoc, Rinv_l by lra. lra. }
  unfold f32_div. rewrite (div_equiv 24 128 Hp32 Hm32).
  assert (0 <= r32 (B2R xe / B2R xc) <= 1)%R as Q1.
  { split; [rewrite <- (r32_id 0) by lia|rewrite <- (r32_id 1) by lia]; apply round_le; try exact _; apply Q. }
  pose proof (Bdiv_correct 24 128 Hp32 Hm32 mode_NE xe xc ltac:(lra)) as D.
  rewrite Rlt_bool_true in D.
  2:{ cbn [round_mode]. rewrite Rabs_pos_eq by apply Q1. apply Rle_lt_trans with (bpow radix2 0); [simpl; apply Q1|apply bpow_lt; lia]. }
  destruct D as (D1 & D2 & _). cbn [round_mode] in D1. rewrite Fe in D2.
  set (q := Bdiv mode_NE xe xc) in *. clearbody q.
  unfold f32_mul. rewrite (mul_equiv 24 128 Hp32 Hm32).
  assert (0 <= B2R q * B2R xh <= 100)%R as M by (rewrite D1, Rh; lra).
  assert (0 <= r32 (B2R q * B2R xh) <= 100)%R as M1.
  { split; [rewrite <- (r32_id 0) by lia|rewrite <- (r32_id 100) by lia]; apply round_le; try exact _; apply M. }
  pose proof (Bmult_correct 24 128 Hp32 Hm32 mode_NE q xh) as C.
  rewrite Rlt_bool_true in C.
  2:{ cbn [round_mode]. rewrite Rabs_pos_eq by apply M1. apply Rle_lt_trans with (bpow radix2 7); [change (bpow radix2 7) with 128%R; lra|apply bpow_lt; lia]. }
  destruct C as (C1 & C2 & _). cbn [round_mode] in C1. rewrite D2, Fh in C2. cbn [andb] in C2.
  split; apply sfle_B; try assumption; rewrite C1; [rewrite Rz|apply Rle_trans with 100%R; [apply M1|right; symmetry; exact Rh]]. apply M1.
Qed.

(** A transactions-per-second value is a number: not NaN, not infinite, not negative. *)
Lemma tps_range n p : 0 <= n <= 2 ^ 63 -> 1 <= p <= 300 ->
  exists x : binary_float 24 128, f32_div (f32_of_int n) (f32_of_int p) = B2SF x /\ is_finite x = true /\ B2R x = r32 (r32 (IZR n) / IZR p).
Proof.
  intros Hn Hq. destruct (f32_int_R n Hn) as (xn & -> & Fn & Rn). destruct (f32_int_R p ltac:(lia)) as (xp & -> & Fp & Rp).
  assert (fexp_v : Valid_exp (SpecFloat.fexp 24 128)) by (apply fexp_correct; exact Hp32).
  rewrite r32_id in Rp by lia.
  assert (1 <= IZR p)%R as P1 by (apply (IZR_le 1); lia).
  assert (0 <= r32 (IZR n) <= bpow radix2 63)%R as N.
  { split; [rewrite <- (r32_id 0) by lia; apply round_le; try exact _; apply IZR_le; lia|].
    rewrite <- (round_generic radix2 (SpecFloat.fexp 24 128) ZnearestE (bpow radix2 63)) by (apply generic_format_bpow; unfold SpecFloat.fexp, SpecFloat.emin; lia).
    apply round_le; try exact _. rewrite <- (IZR_Zpower radix2) by lia. apply IZR_le. exact (proj2 Hn). }
  assert (0 <= r32 (IZR n) / IZR p <= bpow radix2 63)%R as Q.
  { split; [apply Rmult_le_pos; [apply N|apply Rlt_le, Rinv_0_lt_compat; lra]|]. apply Rmult_le_reg_r with (IZR p); [lra|]. unfold Rdiv. rewrite Rmult_assoc, Rinv_l by lra.
    rewrite Rmult_1_r. apply Rle_trans with (1 := proj2 N). rewrite <- (Rmult_1_r (bpow radix2 63)) at 1. apply Rmult_le_compat_l; [apply bpow_ge_0|exact P1]. }
  unfold f32_div. rewrite (div_equiv 24 128 Hp32 Hm32).
  pose proof (Bdiv_correct 24 128 Hp32 Hm32 mode_NE xn xp ltac:(rewrite Rp; lra)) as D. rewrite Rn, Rp in D. cbn [round_mode] in D.
  rewrite Rlt_bool_true in D.
  2:{ apply Rle_lt_trans with (bpow radix2 63); [|apply bpow_lt; lia].
      apply abs_round_le_generic; [exact _|exact _|apply generic_format_bpow; unfold SpecFloat.fexp, SpecFloat.emin; lia|]. rewrite Rabs_pos_eq by apply Q. apply Q. }
  destruct D as (D1 & D2 & _). eexists. split; [reflexivity|]. split; [rewrite D2; exact Fn|exact D1].
Qed.

Lemma tps_nonneg n p (x : binary_float 24 128) : 0 <= n <= 2 ^ 63 -> 1 <= p <= 300 -> is_finite x = true ->
  B2R x = r32 (r32 (IZR n) / IZR p) -> SFleb (f32_of_int 0) (B2SF x) = true.
Proof.
  intros Hn Hq Fx Rx. change (f32_of_int 0) with (B2SF (B754_zero false : binary_float 24 128)).
  assert (fexp_v : Valid_exp (SpecFloat.fexp 24 128)) by (apply fexp_correct; exact Hp32).
  apply sfle_B; [reflexivity|exact Fx|]. rewrite Rx. simpl (B2R (B754_zero false)). rewrite <- (r32_id 0) by lia. apply round_le; try exact _.
  assert (1 <= IZR p)%R by (apply (IZR_le 1); lia).
  apply Rmult_le_pos; [|apply Rlt_le, Rinv_0_lt_compat; lra]. rewrite <- (r32_id 0) by lia. apply round_le; try exact _. apply IZR_le; lia.
Qed.

(** Non-negative integers up to 2^53 add exactly in float64. *)
Lemma f64_int_R n : 0 <= n <= 2 ^ 53 ->
  exists x : binary_float 53 1024, f64_of_int n = B2SF x /\ is_finite x = true /\ B2R x = IZR n /\ Bsign x = false.
Proof.
  intros Hn. unfold f64_of_int. rewrite (bn_equiv 53 1024 Hp64 Hm64). eexists. split; [reflexivity|].
  pose proof (binary_normalize_correct 53 1024 Hp64 Hm64 mode_NE n 0 false) as C. cbv zeta in C.
  replace (F2R (Float radix2 n 0)) with (IZR n) in C by (unfold F2R; simpl; lra).
  cbn [round_mode] in C. rewrite round_generic in C; [|exact _|apply gen_int; [exact Hp64|exact Hm64|lia]].
  rewrite Rlt_bool_true in C.
  - destruct C as (C1 & C2 & C3). split; [exact C2|]. split; [exact C1|]. rewrite C3.
    destruct (Z.eq_dec n 0) as [->|Hz]; [rewrite Rcompare_Eq by reflexivity; reflexivity|rewrite Rcompare_Gt by (apply IZR_lt; lia); reflexivity].
  - apply Rle_lt_trans with (bpow radix2 53); [|apply bpow_lt; lia]. rewrite Rabs_pos_eq by (apply IZR_le; lia).
    rewrite <- (IZR_Zpower radix2) by lia. apply IZR_le. exact (proj2 Hn).
Qed.

Lemma f64_add_int a b : 0 <= a -> 0 <= b -> a + b <= 2 ^ 53 -> f64_add (f64_of_int a) (f64_of_int b) = f64_of_int (a + b).
Proof.
  intros Ha Hb Hs. destruct (f64_int_R a ltac:(lia)) as (xa & -> & Fa & Ra & Sa). destruct (f64_int_R b ltac:(lia)) as (xb & -> & Fb & Rb & Sb).
  destruct (f64_int_R (a + b) ltac:(lia)) as (xs & -> & Fs & Rs & Ss).
  unfold f64_add. rewrite (add_equiv 53 1024 Hp64 Hm64). f_equal.
  pose proof (Bplus_correct 53 1024 Hp64 Hm64 mode_NE xa xb Fa Fb) as C. cbn [round_mode] in C.
  rewrite Ra, Rb, <- plus_IZR in C. rewrite round_generic in C; [|exact _|apply gen_int; [exact Hp64|exact Hm64|lia]].
  rewrite Rlt_bool_true in C.
  2:{ apply Rle_lt_trans with (bpow radix2 53); [|apply bpow_lt; lia]. rewrite Rabs_pos_eq by (apply IZR_le; lia).
      rewrite <- (IZR_Zpower radix2) by lia. apply IZR_le. exact Hs. }
  destruct C as (C1 & C2 & C3). apply B2R_Bsign_inj; [exact C2|exact Fs|rewrite C1, Rs; reflexivity|].
  rewrite C3, Ss, Sa, Sb. destruct (Z.eq_dec (a + b) 0) as [->|Hz]; [rewrite Rcompare_Eq by reflexivity; reflexivity|rewrite Rcompare_Gt by (apply IZR_lt; lia); reflexivity].
Qed.
