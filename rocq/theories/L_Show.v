(** Lemmas for C98. *)
From Verif Require Import GoInt M_Util S_Util L_Util M_OutX M_Value L_Value M_Packs S_Value L_Safe S_Alert L_Alert M_Show S_Show.
From Coq Require Import ZifyBool Permutation.

(** ** Decimal texts are unique *)
Definition proper_digits (s : gostring) : Prop := forall s', s = 48 :: s' -> s' = [].
Lemma parse_snoc s c n : parse_digits 10 0 (s ++ [c]) = Some n ->
  exists m, parse_digits 10 0 s = Some m /\ 48 <= c <= 57 /\ n = 10 * m + (c - 48).
Proof.
  rewrite parse_digits_app. destruct (parse_digits 10 0 s) as [m|]; [|discriminate]. cbn [parse_digits]. unfold char_digit.
  destruct ((48 <=? c) && (c <=? 57)) eqn:E1.
  - destruct (c - 48 <? 10) eqn:E2; [|discriminate]. intros [= <-]. exists m. split; [reflexivity|]. lia.
  - destruct ((97 <=? c) && (c <=? 122)) eqn:E2; [|discriminate]. destruct (c - 87 <? 10) eqn:E3; [|discriminate]. lia.
Qed.
Lemma proper_snoc s c : proper_digits (s ++ [c]) -> proper_digits s /\ s <> [48].
Proof.
  intros H. split; [|intros ->; specialize (H [c] eq_refl); discriminate H].
  intros s' ->. specialize (H (s' ++ [c]) eq_refl). destruct s'; discriminate H.
Qed.
Lemma proper_zero s : proper_digits s -> parse_digits 10 0 s = Some 0 -> s = [] \/ s = [48].
Proof.
  induction s as [|c s IH] using rev_ind; intros Hp Hs; [left; reflexivity|].
  apply parse_snoc in Hs as (m & Hm & Hc & E). pose proof (parse_digits_ge 10 0 s m ltac:(lia) ltac:(lia) Hm).
  assert (m = 0 /\ c = 48) as (-> & ->) by lia. apply proper_snoc in Hp as (Hp & Hn). destruct (IH Hp Hm) as [-> | ->]; [right; reflexivity|congruence].
Qed.
Lemma digits_unique s t n : proper_digits s -> proper_digits t -> s <> [] -> t <> [] -> parse_digits 10 0 s = Some n -> parse_digits 10 0 t = Some n -> s = t.
Proof.
  revert t n; induction s as [|c s IH] using rev_ind; intros t n Hs Ht Ns Nt Ps Pt; [congruence|].
  destruct t as [|d t _] using rev_ind; [congruence|].
  apply parse_snoc in Ps as (m & Hm & Hc & E). apply parse_snoc in Pt as (m' & Hm' & Hd & E').
  assert (m = m' /\ c = d) as (<- & <-) by lia.
  apply proper_snoc in Hs as (Hs & Ns'). apply proper_snoc in Ht as (Ht & Nt'). f_equal.
  destruct s as [|x s], t as [|y t]; [reflexivity| | |].
  - cbn in Hm. injection Hm as <-. destruct (proper_zero _ Ht Hm') as [A|A]; [discriminate A|congruence].
  - cbn in Hm'. injection Hm' as <-. destruct (proper_zero _ Hs Hm) as [A|A]; [discriminate A|congruence].
  - apply (IH _ m); try assumption; discriminate.
Qed.
Lemma decimal_unique n s t : decimal_text n s -> decimal_text n t -> s = t.
Proof. intros (A & B & C) (D & E & F). apply (digits_unique s t n); assumption. Qed.
Lemma shows_unique z s t : shows z s -> shows z t -> s = t.
Proof. intros (d & Hd & ->) (d' & Hd' & ->). rewrite (decimal_unique _ _ _ Hd Hd'). reflexivity. Qed.
Lemma decimal_value n m s : decimal_text n s -> decimal_text m s -> n = m.
Proof. intros (_ & B & _) (_ & E & _). congruence. Qed.
Lemma decimal_no_minus n s : decimal_text n (45 :: s) -> False.
Proof. intros (_ & B & _). cbn in B. discriminate B. Qed.
Lemma shows_value z w t : shows z t -> shows w t -> z = w.
Proof.
  intros (d & Hd & ->) (d' & Hd' & E). destruct (Z.ltb_spec z 0), (Z.ltb_spec w 0).
  - injection E as ->. pose proof (decimal_value _ _ _ Hd Hd'). lia.
  - subst d'. destruct (decimal_no_minus _ _ Hd').
  - subst d. destruct (decimal_no_minus _ _ Hd).
  - subst d'. pose proof (decimal_value _ _ _ Hd Hd'). lia.
Qed.

(** ** Rounding *)
Lemma nearest_scale M d n num den : nearest M d n -> 0 < den -> num * d = M * den -> nearest num den n.
Proof.
  intros (Hd & H) Hden E. split; [exact Hden|].
  assert (forall k, Z.abs (1000 * num - k * den) * d = Z.abs (1000 * M - k * d) * den) as K.
  { intros k. rewrite <- (Z.abs_eq d) at 1 by lia. rewrite <- (Z.abs_eq den) at 2 by lia. rewrite <- !Z.abs_mul. f_equal. nia. }
  intros k. destruct (H k) as (A & B). pose proof (K k) as Kk. pose proof (K n) as Kn. split.
  - apply (Z.mul_le_mono_pos_r _ _ d Hd). rewrite Kk, Kn. apply Z.mul_le_mono_nonneg_r; [lia|exact A].
  - intros Nk Ek. apply B; [exact Nk|]. apply (Z.mul_reg_r _ _ den); [lia|]. rewrite <- Kk, <- Kn, Ek. reflexivity.
Qed.
Lemma nearest_unique num den n n' : nearest num den n -> nearest num den n' -> n = n'.
Proof.
  intros (Hd & H) (_ & H'). destruct (Z.eq_dec n n') as [?|Hn]; [assumption|exfalso].
  destruct (H n') as (A & B), (H' n) as (A' & B'). assert (Z.abs (1000 * num - n * den) = Z.abs (1000 * num - n' * den)) as E by lia.
  specialize (B ltac:(congruence) E). specialize (B' Hn (eq_sym E)). destruct B as (a & ->), B' as (b & ->).
  destruct (H (a + b)) as (C & _).
  assert (1000 * num - 2 * a * den = - (1000 * num - 2 * b * den)) as E2.
  { apply Z.abs_eq_cases in E as [E|E]; [|exact E]. exfalso. apply Hn. assert (2 * a * den = 2 * b * den) as E' by lia. apply Z.mul_reg_r in E'; lia. }
  assert (1000 * num - (a + b) * den = 0) as E3 by lia. rewrite E3 in C. cbn [Z.abs] in C.
  assert (1000 * num - 2 * a * den = 0) as E4 by lia. assert (2 * a * den = 2 * b * den) as E' by lia. apply Z.mul_reg_r in E'; lia.
Qed.
Lemma thousandths_nearest m e : 0 <= m -> nearest (m * 2 ^ Z.max e 0) (2 ^ Z.max (- e) 0) (thousandths m e).
Proof.
  intros Hm. unfold thousandths. destruct (Z.leb_spec 0 e) as [He|He].
  - rewrite (Z.max_l e 0) by lia. rewrite (Z.max_r (- e) 0) by lia. rewrite Z.pow_0_r. split; [lia|]. intros k. rewrite !Z.mul_1_r.
    replace (1000 * (m * 2 ^ e) - 1000 * m * 2 ^ e) with 0 by lia. split; [lia|]. intros Hk E. exfalso. lia.
  - rewrite (Z.max_r e 0) by lia. rewrite (Z.max_l (- e) 0) by lia. rewrite Z.pow_0_r, Z.mul_1_r. cbv zeta.
    set (d := 2 ^ (- e)). assert (0 < d) as Hd by (apply Z.pow_pos_nonneg; lia). clearbody d.
    pose proof (Z.div_mod (1000 * m) d ltac:(lia)) as E. pose proof (Z.mod_pos_bound (1000 * m) d Hd) as Hr.
    set (q := 1000 * m / d) in *. set (r := (1000 * m) mod d) in *. clearbody q r.
    assert (forall k, 1000 * m - k * d = r - (k - q) * d) as K by (intros; lia). clear E.
    assert (forall j, 1 <= j -> d <= j * d) as P by (intros; nia). assert (forall j, j <= -1 -> j * d <= - d) as N by (intros; nia).
    split; [exact Hd|]. intros k. destruct (Z.ltb_spec (2 * r) d) as [H1|H1]; [|destruct (Z.ltb_spec d (2 * r)) as [H2|H2]].
    + rewrite !K. replace (q - q) with 0 by lia. destruct (Z_lt_le_dec k q) as [C|C]; [pose proof (N (k - q) ltac:(lia)); split; [lia|intros; exfalso; lia]|].
      destruct (Z.eq_dec k q) as [->|C']; [split; [lia|congruence]|]. pose proof (P (k - q) ltac:(lia)). split; [lia|intros; exfalso; lia].
    + rewrite !K. replace (q + 1 - q) with 1 by lia. destruct (Z_lt_le_dec k q) as [C|C]; [pose proof (N (k - q) ltac:(lia)); split; [lia|intros; exfalso; lia]|].
      destruct (Z.eq_dec k q) as [->|C']; [replace (q - q) with 0 by lia; split; [lia|intros; exfalso; lia]|].
      destruct (Z.eq_dec k (q + 1)) as [->|C'']; [split; [lia|congruence]|]. pose proof (P (k - q - 1) ltac:(lia)). split; [lia|intros; exfalso; lia].
    + assert (2 * r = d) as Hrd by lia. assert (Z.Even (if Z.even q then q else q + 1)) as Ev.
      { destruct (Z.even q) eqn:Eq; [apply Z.even_spec, Eq|]. apply Z.even_spec. rewrite Z.even_add, Eq. reflexivity. }
      split; [|intros _ _; exact Ev]. rewrite !K. 
      assert (r <= Z.abs (r - (k - q) * d)) as Hk.
      { destruct (Z_lt_le_dec k q) as [C|C]; [pose proof (N (k - q) ltac:(lia)); lia|].
        destruct (Z.eq_dec k q) as [->|C']; [replace (q - q) with 0 by lia; lia|]. pose proof (P (k - q) ltac:(lia)). lia. }
      destruct (Z.even q); [replace (q - q) with 0 by lia|replace (q + 1 - q) with 1 by lia]; lia.
Qed.
Lemma thousandths_nonneg m e : 0 <= m -> 0 <= thousandths m e.
Proof.
  intros Hm. unfold thousandths. destruct (0 <=? e) eqn:He; [apply Z.mul_nonneg_nonneg; [lia|apply Z.pow_nonneg; lia]|]. cbv zeta.
  assert (0 <= 1000 * m / 2 ^ (- e)) by (apply Z.div_pos; [lia|apply Z.pow_pos_nonneg; lia]).
  destruct (_ <? _); [assumption|]. destruct (_ <? _); [lia|]. destruct (Z.even _); lia.
Qed.
Lemma fixed_text neg n : 0 <= n -> point_text neg n (show_fixed neg n).
Proof.
  intros H. unfold point_text, show_fixed, three_digits. set (k := n mod 1000).
  assert (0 <= k < 1000) as Hk by (apply Z.mod_pos_bound; lia). assert (n = 1000 * (n / 1000) + k) as E by (apply Z.div_mod; lia).
  exists (format_int 10 (n / 1000)), (48 + k / 100), (48 + k / 10 mod 10), (48 + k mod 10), (n / 1000).
  split; [apply format10; apply Z.div_pos; lia|]. clearbody k.
  assert (0 <= k / 100 < 10 /\ 0 <= k / 10 mod 10 < 10 /\ 0 <= k mod 10 < 10 /\ k = 100 * (k / 100) + 10 * (k / 10 mod 10) + k mod 10) as (A & B & C & D).
  { Z.to_euclidean_division_equations. lia. }
  split; [repeat constructor; lia|]. split; [lia|]. reflexivity.
Qed.
Lemma point_unique neg n s t : point_text neg n s -> point_text neg n t -> s = t.
Proof.
  intros (a & d1 & d2 & d3 & k & Ha & Hd & E & ->) (a' & d1' & d2' & d3' & k' & Ha' & Hd' & E' & ->).
  apply Forall_cons_iff in Hd as (H1 & Hd). apply Forall_cons_iff in Hd as (H2 & Hd). apply Forall_cons_iff in Hd as (H3 & _).
  apply Forall_cons_iff in Hd' as (H1' & Hd'). apply Forall_cons_iff in Hd' as (H2' & Hd'). apply Forall_cons_iff in Hd' as (H3' & _).
  assert (k = k' /\ d1 = d1' /\ d2 = d2' /\ d3 = d3') as (<- & <- & <- & <-) by lia. rewrite (decimal_unique _ _ _ Ha Ha'). reflexivity.
Qed.

(** ** Floating point texts *)
Lemma layout_fields ew fw neg ex fr bits : 0 < ew -> 0 < fw -> layout ew fw neg ex fr bits ->
  (bits / 2 ^ (ew + fw)) mod 2 = (if neg then 1 else 0) /\ (bits / 2 ^ fw) mod 2 ^ ew = ex /\ bits mod 2 ^ fw = fr.
Proof.
  intros He Hf (Hx & Hr & ->). assert (0 < 2 ^ ew /\ 0 < 2 ^ fw) as (Pe & Pf) by (split; apply Z.pow_pos_nonneg; lia).
  rewrite Z.pow_add_r by lia. set (E := 2 ^ ew) in *. set (F := 2 ^ fw) in *. clearbody E F.
  set (sg := if neg then 1 else 0). replace ((if neg then E * F else 0) + ex * F + fr) with ((sg * E + ex) * F + fr) by (unfold sg; destruct neg; lia).
  assert (0 <= sg < 2) as Hsg by (unfold sg; destruct neg; lia). clearbody sg.
  assert (((sg * E + ex) * F + fr) / F = sg * E + ex) as D1 by (rewrite Z.div_add_l by lia; rewrite (Z.div_small fr) by lia; lia).
  split; [|split].
  - rewrite (Z.mul_comm E F). rewrite <- Z.div_div by lia. rewrite D1. rewrite Z.div_add_l by lia. rewrite (Z.div_small ex) by lia. rewrite Z.mod_small; lia.
  - rewrite D1. rewrite Z.add_comm, Z.mod_add by lia. apply Z.mod_small; lia.
  - rewrite Z.add_comm, Z.mod_add by lia. apply Z.mod_small; lia.
Qed.
Lemma layout_of ew fw bits : 0 < ew -> 0 < fw -> 0 <= bits < 2 ^ (1 + ew + fw) ->
  layout ew fw ((bits / 2 ^ (ew + fw)) mod 2 =? 1) ((bits / 2 ^ fw) mod 2 ^ ew) (bits mod 2 ^ fw) bits.
Proof.
  intros He Hf Hb. replace (1 + ew + fw) with (1 + (ew + fw)) in Hb by lia. rewrite Z.pow_add_r in Hb by lia. change (2 ^ 1) with 2 in Hb.
  assert (0 < 2 ^ ew /\ 0 < 2 ^ fw) as (Pe & Pf) by (split; apply Z.pow_pos_nonneg; lia).
  split; [apply Z.mod_pos_bound; lia|]. split; [apply Z.mod_pos_bound; lia|].
  rewrite Z.pow_add_r in * by lia. set (E := 2 ^ ew) in *. set (F := 2 ^ fw) in *. clearbody E F.
  rewrite (Z.mul_comm E F), <- Z.div_div by lia. pose proof (Z.div_mod bits F ltac:(lia)) as D1. pose proof (Z.div_mod (bits / F) E ltac:(lia)) as D2.
  assert (0 <= bits / F / E < 2) as Hs.
  { rewrite Z.div_div by lia. split; [apply Z.div_pos; nia|]. apply Z.div_lt_upper_bound; nia. }
  rewrite (Z.mod_small _ 2 Hs). set (s := bits / F / E) in *. set (x := (bits / F) mod E) in *. set (y := bits mod F) in *. rewrite D1 at 1. rewrite D2.
  destruct (Z.eqb_spec s 1) as [->|N]; [lia|]. replace s with 0 by lia. lia.
Qed.
Lemma layout_unique ew fw n x r n' x' r' bits : 0 < ew -> 0 < fw -> layout ew fw n x r bits -> layout ew fw n' x' r' bits -> n = n' /\ x = x' /\ r = r'.
Proof.
  intros He Hf A B. apply layout_fields in A as (A1 & A2 & A3); try assumption. apply layout_fields in B as (B1 & B2 & B3); try assumption.
  split; [destruct n, n'; congruence|]. split; congruence.
Qed.
Definition float_m (fw ex fr : Z) : Z := if ex =? 0 then fr else fr + 2 ^ fw.
Definition float_e (ew fw ex : Z) : Z := (if ex =? 0 then 1 else ex) - (2 ^ (ew - 1) - 1) - fw.
Lemma fraction_scale ew fw ex fr num den : 0 < ew -> 0 < fw -> 0 <= ex -> 0 <= fr -> fraction ew fw ex fr num den ->
  0 < den /\ num * 2 ^ Z.max (- float_e ew fw ex) 0 = float_m fw ex fr * 2 ^ Z.max (float_e ew fw ex) 0 * den.
Proof.
  intros He Hf Hx Hr (Hden & H). split; [exact Hden|]. cbv zeta in H.
  assert (0 < 2 ^ (ew - 1)) as Hb by (apply Z.pow_pos_nonneg; lia). unfold float_e, float_m. set (B := 2 ^ (ew - 1)) in *.
  destruct (Z.eqb_spec ex 0) as [->|N].
  - destruct (Z_le_gt_dec (1 - (B - 1) - fw) 0) as [L|L].
    + rewrite (Z.max_l (- _)) by lia. rewrite (Z.max_r (1 - _ - _)) by lia. rewrite Z.pow_0_r, Z.mul_1_r. rewrite <- H. f_equal. f_equal. lia.
    + lia.
  - set (e := ex - (B - 1) - fw). destruct (Z_le_gt_dec e 0) as [L|L].
    + rewrite (Z.max_l (- e)) by lia. rewrite (Z.max_r e) by lia. rewrite Z.pow_0_r, Z.mul_1_r.
      replace (B - 1 + fw) with (- e + ex) in H by (unfold e; lia). rewrite Z.pow_add_r in H by lia.
      assert (0 < 2 ^ ex) by (apply Z.pow_pos_nonneg; lia). apply (Z.mul_reg_r _ _ (2 ^ ex)); [lia|]. lia.
    + rewrite (Z.max_r (- e)) by lia. rewrite (Z.max_l e) by lia. rewrite Z.pow_0_r, Z.mul_1_r.
      replace ex with ((B - 1 + fw) + e) in H by (unfold e; lia). rewrite (Z.pow_add_r 2 (B - 1 + fw) e) in H by lia.
      assert (0 < 2 ^ (B - 1 + fw)) by (apply Z.pow_pos_nonneg; lia). apply (Z.mul_reg_r _ _ (2 ^ (B - 1 + fw))); [lia|]. lia.
Qed.
Lemma fraction_exists ew fw ex fr : 0 < ew -> 0 < fw -> 0 <= ex -> exists num den, fraction ew fw ex fr num den.
Proof.
  intros He Hf Hx. assert (0 < 2 ^ (ew - 1)) as Hb by (apply Z.pow_pos_nonneg; lia). unfold fraction. destruct (ex =? 0).
  - exists fr, (2 ^ (2 ^ (ew - 1) - 1 - 1 + fw)). split; [apply Z.pow_pos_nonneg; lia|]. reflexivity.
  - exists ((fr + 2 ^ fw) * 2 ^ ex), (2 ^ (2 ^ (ew - 1) - 1 + fw)). split; [apply Z.pow_pos_nonneg; lia|]. reflexivity.
Qed.
Lemma float_shown ew fw bits : 0 < ew -> 0 < fw -> 0 <= bits < 2 ^ (1 + ew + fw) -> float_text ew fw bits (show_float ew fw bits).
Proof.
  intros He Hf Hb. pose proof (layout_of ew fw bits He Hf Hb) as L. unfold float_text, show_float.
  set (neg := (bits / 2 ^ (ew + fw)) mod 2 =? 1) in *. set (ex := (bits / 2 ^ fw) mod 2 ^ ew) in *. set (fr := bits mod 2 ^ fw) in *. cbv zeta.
  exists neg, ex, fr. split; [exact L|]. destruct L as (Hx & Hr & _). destruct (Z.eqb_spec ex (2 ^ ew - 1)) as [E|E].
  - destruct (Z.eqb_spec fr 0) as [Ef|Ef]; [right; left; auto|right; right; auto].
  - left. split; [exact E|]. split; [apply fraction_exists; lia|]. intros num den HF. fold (float_m fw ex fr). fold (float_e ew fw ex).
    assert (0 <= float_m fw ex fr) as Hm by (unfold float_m; destruct (ex =? 0); [lia|pose proof (Z.pow_nonneg 2 fw); lia]).
    exists (thousandths (float_m fw ex fr) (float_e ew fw ex)). destruct (fraction_scale ew fw ex fr num den He Hf ltac:(lia) ltac:(lia) HF) as (Hd & EQ).
    split; [eapply nearest_scale; [apply thousandths_nearest; exact Hm|exact Hd|exact EQ]|]. apply fixed_text, thousandths_nonneg, Hm.
Qed.
Lemma float_unique ew fw bits s t : 0 < ew -> 0 < fw -> float_text ew fw bits s -> float_text ew fw bits t -> s = t.
Proof.
  intros He Hf (n & x & r & L & H) (n' & x' & r' & L' & H'). destruct (layout_unique _ _ _ _ _ _ _ _ _ He Hf L L') as (<- & <- & <-).
  destruct H as [(A & (num & den & F) & B)|[(A & B & ->)|(A & B & ->)]], H' as [(A' & _ & B')|[(A' & B' & ->)|(A' & B' & ->)]]; try congruence.
  destruct (B num den F) as (k & K & P). destruct (B' num den F) as (k' & K' & P'). rewrite <- (nearest_unique _ _ _ _ K K') in P'. exact (point_unique _ _ _ _ P P').
Qed.
