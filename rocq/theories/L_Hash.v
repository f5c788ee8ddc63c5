(** Proofs about HashString: the table-driven loop computes CRC-32. *)
From Verif Require Import GoInt M_Hash S_Hash.
From Coq Require Import ZifyBool Btauto.

Lemma iter_S {A} n (f : A -> A) x : Nat.iter (S n) f x = f (Nat.iter n f x).
Proof. reflexivity. Qed.
Lemma iter_plus {A} n m (f : A -> A) x : Nat.iter (n + m) f x = Nat.iter n f (Nat.iter m f x).
Proof. induction n as [|n IH]; [reflexivity|]. change (S n + m)%nat with (S (n + m)). rewrite !iter_S, IH. reflexivity. Qed.

Definition u32 (r : Z) : Prop := 0 <= r < 2 ^ 32.

(** * Linearity of the bit step *)
Lemma odd_lxor a b : Z.odd (Z.lxor a b) = xorb (Z.odd a) (Z.odd b).
Proof. rewrite <- !Z.bit0_odd. apply Z.lxor_spec. Qed.

Lemma crc_bit_alt r : crc_bit r = Z.lxor (Z.shiftr r 1) (if Z.odd r then crc_poly else 0).
Proof. unfold crc_bit. destruct (Z.odd r); [reflexivity|rewrite Z.lxor_0_r; reflexivity]. Qed.

Lemma crc_bit_lxor a b : crc_bit (Z.lxor a b) = Z.lxor (crc_bit a) (crc_bit b).
Proof.
  rewrite !crc_bit_alt, Z.shiftr_lxor, odd_lxor. apply Z.bits_inj'. intros n Hn.
  rewrite !Z.lxor_spec. destruct (Z.odd a), (Z.odd b); cbn [xorb]; rewrite ?Z.bits_0;
    destruct (Z.testbit (Z.shiftr a 1) n), (Z.testbit (Z.shiftr b 1) n), (Z.testbit crc_poly n); reflexivity.
Qed.

Lemma iter_lxor n a b : Nat.iter n crc_bit (Z.lxor a b) = Z.lxor (Nat.iter n crc_bit a) (Nat.iter n crc_bit b).
Proof. induction n as [|n IH]; [reflexivity|]. rewrite !iter_S, IH. apply crc_bit_lxor. Qed.

Lemma crc_bit_even h : crc_bit (2 * h) = h.
Proof. unfold crc_bit. rewrite Z.odd_mul. cbn [Z.odd andb]. rewrite Z.shiftr_div_pow2 by lia. change (2 ^ 1) with 2. rewrite Z.mul_comm, Z.div_mul; lia. Qed.

Lemma iter_shift n : forall h, Nat.iter n crc_bit (h * 2 ^ Z.of_nat n) = h.
Proof.
  induction n as [|n IH]; intros h.
  - cbn. lia.
  - rewrite Nat2Z.inj_succ, Z.pow_succ_r by lia. rewrite iter_S.
    replace (h * (2 * 2 ^ Z.of_nat n)) with (2 * h * 2 ^ Z.of_nat n) by ring. rewrite IH. apply crc_bit_even.
Qed.

Lemma low_high r : r = Z.lxor (Z.shiftr r 8 * 2 ^ 8) (Z.land r 255).
Proof.
  rewrite <- Z.shiftl_mul_pow2 by lia. apply Z.bits_inj'. intros n Hn.
  rewrite Z.lxor_spec, Z.land_spec. change 255 with (Z.ones 8).
  destruct (Z.lt_ge_cases n 8).
  - rewrite Z.shiftl_spec_low by lia. rewrite Z.ones_spec_low by lia. rewrite andb_true_r. symmetry; apply xorb_false_l.
  - rewrite Z.shiftl_spec by lia. rewrite Z.shiftr_spec by lia. rewrite Z.ones_spec_high by lia.
    rewrite andb_false_r, xorb_false_r. f_equal. lia.
Qed.

Lemma iter8 r : Nat.iter 8 crc_bit r = Z.lxor (Z.shiftr r 8) (Nat.iter 8 crc_bit (Z.land r 255)).
Proof.
  rewrite (low_high r) at 1. rewrite iter_lxor. f_equal. exact (iter_shift 8 (Z.shiftr r 8)).
Qed.

(** * The table *)
Definition upto (n : nat) : list Z := map Z.of_nat (seq 0 n).

Lemma table_ok : crc_table = map (fun i => Nat.iter 8 crc_bit i) (upto 256).
Proof. vm_compute. reflexivity. Qed.

Lemma table_nth i : 0 <= i < 256 -> nth_error crc_table (Z.to_nat i) = Some (Nat.iter 8 crc_bit i).
Proof.
  intros Hi. rewrite table_ok. unfold upto. rewrite map_map.
  rewrite nth_error_map. rewrite nth_error_nth' with (d := 0%nat) by (rewrite seq_length; lia).
  rewrite seq_nth by lia. cbn [option_map plus]. rewrite Z2Nat.id by lia. reflexivity.
Qed.

Lemma land255 z : 0 <= Z.land z 255 < 256.
Proof. change 255 with (Z.ones 8). rewrite Z.land_ones by lia. apply Z.mod_pos_bound. lia. Qed.

Lemma crc_index_ok crc b : 0 <= crc_index crc b < 256.
Proof. apply land255. Qed.

(** * Signed and unsigned registers *)
Lemma mod32_land z : z mod 2 ^ 32 = Z.land z (Z.ones 32).
Proof. rewrite Z.land_ones by lia. reflexivity. Qed.

Lemma land_lxor a b c : Z.land (Z.lxor a b) c = Z.lxor (Z.land a c) (Z.land b c).
Proof. apply Z.bits_inj'. intros n Hn. rewrite !Z.lxor_spec, !Z.land_spec, Z.lxor_spec. btauto. Qed.

Lemma mod32_lxor a b : Z.lxor a b mod 2 ^ 32 = Z.lxor (a mod 2 ^ 32) (b mod 2 ^ 32).
Proof. rewrite !mod32_land. apply land_lxor. Qed.

Lemma in_int32_shift z : in_int32 z <-> (Z.shiftr z 31 = 0 \/ Z.shiftr z 31 = -1).
Proof. rewrite Z.shiftr_div_pow2 by lia. change (2 ^ 31) with 2147483648. unfold in_int32. split; intros H; [|]; pose proof (Z_div_mod_eq_full z 2147483648); pose proof (Z.mod_pos_bound z 2147483648); lia. Qed.

Lemma in_int32_lxor a b : in_int32 a -> in_int32 b -> in_int32 (Z.lxor a b).
Proof.
  rewrite !in_int32_shift, Z.shiftr_lxor. intros [->| ->] [->| ->]; cbn; auto.
Qed.

Lemma int32_mod z : int32 z mod 2 ^ 32 = z mod 2 ^ 32.
Proof.
  assert (exists k, int32 z = z + k * 2 ^ 32) as [k ->]; [|apply Z.mod_add; lia].
  Local Transparent wrapS. unfold int32, wrapS. exists (- ((z + 2 ^ (32 - 1)) / 2 ^ 32)).
  pose proof (Z_div_mod_eq_full (z + 2 ^ (32 - 1)) (2 ^ 32)). lia.
Qed.
Global Opaque wrapS.

(** the unsigned register *)
Definition ureg (crc : Z) : Z := crc mod 2 ^ 32.

Lemma ureg_u32 crc : u32 (ureg crc).
Proof. apply Z.mod_pos_bound. lia. Qed.

Lemma shift_signed crc : in_int32 crc -> Z.land (Z.shiftr crc 8) 16777215 = Z.shiftr (ureg crc) 8.
Proof.
  intros H. unfold ureg. rewrite mod32_land. rewrite Z.shiftr_land.
  change 16777215 with (Z.ones 24). rewrite (Z.shiftr_div_pow2 (Z.ones 32)) by lia. reflexivity.
Qed.

Lemma index_signed crc b : crc_index crc b = Z.land (Z.lxor (ureg crc) b) 255.
Proof.
  unfold crc_index, ureg. rewrite !land_lxor. f_equal. rewrite mod32_land, <- Z.land_assoc. reflexivity.
Qed.

Lemma crc_bit_u32 r : u32 r -> u32 (crc_bit r).
Proof.
  unfold u32. intros H. rewrite crc_bit_alt.
  assert (forall z, 0 <= z < 2 ^ 32 <-> Z.shiftr z 32 = 0) as E.
  { intros z. rewrite Z.shiftr_div_pow2 by lia. split; intros; [apply Z.div_small; lia|].
    pose proof (Z_div_mod_eq_full z (2 ^ 32)). pose proof (Z.mod_pos_bound z (2 ^ 32)). lia. }
  apply E. apply E in H. rewrite Z.shiftr_lxor. rewrite Z.shiftr_shiftr by lia.
  replace (1 + 32) with (32 + 1) by lia. rewrite <- Z.shiftr_shiftr by lia. rewrite H.
  destruct (Z.odd r); reflexivity.
Qed.

Lemma iter_u32 n r : u32 r -> u32 (Nat.iter n crc_bit r).
Proof. intros H. induction n as [|n IH]; [exact H|]. rewrite iter_S. apply crc_bit_u32, IH. Qed.

Lemma land255_u32 z : u32 (Z.land z 255).
Proof. pose proof (land255 z). unfold u32. lia. Qed.

Lemma byte_shift b : is_byte b -> Z.shiftr b 8 = 0.
Proof. unfold is_byte. intros H. rewrite Z.shiftr_div_pow2 by lia. apply Z.div_small. lia. Qed.

Lemma crc_step_ok crc b : in_int32 crc -> is_byte b ->
  exists c, crc_step crc b = Some c /\ in_int32 c /\ ureg c = crc_byte (ureg crc) b.
Proof.
  intros Hc Hb. unfold crc_step. rewrite (table_nth _ (crc_index_ok crc b)). eexists; split; [reflexivity|].
  rewrite (shift_signed crc Hc). split.
  - apply in_int32_lxor; [|apply int32_range]. pose proof (ureg_u32 crc) as H. unfold u32, in_int32 in *.
    rewrite Z.shiftr_div_pow2 by lia. change (2 ^ 8) with 256.
    pose proof (Z_div_mod_eq_full (ureg crc) 256). pose proof (Z.mod_pos_bound (ureg crc) 256). lia.
  - unfold ureg at 1. rewrite mod32_lxor, int32_mod. unfold crc_byte. rewrite (iter8 (Z.lxor (ureg crc) b)).
    rewrite Z.shiftr_lxor, (byte_shift b Hb), Z.lxor_0_r, <- index_signed.
    f_equal.
    + apply Z.mod_small. pose proof (ureg_u32 crc) as H. unfold u32 in H. rewrite Z.shiftr_div_pow2 by lia. change (2 ^ 8) with 256.
      pose proof (Z_div_mod_eq_full (ureg crc) 256). pose proof (Z.mod_pos_bound (ureg crc) 256). lia.
    + apply Z.mod_small. apply iter_u32. unfold crc_index. apply land255_u32.
Qed.

Lemma crc_loop_ok bs : Forall is_byte bs -> forall crc, in_int32 crc ->
  exists c, crc_loop crc bs = Some c /\ in_int32 c /\ ureg c = fold_left crc_byte bs (ureg crc).
Proof.
  induction 1 as [|b bs Hb Hbs IH]; intros crc Hc; cbn [crc_loop fold_left]; [eauto|].
  destruct (crc_step_ok crc b Hc Hb) as (c & -> & Hc' & E). destruct (IH c Hc') as (d & E2 & Hd & E3).
  exists d. rewrite E2, E3, E. auto.
Qed.

Lemma as_int32_ureg c : in_int32 c -> as_int32 (ureg c) = c.
Proof.
  unfold in_int32, as_int32, ureg. intros H. change (2 ^ 32) with 4294967296.
  pose proof (Z_div_mod_eq_full c 4294967296). pose proof (Z.mod_pos_bound c 4294967296).
  destruct (c mod 4294967296 <? 2147483648) eqn:E; lia.
Qed.

Lemma hash_is_crc32 bs : Forall is_byte bs -> hash_string bs = Some (as_int32 (crc32 bs)).
Proof.
  intros H. unfold hash_string, hash. destruct (crc_loop_ok bs H (-1) ltac:(unfold in_int32; lia)) as (c & E & Hc & Eu).
  rewrite E. cbn [option_map]. f_equal. unfold crc32.
  change (ureg (-1)) with 4294967295 in Eu. rewrite <- Eu.
  rewrite <- (as_int32_ureg (Z.lxor c (-1))) by (apply in_int32_lxor; [assumption|unfold in_int32; lia]).
  f_equal. unfold ureg. rewrite mod32_lxor. reflexivity.
Qed.

(** * Injectivity: bursts of up to four bytes *)
Lemma crc_bit_inj a b : u32 a -> u32 b -> crc_bit a = crc_bit b -> a = b.
Proof.
  intros Ha Hb E.
  assert (forall r, u32 r -> Z.testbit (crc_bit r) 31 = Z.odd r) as Ht.
  { intros r Hr. rewrite crc_bit_alt, Z.lxor_spec, Z.shiftr_spec by lia. change (31 + 1) with 32.
    assert (Z.testbit r 32 = false) as ->.
    { unfold u32 in Hr. destruct (Z.eq_dec r 0) as [->|]; [reflexivity|]. apply Z.bits_above_log2; [lia|]. apply Z.log2_lt_pow2; lia. }
    destruct (Z.odd r); reflexivity. }
  assert (Z.odd a = Z.odd b) as Eo by (rewrite <- !Ht by assumption; rewrite E; reflexivity).
  rewrite !crc_bit_alt, Eo in E.
  assert (Z.shiftr a 1 = Z.shiftr b 1) as Es.
  { set (p := if Z.odd b then crc_poly else 0) in *.
    rewrite <- (Z.lxor_0_r (Z.shiftr a 1)), <- (Z.lxor_0_r (Z.shiftr b 1)), <- (Z.lxor_nilpotent p), <- !Z.lxor_assoc, E. reflexivity. }
  rewrite !Z.shiftr_div_pow2 in Es by lia. change (2 ^ 1) with 2 in Es.
  pose proof (Zdiv2_odd_eqn a) as E1. pose proof (Zdiv2_odd_eqn b) as E2. rewrite !Z.div2_div in *. rewrite Eo, Es in E1. lia.
Qed.

Lemma iter_inj n a b : u32 a -> u32 b -> Nat.iter n crc_bit a = Nat.iter n crc_bit b -> a = b.
Proof.
  intros Ha Hb. induction n as [|n IH]; [trivial|]. rewrite !iter_S. intros E.
  apply IH, crc_bit_inj; [apply iter_u32; assumption|apply iter_u32; assumption|assumption].
Qed.

Lemma lxor_u32 a b : u32 a -> u32 b -> u32 (Z.lxor a b).
Proof.
  unfold u32. assert (forall z, 0 <= z < 2 ^ 32 <-> Z.shiftr z 32 = 0) as E.
  { intros z. rewrite Z.shiftr_div_pow2 by lia. split; intros; [apply Z.div_small; lia|].
    pose proof (Z_div_mod_eq_full z (2 ^ 32)). pose proof (Z.mod_pos_bound z (2 ^ 32)). lia. }
  rewrite !E, Z.shiftr_lxor. intros -> ->. reflexivity.
Qed.

Lemma byte_u32 b : is_byte b -> u32 b.
Proof. unfold is_byte, u32. lia. Qed.

Lemma fold_u32 bs : Forall is_byte bs -> forall r, u32 r -> u32 (fold_left crc_byte bs r).
Proof.
  induction 1 as [|b bs Hb Hbs IH]; intros r Hr; cbn [fold_left]; [assumption|].
  apply IH. unfold crc_byte. apply iter_u32, lxor_u32; [assumption|apply byte_u32; assumption].
Qed.

Lemma lxor_cancel_r a b c : Z.lxor a c = Z.lxor b c -> a = b.
Proof. intros E. rewrite <- (Z.lxor_0_r a), <- (Z.lxor_0_r b), <- (Z.lxor_nilpotent c), <- !Z.lxor_assoc, E. reflexivity. Qed.
Lemma lxor_cancel_l a b c : Z.lxor c a = Z.lxor c b -> a = b.
Proof. rewrite !(Z.lxor_comm c). apply lxor_cancel_r. Qed.

(** same suffix: the register before it is determined *)
Lemma fold_inj bs : Forall is_byte bs -> forall r s, u32 r -> u32 s ->
  fold_left crc_byte bs r = fold_left crc_byte bs s -> r = s.
Proof.
  induction 1 as [|b bs Hb Hbs IH]; intros r s Hr Hs E; cbn [fold_left] in E; [assumption|].
  apply IH in E; [|unfold crc_byte; apply iter_u32, lxor_u32; auto using byte_u32..].
  unfold crc_byte in E. apply iter_inj in E; [|apply lxor_u32; auto using byte_u32..]. eapply lxor_cancel_r; exact E.
Qed.

(** little-endian word of up to four bytes *)
Fixpoint le_word (bs : bytes) : Z := match bs with [] => 0 | b :: bs' => b + 256 * le_word bs' end.

Lemma le_word_range bs : Forall is_byte bs -> 0 <= le_word bs < 2 ^ (8 * zlen bs).
Proof.
  induction 1 as [|b bs Hb Hbs IH]; cbn [le_word]; [cbn; lia|]. rewrite zlen_cons.
  replace (8 * (1 + zlen bs)) with (8 + 8 * zlen bs) by lia. pose proof (zlen_nonneg bs).
  rewrite Z.pow_add_r by lia. change (2 ^ 8) with 256. unfold is_byte in Hb. nia.
Qed.

Lemma le_word_inj a b : Forall is_byte a -> Forall is_byte b -> length a = length b -> le_word a = le_word b -> a = b.
Proof.
  intros Ha; revert b; induction Ha as [|x a Hx Ha IH]; intros b Hb Hl E; destruct b as [|y b]; try discriminate; [reflexivity|].
  inversion Hb as [|? ? Hy Hb']; subst. cbn [le_word length] in *. unfold is_byte in *.
  assert (x = y) by lia. subst. f_equal. apply IH; auto; lia.
Qed.

Lemma lxor_low_high b w : is_byte b -> Z.lxor b (256 * w) = b + 256 * w.
Proof.
  intros Hb. rewrite Z.add_nocarry_lxor; [reflexivity|].
  apply Z.bits_inj'. intros n Hn. rewrite Z.land_spec, Z.bits_0.
  replace (256 * w) with (Z.shiftl w 8) by (rewrite Z.shiftl_mul_pow2 by lia; lia).
  destruct (Z.lt_ge_cases n 8).
  - rewrite (Z.shiftl_spec_low w) by lia. apply andb_false_r.
  - assert (Z.testbit b n = false) as ->; [|reflexivity]. unfold is_byte in Hb.
    destruct (Z.eq_dec b 0) as [->|]; [apply Z.bits_0|]. apply Z.bits_above_log2; [lia|].
    assert (Z.log2 b < 8); [|lia]. apply Z.log2_lt_pow2; lia.
Qed.

(** feeding k bytes is running 8k bit steps on the register xored with the word *)
Lemma fold_word bs : Forall is_byte bs -> forall r,
  fold_left crc_byte bs r = Nat.iter (8 * length bs) crc_bit (Z.lxor r (le_word bs)).
Proof.
  induction 1 as [|b bs Hb Hbs IH]; intros r; cbn [fold_left length le_word].
  - change (8 * 0)%nat with 0%nat. cbn [Nat.iter nat_rect]. rewrite Z.lxor_0_r. reflexivity.
  - rewrite IH. unfold crc_byte.
    rewrite <- (lxor_low_high b (le_word bs) Hb). rewrite <- (Z.lxor_assoc r b).
    assert (Nat.iter 8 crc_bit (256 * le_word bs) = le_word bs) as E.
    { rewrite Z.mul_comm. exact (iter_shift 8 (le_word bs)). }
    rewrite <- E at 1. rewrite <- iter_lxor.
    replace (8 * S (length bs))%nat with (8 * length bs + 8)%nat by lia.
    rewrite iter_plus. reflexivity.
Qed.

Lemma as_int32_inj a b : u32 a -> u32 b -> as_int32 a = as_int32 b -> a = b.
Proof. unfold u32, as_int32. change (2 ^ 32) with 4294967296. intros. destruct (a <? 2147483648) eqn:E1, (b <? 2147483648) eqn:E2; lia. Qed.

Lemma crc32_u32 bs : Forall is_byte bs -> u32 (crc32 bs).
Proof. intros H. apply lxor_u32; [apply fold_u32; [assumption|unfold u32; lia]|unfold u32; lia]. Qed.

Lemma short_zlen (a : bytes) : zlen a <= 4 -> 2 ^ (8 * zlen a) <= 2 ^ 32.
Proof. intros H. apply Z.pow_le_mono_r; lia. Qed.

Lemma burst_distinct pre a b post :
  Forall is_byte pre -> Forall is_byte a -> Forall is_byte b -> Forall is_byte post ->
  length a = length b -> zlen a <= 4 -> a <> b ->
  hash_string (pre ++ a ++ post) <> hash_string (pre ++ b ++ post).
Proof.
  intros Hp Ha Hb Hq Hl H4 Hne E. apply Hne. apply le_word_inj; auto.
  rewrite !hash_is_crc32 in E by (repeat (apply Forall_app; split); assumption).
  injection E as E. apply as_int32_inj in E; [|apply crc32_u32; repeat (apply Forall_app; split); assumption..].
  unfold crc32 in E. apply lxor_cancel_r in E. rewrite !fold_left_app in E.
  set (r := fold_left crc_byte pre 4294967295) in *.
  assert (u32 r) as Hr by (apply fold_u32; [assumption|unfold u32; lia]).
  apply fold_inj in E; [|assumption|apply fold_u32; assumption..].
  rewrite !fold_word, <- Hl in E by assumption.
  pose proof (le_word_range a Ha). pose proof (le_word_range b Hb). pose proof (short_zlen a H4).
  assert (zlen a = zlen b) as Hz by (unfold zlen; rewrite Hl; reflexivity). rewrite <- Hz in *.
  apply iter_inj in E; [|apply lxor_u32; [assumption|unfold u32; lia]..].
  eapply lxor_cancel_l; exact E.
Qed.

(** exactly one register value leads to 0xFFFFFFFF after 8k steps *)
Lemma short_nonzero s : Forall is_byte s -> s <> [] -> zlen s <= 3 -> hash_string s <> Some 0.
Proof.
  intros Hs Hn H3 E. rewrite hash_is_crc32 in E by assumption. injection E as E.
  pose proof (as_int32_inj (crc32 s) 0 (crc32_u32 s Hs) ltac:(unfold u32; lia) E) as E0.
  unfold crc32 in E0. apply Z.lxor_eq in E0. rewrite fold_word in E0 by assumption.
  pose proof (le_word_range s Hs) as Hw. pose proof (short_zlen s ltac:(lia)).
  assert (u32 (Z.lxor 4294967295 (le_word s))) as Hu by (apply lxor_u32; unfold u32; lia).
  assert (forall k x, length s = k -> u32 x -> Nat.iter (8 * k) crc_bit x = 4294967295 ->
     le_word s = Z.lxor 4294967295 x) as Hx.
  { intros k x Hk Hxu Ex. assert (Z.lxor 4294967295 (le_word s) = x) as <-.
    { eapply iter_inj; [assumption|assumption|]. rewrite Hk in E0. rewrite Ex. exact E0. }
    rewrite <- Z.lxor_assoc, Z.lxor_nilpotent, Z.lxor_0_l. reflexivity. }
  unfold zlen in *.
  assert (length s = 1 \/ length s = 2 \/ length s = 3)%nat as [Hk|[Hk|Hk]] by (destruct s; cbn [length] in *; [contradiction|lia]).
  - rewrite (Hx 1%nat 4036333529 Hk ltac:(unfold u32; lia) ltac:(vm_compute; reflexivity)), Hk in Hw. destruct Hw as [_ Hw]. vm_compute in Hw. discriminate Hw.
  - rewrite (Hx 2%nat 2585566608 Hk ltac:(unfold u32; lia) ltac:(vm_compute; reflexivity)), Hk in Hw. destruct Hw as [_ Hw]. vm_compute in Hw. discriminate Hw.
  - rewrite (Hx 3%nat 2737710721 Hk ltac:(unfold u32; lia) ltac:(vm_compute; reflexivity)), Hk in Hw. destruct Hw as [_ Hw]. vm_compute in Hw. discriminate Hw.
Qed.
