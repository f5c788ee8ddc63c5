(** Fixed-width integers and big-endian byte encodings.
    Models the Go built-in integer conversions (two's complement truncation, Go spec
    "Conversions between numeric types") and encoding/binary.BigEndian as used by
    scouterx/common/netdata/dataoutputx.go:46-109 and datainputx.go:33-85. *)
From Coq Require Export String Ascii.
From Coq Require Export ZArith List Lia Bool.
From Coq Require Import ZifyBool.
Export ListNotations.
Open Scope Z_scope.

Notation byte := Z (only parsing).
Notation bytes := (list Z) (only parsing).
(** Go strings are immutable byte sequences. *)
Notation gostring := (list Z) (only parsing).

Definition is_byte (b : Z) : Prop := 0 <= b < 256.
Definition is_byteb (b : Z) : bool := (0 <=? b) && (b <? 256).

(** Go conversion to a signed integer of [bits] bits. *)
Definition wrapS (bits : Z) (z : Z) : Z := (z + 2 ^ (bits - 1)) mod 2 ^ bits - 2 ^ (bits - 1).
(** Go conversion to an unsigned integer of [bits] bits. *)
Definition wrapU (bits : Z) (z : Z) : Z := z mod 2 ^ bits.

Definition int8 := wrapS 8.
Definition int16 := wrapS 16.
Definition int32 := wrapS 32.
Definition int64 := wrapS 64.
Definition uint8 := wrapU 8.

Definition in_int8 (z : Z) : Prop := -128 <= z <= 127.
Definition in_int16 (z : Z) : Prop := -32768 <= z <= 32767.
Definition in_int32 (z : Z) : Prop := -2147483648 <= z <= 2147483647.
Definition in_int64 (z : Z) : Prop := -9223372036854775808 <= z <= 9223372036854775807.

(** encoding/binary.BigEndian.PutUint{16,32,64}: [n] bytes, most significant first. *)
Fixpoint be (n : nat) (z : Z) : bytes :=
  match n with
  | O => []
  | S m => be m (z / 256) ++ [z mod 256]
  end.

(** encoding/binary.BigEndian.Uint{16,32,64}. *)
Definition unbe (bs : bytes) : Z := fold_left (fun a b => a * 256 + b) bs 0.

(** len as a Z *)
Definition zlen {A} (l : list A) : Z := Z.of_nat (length l).

(** Byte strings written as Coq strings are used for Go string literals. *)
Fixpoint of_string (s : string) : bytes :=
  match s with
  | EmptyString => []
  | String c s' => Z.of_nat (nat_of_ascii c) :: of_string s'
  end.

Arguments of_string s%string_scope.

(** Boolean equality on byte strings (Go string ==). *)
Fixpoint beqb (a b : bytes) : bool :=
  match a, b with
  | [], [] => true
  | x :: a', y :: b' => (x =? y) && beqb a' b'
  | _, _ => false
  end.

(* ------------------------------------------------------------------ *)
(** * Lemmas *)

Lemma beqb_eq a b : beqb a b = true <-> a = b.
Proof.
  revert b; induction a as [|x a IH]; intros [|y b]; cbn [beqb]; split; intro H; try congruence; auto.
  - apply andb_true_iff in H as [H1 H2]. apply Z.eqb_eq in H1. apply IH in H2. congruence.
  - inversion H; subst. rewrite Z.eqb_refl. apply IH. reflexivity.
Qed.

Lemma beqb_refl a : beqb a a = true.
Proof. apply beqb_eq; reflexivity. Qed.

Lemma beqb_neq a b : beqb a b = false <-> a <> b.
Proof.
  split; intro H.
  - intro E; apply beqb_eq in E; congruence.
  - destruct (beqb a b) eqn:E; auto. apply beqb_eq in E; contradiction.
Qed.

Lemma beqb_spec a b : reflect (a = b) (beqb a b).
Proof. destruct (beqb a b) eqn:E; constructor; [now apply beqb_eq|now apply beqb_neq]. Qed.

Definition bytes_eq_dec (a b : bytes) : {a = b} + {a <> b} := list_eq_dec Z.eq_dec a b.

Lemma is_byteb_iff b : is_byteb b = true <-> is_byte b.
Proof. unfold is_byteb, is_byte; lia. Qed.

Lemma zlen_nonneg {A} (l : list A) : 0 <= zlen l.
Proof. unfold zlen; lia. Qed.

Lemma zlen_app {A} (l k : list A) : zlen (l ++ k) = zlen l + zlen k.
Proof. unfold zlen; rewrite app_length; lia. Qed.

Lemma zlen_cons {A} (x : A) l : zlen (x :: l) = 1 + zlen l.
Proof. unfold zlen; cbn [length]; lia. Qed.

Lemma zlen_nil {A} : zlen (@nil A) = 0.
Proof. reflexivity. Qed.

Lemma zlen_0_nil {A} (l : list A) : zlen l = 0 -> l = [].
Proof. destruct l; [reflexivity|rewrite zlen_cons; pose proof (zlen_nonneg l); lia]. Qed.

Lemma be_length n z : length (be n z) = n.
Proof. revert z; induction n as [|n IH]; intros z; cbn [be]; [reflexivity|rewrite app_length, IH; cbn; lia]. Qed.

Lemma be_bytes n z : Forall is_byte (be n z).
Proof.
  revert z; induction n as [|n IH]; intros z; cbn [be]; [constructor|].
  apply Forall_app; split; [apply IH|constructor; [|constructor]].
  unfold is_byte; apply Z.mod_pos_bound; lia.
Qed.

Lemma unbe_snoc bs b : unbe (bs ++ [b]) = unbe bs * 256 + b.
Proof. unfold unbe; rewrite fold_left_app; reflexivity. Qed.

Lemma unbe_be n z : unbe (be n z) = z mod 256 ^ Z.of_nat n.
Proof.
  revert z; induction n as [|n IH]; intros z.
  - cbn [be]. change (256 ^ Z.of_nat 0) with 1. rewrite Z.mod_1_r; reflexivity.
  - cbn [be]. rewrite unbe_snoc, IH.
    rewrite Nat2Z.inj_succ, Z.pow_succ_r by lia.
    set (k := 256 ^ Z.of_nat n). assert (0 < k) by (subst k; apply Z.pow_pos_nonneg; lia).
    rewrite (Z.rem_mul_r z 256 k) by lia. lia.
Qed.

Lemma be_mod n z : be n (z mod 256 ^ Z.of_nat n) = be n z.
Proof.
  revert z; induction n as [|n IH]; intros z; [reflexivity|].
  cbn [be]. rewrite Nat2Z.inj_succ, Z.pow_succ_r by lia.
  set (k := 256 ^ Z.of_nat n) in *. assert (0 < k) by (subst k; apply Z.pow_pos_nonneg; lia).
  rewrite (Z.rem_mul_r z 256 k) by lia.
  replace ((z mod 256 + 256 * ((z / 256) mod k)) / 256) with ((z / 256) mod k).
  2:{ rewrite (Z.mul_comm 256), Z.div_add by lia. rewrite Z.mod_div by lia. lia. }
  rewrite IH. f_equal. f_equal.
  rewrite (Z.mul_comm 256), Z.mod_add by lia. apply Z.mod_mod; lia.
Qed.

(** Encoding the unsigned or the signed representative gives the same bytes. *)
Lemma be_wrapS n z : (0 < n)%nat -> be n (wrapS (8 * Z.of_nat n) z) = be n z.
Proof.
  intro Hn. unfold wrapS.
  rewrite <- (be_mod n z), <- be_mod.
  replace (2 ^ (8 * Z.of_nat n)) with (256 ^ Z.of_nat n) by (rewrite Z.pow_mul_r by lia; reflexivity).
  f_equal. rewrite Zminus_mod_idemp_l. f_equal. lia.
Qed.

Lemma wrapS_id bits z : 0 < bits -> - 2 ^ (bits - 1) <= z < 2 ^ (bits - 1) -> wrapS bits z = z.
Proof.
  intros Hb H. unfold wrapS.
  assert (2 ^ bits = 2 * 2 ^ (bits - 1)) as E.
  { replace bits with (Z.succ (bits - 1)) at 1 by lia. rewrite Z.pow_succ_r; lia. }
  rewrite Z.mod_small by lia. lia.
Qed.

Lemma wrapS_range bits z : 0 < bits -> - 2 ^ (bits - 1) <= wrapS bits z < 2 ^ (bits - 1).
Proof.
  intros Hb. unfold wrapS.
  assert (2 ^ bits = 2 * 2 ^ (bits - 1)) as E.
  { replace bits with (Z.succ (bits - 1)) at 1 by lia. rewrite Z.pow_succ_r; lia. }
  assert (0 < 2 ^ (bits - 1)) by (apply Z.pow_pos_nonneg; lia).
  pose proof (Z.mod_pos_bound (z + 2 ^ (bits - 1)) (2 ^ bits)). lia.
Qed.

Lemma wrapS_wrapU bits z : 0 < bits -> wrapS bits (z mod 2 ^ bits) = wrapS bits z.
Proof.
  intros Hb. unfold wrapS. rewrite Zplus_mod_idemp_l. reflexivity.
Qed.

Lemma int8_id z : in_int8 z -> int8 z = z.
Proof. intro H. apply wrapS_id; unfold in_int8 in H; change (2 ^ (8 - 1)) with 128; lia. Qed.
Lemma int16_id z : in_int16 z -> int16 z = z.
Proof. intro H. apply wrapS_id; unfold in_int16 in H; change (2 ^ (16 - 1)) with 32768; lia. Qed.
Lemma int32_id z : in_int32 z -> int32 z = z.
Proof. intro H. apply wrapS_id; unfold in_int32 in H; change (2 ^ (32 - 1)) with 2147483648; lia. Qed.
Lemma int64_id z : in_int64 z -> int64 z = z.
Proof. intro H. apply wrapS_id; unfold in_int64 in H; change (2 ^ (64 - 1)) with 9223372036854775808; lia. Qed.

Lemma int8_range z : in_int8 (int8 z).
Proof. pose proof (wrapS_range 8 z ltac:(lia)) as H; unfold in_int8, int8; change (2 ^ (8 - 1)) with 128 in H; lia. Qed.
Lemma int16_range z : in_int16 (int16 z).
Proof. pose proof (wrapS_range 16 z ltac:(lia)) as H; unfold in_int16, int16; change (2 ^ (16 - 1)) with 32768 in H; lia. Qed.
Lemma int32_range z : in_int32 (int32 z).
Proof. pose proof (wrapS_range 32 z ltac:(lia)) as H; unfold in_int32, int32; change (2 ^ (32 - 1)) with 2147483648 in H; lia. Qed.
Lemma int64_range z : in_int64 (int64 z).
Proof. pose proof (wrapS_range 64 z ltac:(lia)) as H; unfold in_int64, int64; change (2 ^ (64 - 1)) with 9223372036854775808 in H; lia. Qed.

(** Signed reading of the [n]-byte big-endian encoding. *)
Lemma wrapS_unbe_be n z : (0 < n)%nat -> wrapS (8 * Z.of_nat n) (unbe (be n z)) = wrapS (8 * Z.of_nat n) z.
Proof.
  intro Hn. rewrite unbe_be.
  replace (256 ^ Z.of_nat n) with (2 ^ (8 * Z.of_nat n)) by (rewrite Z.pow_mul_r by lia; reflexivity).
  apply wrapS_wrapU; lia.
Qed.

Global Opaque wrapS.
