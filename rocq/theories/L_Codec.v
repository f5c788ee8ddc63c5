(** Lemmas about the writer (M_OutX) and the reader (M_InX). *)
From Verif Require Import GoInt M_OutX M_InX.
From Coq Require Import ZifyBool.
Ltac Zify.zify_post_hook ::= Z.div_mod_to_equations.

(* ------------------------------------------------------------------ *)
(** * Writer calculus *)

(** [w] appends exactly [bs] and accounts for it. *)
Definition writes (w : dout -> dout) (bs : bytes) : Prop :=
  forall o, in_int32 (written o) -> w o = emit (zlen bs) bs o.

Lemma int32_plus_l a b : int32 (int32 a + b) = int32 (a + b).
Proof.
  unfold int32.
  rewrite <- (wrapS_wrapU 32 (wrapS 32 a + b)) by lia.
  rewrite <- (wrapS_wrapU 32 (a + b)) by lia.
  f_equal. rewrite Z.add_mod by lia.
  replace (wrapS 32 a mod 2 ^ 32) with (a mod 2 ^ 32).
  - rewrite <- Z.add_mod by lia. reflexivity.
  - Transparent wrapS. unfold wrapS. Opaque wrapS.
    rewrite Zminus_mod_idemp_l. f_equal. lia.
Qed.

Lemma int32_plus_r a b : int32 (a + int32 b) = int32 (a + b).
Proof. rewrite Z.add_comm, int32_plus_l, Z.add_comm. reflexivity. Qed.

Lemma emit_emit n a m b o : emit n a (emit m b o) = emit (m + n) (b ++ a) o.
Proof. unfold emit; cbn. rewrite int32_plus_l, app_assoc. f_equal. f_equal. lia. Qed.

Lemma emit_range n b o : in_int32 (written (emit n b o)).
Proof. cbn. apply int32_range. Qed.

Lemma writes_id : writes (fun o => o) [].
Proof.
  intros [n b] H; unfold emit; cbn [written buf] in *. rewrite zlen_nil, Z.add_0_r, int32_id by assumption. rewrite app_nil_r. reflexivity.
Qed.

Lemma writes_comp w1 w2 b1 b2 : writes w1 b1 -> writes w2 b2 -> writes (fun o => w2 (w1 o)) (b1 ++ b2).
Proof.
  intros H1 H2 o Ho. cbn beta. rewrite H1 by assumption.
  rewrite H2 by apply emit_range. rewrite emit_emit, zlen_app. reflexivity.
Qed.

Lemma writes_buf w bs : writes w bs -> buf (w new_dout) = bs.
Proof. intros H. rewrite H; [reflexivity|]. unfold in_int32, new_dout; cbn; lia. Qed.

Lemma writes_emit n bs : zlen bs = n -> writes (emit n bs) bs.
Proof. intros <- o Ho. reflexivity. Qed.

Lemma be_zlen n z : zlen (be n z) = Z.of_nat n.
Proof. unfold zlen; rewrite be_length; reflexivity. Qed.

Lemma writes_int8 v : writes (write_int8 v) (be 1 v).
Proof. apply writes_emit; rewrite be_zlen; reflexivity. Qed.
Lemma writes_uint8 v : writes (write_uint8 v) (be 1 v).
Proof. apply writes_emit; rewrite be_zlen; reflexivity. Qed.
Lemma writes_int16 v : writes (write_int16 v) (be 2 v).
Proof. apply writes_emit; rewrite be_zlen; reflexivity. Qed.
Lemma writes_int32 v : writes (write_int32 v) (be 4 v).
Proof. apply writes_emit; rewrite be_zlen; reflexivity. Qed.
Lemma writes_int64 v : writes (write_int64 v) (be 8 v).
Proof. apply writes_emit; rewrite be_zlen; reflexivity. Qed.
Lemma writes_uint64 v : writes (write_uint64 v) (be 8 v).
Proof. apply writes_emit; rewrite be_zlen; reflexivity. Qed.
Lemma writes_float32 v : writes (write_float32 v) (be 4 v).
Proof. apply writes_emit; rewrite be_zlen; reflexivity. Qed.
Lemma writes_float64 v : writes (write_float64 v) (be 8 v).
Proof. apply writes_emit; rewrite be_zlen; reflexivity. Qed.
Lemma writes_raw v : writes (write_raw v) v.
Proof. intros o Ho. unfold write_raw, emit. rewrite int32_plus_r. reflexivity. Qed.
Lemma writes_boolean b : writes (write_boolean b) (be 1 (if b then 1 else 0)).
Proof. destruct b; intros o Ho; cbn [write_boolean]; apply writes_int8; assumption. Qed.

(** Encodings as functions, used only inside proofs. *)
Definition enc_decimal (v : Z) : bytes :=
  if v =? 0 then [0]
  else if (-128 <=? v) && (v <=? 127) then [1] ++ be 1 v
  else if (-32768 <=? v) && (v <=? 32767) then [2] ++ be 2 v
  else if (-2147483648 <=? v) && (v <=? 2147483647) then [4] ++ be 4 v
  else [8] ++ be 8 v.

Definition enc_blob (v : bytes) : bytes :=
  let n := zlen v in
  if n =? 0 then [0]
  else if n <=? 253 then be 1 n ++ v
  else if n <=? 65535 then [255] ++ be 2 n ++ v
  else [254] ++ be 4 n ++ v.

Definition enc_string (s : bytes) : bytes :=
  if zlen s >? 100000 then enc_blob huge_text else enc_blob s.

Lemma be_int8 v : be 1 (int8 v) = be 1 v.
Proof. exact (be_wrapS 1 v ltac:(lia)). Qed.
Lemma be_int16 v : be 2 (int16 v) = be 2 v.
Proof. exact (be_wrapS 2 v ltac:(lia)). Qed.
Lemma be_int32 v : be 4 (int32 v) = be 4 v.
Proof. exact (be_wrapS 4 v ltac:(lia)). Qed.
Lemma be_uint8 v : be 1 (uint8 v) = be 1 v.
Proof. exact (be_mod 1 v). Qed.

Ltac wcomp := eapply writes_comp; [|solve [eauto using writes_int8,writes_uint8,writes_int16,writes_int32,writes_int64,writes_raw,writes_float32,writes_float64,writes_boolean]].

Lemma writes_decimal v : in_int64 v -> writes (write_decimal v) (enc_decimal v).
Proof.
  intros Hv. unfold in_int64 in Hv. unfold write_decimal, enc_decimal.
  destruct (v =? 0); [apply writes_int8|].
  destruct ((-128 <=? v) && (v <=? 127)).
  { rewrite <- be_int8. apply (writes_comp _ _ _ _ (writes_int8 1) (writes_int8 _)). }
  destruct ((-32768 <=? v) && (v <=? 32767)).
  { rewrite <- be_int16. apply (writes_comp _ _ _ _ (writes_int8 2) (writes_int16 _)). }
  destruct ((-2147483648 <=? v) && (v <=? 2147483647)).
  { rewrite <- be_int32. apply (writes_comp _ _ _ _ (writes_int8 4) (writes_int32 _)). }
  replace ((-9223372036854775808 <=? v) && (v <=? 9223372036854775807)) with true by lia.
  apply (writes_comp _ _ _ _ (writes_int8 8) (writes_int64 _)).
Qed.

Lemma in_int32_64 v : in_int32 v -> in_int64 v.
Proof. unfold in_int32, in_int64; lia. Qed.

Lemma write_decimal32_eq v : in_int32 v -> forall o, write_decimal32 v o = write_decimal v o.
Proof.
  intros Hv o. unfold in_int32 in Hv. unfold write_decimal32, write_decimal.
  destruct (v =? 0); [reflexivity|].
  destruct ((-128 <=? v) && (v <=? 127)); [reflexivity|].
  destruct ((-32768 <=? v) && (v <=? 32767)); [reflexivity|].
  replace ((-2147483648 <=? v) && (v <=? 2147483647)) with true by lia. reflexivity.
Qed.

Lemma writes_decimal32 v : in_int32 v -> writes (write_decimal32 v) (enc_decimal v).
Proof.
  intros Hv o Ho. rewrite write_decimal32_eq by assumption.
  apply writes_decimal; [apply in_int32_64|]; assumption.
Qed.

Lemma writes_blob v : writes (write_blob v) (enc_blob v).
Proof.
  unfold write_blob, enc_blob. cbv zeta.
  destruct (zlen v =? 0); [apply writes_uint8|].
  destruct (zlen v <=? 253).
  { rewrite <- be_uint8. apply (writes_comp _ _ _ _ (writes_uint8 _) (writes_raw _)). }
  destruct (zlen v <=? 65535).
  { rewrite <- be_int16, app_assoc.
    apply (writes_comp _ _ _ _ (writes_comp _ _ _ _ (writes_uint8 255) (writes_int16 _)) (writes_raw _)). }
  rewrite <- be_int32, app_assoc.
  apply (writes_comp _ _ _ _ (writes_comp _ _ _ _ (writes_uint8 254) (writes_int32 _)) (writes_raw _)).
Qed.

Lemma writes_string s : writes (write_string s) (enc_string s).
Proof.
  unfold write_string, enc_string. cbv zeta.
  destruct (zlen s =? 0) eqn:E.
  - replace (zlen s >? 100000) with false by lia. unfold enc_blob. rewrite E. apply writes_int8.
  - destruct (zlen s >? 100000); apply writes_blob.
Qed.

Lemma writes_int_bytes v : writes (write_int_bytes v) (be 4 (zlen v) ++ v).
Proof.
  unfold write_int_bytes. rewrite <- be_int32.
  apply (writes_comp _ _ _ _ (writes_int32 _) (writes_raw _)).
Qed.

Lemma writes_int32_array vs : writes (write_int32_array vs) (be 2 (zlen vs) ++ concat (map (be 4) vs)).
Proof.
  unfold write_int32_array. rewrite <- be_int16.
  refine (writes_comp _ (fun o => fold_left (fun o v => write_int32 v o) vs o) _ _ (writes_int16 _) _).
  generalize (int16 (zlen vs)) as z; intros _.
  induction vs as [|v vs IH]; cbn [fold_left map concat].
  - exact writes_id.
  - exact (writes_comp _ _ _ _ (writes_int32 v) IH).
Qed.

(* ------------------------------------------------------------------ *)
(** * Reader calculus *)

(** [rd] decodes [bs] to [a] from a buffer, leaving what follows untouched. *)
Definition reads {A} (rd : reader -> res A) (bs : bytes) (a : A) : Prop :=
  forall rest, rd (buffer (bs ++ rest)) = Ret a None (buffer rest).

(** the same for any segmentation *)
Definition sreads {A} (rd : reader -> res A) (bs : bytes) (a : A) : Prop :=
  forall r rest, concat r = bs ++ rest -> exists r', rd r = Ret a None r' /\ concat r' = rest.

Lemma reads_bind {A B} (m : reader -> res A) (f : A -> option err -> reader -> res B) b1 b2 a b :
  reads m b1 a -> reads (f a None) b2 b -> reads (fun r => bind (m r) f) (b1 ++ b2) b.
Proof. intros H1 H2 rest. rewrite <- app_assoc, H1. cbn [bind]. apply H2. Qed.

Lemma reads_ret {A} (a : A) : reads (fun r => Ret a None r) [] a.
Proof. intros rest. reflexivity. Qed.

Lemma rd_drop_concat n r : (n <= length (concat r))%nat -> concat (rd_drop n r) = skipn n (concat r).
Proof.
  revert n; induction r as [|s r IH]; intros n Hn; cbn [rd_drop concat] in *.
  - rewrite skipn_nil; reflexivity.
  - destruct (n <=? length s)%nat eqn:E.
    + cbn [concat]. rewrite skipn_app. replace (n - length s)%nat with O by (apply Nat.leb_le in E; lia).
      reflexivity.
    + apply Nat.leb_gt in E. rewrite app_length in Hn. rewrite IH by lia.
      rewrite skipn_app, (skipn_all2 s) by lia. reflexivity.
Qed.

Lemma read_full_ok bs r rest : concat r = bs ++ rest ->
  exists r', read_full (length bs) r = (Some bs, None, r') /\ concat r' = rest.
Proof.
  intros E. unfold read_full. rewrite E, app_length.
  replace (length bs <=? length bs + length rest)%nat with true by (symmetry; apply Nat.leb_le; lia).
  exists (rd_drop (length bs) r). split.
  - rewrite firstn_app, firstn_all, Nat.sub_diag, firstn_O, app_nil_r. reflexivity.
  - rewrite rd_drop_concat by (rewrite E, app_length; lia).
    rewrite E, skipn_app, skipn_all, Nat.sub_diag. reflexivity.
Qed.

Lemma sreads_fixed n conv z : sreads (read_fixed n conv) (be n z) (conv (unbe (be n z))).
Proof.
  intros r rest E. destruct (read_full_ok _ _ _ E) as (r' & H & E').
  rewrite be_length in H. unfold read_fixed. rewrite H. eauto.
Qed.

Lemma reads_fixed n conv z : reads (read_fixed n conv) (be n z) (conv (unbe (be n z))).
Proof.
  intros rest. unfold read_fixed, read_full, buffer. cbn [concat]. rewrite app_nil_r, app_length, be_length.
  replace (n <=? n + length rest)%nat with true by (symmetry; apply Nat.leb_le; lia).
  rewrite firstn_app, be_length, Nat.sub_diag, firstn_O, app_nil_r, firstn_all2 by (rewrite be_length; lia).
  cbn [rd_drop]. rewrite app_length, be_length.
  replace (n <=? n + length rest)%nat with true by (symmetry; apply Nat.leb_le; lia).
  rewrite skipn_app, be_length, Nat.sub_diag, skipn_all2 by (rewrite be_length; lia). reflexivity.
Qed.

Lemma int8_unbe z : int8 (unbe (be 1 z)) = int8 z.
Proof. exact (wrapS_unbe_be 1 z ltac:(lia)). Qed.
Lemma int16_unbe z : int16 (unbe (be 2 z)) = int16 z.
Proof. exact (wrapS_unbe_be 2 z ltac:(lia)). Qed.
Lemma int32_unbe z : int32 (unbe (be 4 z)) = int32 z.
Proof. exact (wrapS_unbe_be 4 z ltac:(lia)). Qed.
Lemma int64_unbe z : int64 (unbe (be 8 z)) = int64 z.
Proof. exact (wrapS_unbe_be 8 z ltac:(lia)). Qed.
Lemma uint_unbe n z : 0 <= z < 256 ^ Z.of_nat n -> unbe (be n z) = z.
Proof. intros H. rewrite unbe_be. apply Z.mod_small; assumption. Qed.

Lemma sreads_int8 z : in_int8 z -> sreads read_int8 (be 1 z) z.
Proof. intros H. pose proof (sreads_fixed 1 int8 z) as R. rewrite int8_unbe, int8_id in R; assumption. Qed.
Lemma sreads_int16 z : in_int16 z -> sreads read_int16 (be 2 z) z.
Proof. intros H. pose proof (sreads_fixed 2 int16 z) as R. rewrite int16_unbe, int16_id in R; assumption. Qed.
Lemma sreads_int32 z : in_int32 z -> sreads read_int32 (be 4 z) z.
Proof. intros H. pose proof (sreads_fixed 4 int32 z) as R. rewrite int32_unbe, int32_id in R; assumption. Qed.
Lemma sreads_int64 z : in_int64 z -> sreads read_int64 (be 8 z) z.
Proof. intros H. pose proof (sreads_fixed 8 int64 z) as R. rewrite int64_unbe, int64_id in R; assumption. Qed.
Lemma sreads_uint8 z : is_byte z -> sreads read_uint8 (be 1 z) z.
Proof. intros H. pose proof (sreads_fixed 1 (fun z => z) z) as R. rewrite uint_unbe in R; assumption. Qed.
Lemma sreads_float32 z : 0 <= z < 2 ^ 32 -> sreads read_float32 (be 4 z) z.
Proof. intros H. pose proof (sreads_fixed 4 (fun z => z) z) as R. rewrite uint_unbe in R; assumption. Qed.
Lemma sreads_float64 z : 0 <= z < 2 ^ 64 -> sreads read_float64 (be 8 z) z.
Proof. intros H. pose proof (sreads_fixed 8 (fun z => z) z) as R. rewrite uint_unbe in R; assumption. Qed.

Lemma reads_int8 z : in_int8 z -> reads read_int8 (be 1 z) z.
Proof. intros H. pose proof (reads_fixed 1 int8 z) as R. rewrite int8_unbe, int8_id in R; assumption. Qed.
Lemma reads_int16 z : in_int16 z -> reads read_int16 (be 2 z) z.
Proof. intros H. pose proof (reads_fixed 2 int16 z) as R. rewrite int16_unbe, int16_id in R; assumption. Qed.
Lemma reads_int32 z : in_int32 z -> reads read_int32 (be 4 z) z.
Proof. intros H. pose proof (reads_fixed 4 int32 z) as R. rewrite int32_unbe, int32_id in R; assumption. Qed.
Lemma reads_int64 z : in_int64 z -> reads read_int64 (be 8 z) z.
Proof. intros H. pose proof (reads_fixed 8 int64 z) as R. rewrite int64_unbe, int64_id in R; assumption. Qed.
Lemma reads_uint8 z : is_byte z -> reads read_uint8 (be 1 z) z.
Proof. intros H. pose proof (reads_fixed 1 (fun z => z) z) as R. rewrite uint_unbe in R; assumption. Qed.
Lemma reads_float32 z : 0 <= z < 2 ^ 32 -> reads read_float32 (be 4 z) z.
Proof. intros H. pose proof (reads_fixed 4 (fun z => z) z) as R. rewrite uint_unbe in R; assumption. Qed.
Lemma reads_float64 z : 0 <= z < 2 ^ 64 -> reads read_float64 (be 8 z) z.
Proof. intros H. pose proof (reads_fixed 8 (fun z => z) z) as R. rewrite uint_unbe in R; assumption. Qed.

Lemma sreads_bind {A B} (m : reader -> res A) (f : A -> option err -> reader -> res B) b1 b2 a b :
  sreads m b1 a -> sreads (f a None) b2 b -> sreads (fun r => bind (m r) f) (b1 ++ b2) b.
Proof.
  intros H1 H2 r rest E. rewrite <- app_assoc in E.
  destruct (H1 _ _ E) as (r1 & E1 & C1). rewrite E1. cbn [bind]. apply H2; assumption.
Qed.

Lemma sreads_decimal v : in_int64 v -> sreads read_decimal (enc_decimal v) v.
Proof.
  intros Hv. unfold in_int64 in Hv. unfold enc_decimal, read_decimal.
  destruct (v =? 0) eqn:E0.
  { change [0] with (be 1 0 ++ []). eapply sreads_bind; [apply sreads_uint8; unfold is_byte; lia|].
    cbn. intros r rest E. exists r. split; [f_equal; lia|assumption]. }
  destruct ((-128 <=? v) && (v <=? 127)) eqn:E1.
  { eapply (sreads_bind _ _ (be 1 1)); [apply sreads_uint8; unfold is_byte; lia|]. apply sreads_int8; unfold in_int8; lia. }
  destruct ((-32768 <=? v) && (v <=? 32767)) eqn:E2.
  { eapply (sreads_bind _ _ (be 1 2)); [apply sreads_uint8; unfold is_byte; lia|]. apply sreads_int16; unfold in_int16; lia. }
  destruct ((-2147483648 <=? v) && (v <=? 2147483647)) eqn:E3.
  { eapply (sreads_bind _ _ (be 1 4)); [apply sreads_uint8; unfold is_byte; lia|]. apply sreads_int32; unfold in_int32; lia. }
  eapply (sreads_bind _ _ (be 1 8)); [apply sreads_uint8; unfold is_byte; lia|]. apply sreads_int64; unfold in_int64; lia.
Qed.

Lemma reads_decimal v : in_int64 v -> reads read_decimal (enc_decimal v) v.
Proof.
  intros Hv. unfold in_int64 in Hv. unfold enc_decimal, read_decimal.
  destruct (v =? 0) eqn:E0.
  { change [0] with (be 1 0 ++ []). eapply reads_bind; [apply reads_uint8; unfold is_byte; lia|].
    cbn. intros rest. f_equal; lia. }
  destruct ((-128 <=? v) && (v <=? 127)) eqn:E1.
  { eapply (reads_bind _ _ (be 1 1)); [apply reads_uint8; unfold is_byte; lia|]. apply reads_int8; unfold in_int8; lia. }
  destruct ((-32768 <=? v) && (v <=? 32767)) eqn:E2.
  { eapply (reads_bind _ _ (be 1 2)); [apply reads_uint8; unfold is_byte; lia|]. apply reads_int16; unfold in_int16; lia. }
  destruct ((-2147483648 <=? v) && (v <=? 2147483647)) eqn:E3.
  { eapply (reads_bind _ _ (be 1 4)); [apply reads_uint8; unfold is_byte; lia|]. apply reads_int32; unfold in_int32; lia. }
  eapply (reads_bind _ _ (be 1 8)); [apply reads_uint8; unfold is_byte; lia|]. apply reads_int64; unfold in_int64; lia.
Qed.

Lemma rd_read_buffer bs rest : rd_read (zlen bs) (buffer (bs ++ rest)) = (bs, None, buffer rest).
Proof.
  unfold buffer. destruct bs as [|b bs].
  - cbn. reflexivity.
  - cbn [rd_read app]. rewrite zlen_cons.
    replace (1 + zlen bs =? 0) with false by (pose proof (zlen_nonneg bs); lia).
    replace (Z.to_nat (1 + zlen bs)) with (S (length bs)) by (unfold zlen; lia).
    cbn [firstn skipn]. rewrite firstn_app, firstn_all, Nat.sub_diag, firstn_O, app_nil_r.
    rewrite skipn_app, skipn_all, Nat.sub_diag. reflexivity.
Qed.

Lemma reads_n bs : reads (read_n (zlen bs)) bs bs.
Proof.
  intros rest. unfold read_n. replace (zlen bs <? 0) with false by (pose proof (zlen_nonneg bs); lia).
  rewrite rd_read_buffer.
  replace (Z.to_nat (zlen bs) - length bs)%nat with O by (unfold zlen; lia).
  cbn [repeat]. rewrite app_nil_r. reflexivity.
Qed.

Lemma reads_boolean (b : bool) : reads read_boolean (be 1 (if b then 1 else 0)) b.
Proof.
  unfold read_boolean. rewrite <- (app_nil_r (be 1 (if b then 1 else 0))).
  eapply reads_bind; [apply reads_int8; unfold in_int8; destruct b; lia|].
  destruct b; intros rest; reflexivity.
Qed.

(** The lengths ReadBlob gets right. *)
Definition blob_ok (n : Z) : Prop := n <= 32767 \/ 65536 <= n <= 2147483647.

Lemma reads_blob v : blob_ok (zlen v) -> reads read_blob (enc_blob v) v.
Proof.
  intros H. unfold blob_ok in H. pose proof (zlen_nonneg v) as Hn. unfold enc_blob, read_blob. cbv zeta.
  destruct (zlen v =? 0) eqn:E0.
  { change [0] with (be 1 0 ++ []). eapply reads_bind; [apply reads_uint8; unfold is_byte; lia|].
    cbn. intros rest. rewrite (zlen_0_nil v) by lia. reflexivity. }
  destruct (zlen v <=? 253) eqn:E1.
  { eapply reads_bind; [apply reads_uint8; unfold is_byte; lia|].
    replace (zlen v =? 255) with false by lia. replace (zlen v =? 254) with false by lia.
    replace (zlen v =? 0) with false by lia. apply reads_n. }
  destruct (zlen v <=? 65535) eqn:E2.
  { eapply (reads_bind _ _ (be 1 255)); [apply reads_uint8; unfold is_byte; lia|].
    cbn beta iota. eapply reads_bind; [apply reads_int16; unfold in_int16; lia|]. apply reads_n. }
  eapply (reads_bind _ _ (be 1 254)); [apply reads_uint8; unfold is_byte; lia|].
  cbn beta iota. eapply reads_bind; [apply reads_int32; unfold in_int32; lia|]. apply reads_n.
Qed.

(** Between 32768 and 65535 bytes the two-byte length is read as negative: run-time panic. *)
Lemma read_blob_panic v rest : 32768 <= zlen v <= 65535 -> read_blob (buffer (enc_blob v ++ rest)) = Panic.
Proof.
  intros H. unfold enc_blob, read_blob. cbv zeta.
  replace (zlen v =? 0) with false by lia. replace (zlen v <=? 253) with false by lia.
  replace (zlen v <=? 65535) with true by lia.
  rewrite <- !app_assoc. change [255] with (be 1 255).
  rewrite (reads_uint8 255 ltac:(unfold is_byte; lia)). cbn [bind]. change (255 =? 255) with true. cbv iota.
  pose proof (reads_fixed 2 int16 (zlen v) (v ++ rest)) as R. rewrite int16_unbe in R.
  unfold read_int16. rewrite R. cbn [bind]. unfold read_n.
  assert (int16 (zlen v) = zlen v - 65536) as ->.
  { unfold int16. Transparent wrapS. unfold wrapS. Opaque wrapS.
    change (2 ^ 16) with 65536. change (2 ^ (16 - 1)) with 32768. lia. }
  replace (zlen v - 65536 <? 0) with true by lia. reflexivity.
Qed.

Definition string_ok (n : Z) : Prop := n <= 32767 \/ 65536 <= n <= 100000.

Lemma string_ok_enc s : string_ok (zlen s) -> enc_string s = enc_blob s.
Proof. unfold string_ok, enc_string; intros H. replace (zlen s >? 100000) with false by lia. reflexivity. Qed.

Lemma reads_string s : string_ok (zlen s) -> reads read_string (enc_string s) s.
Proof.
  intros H. rewrite string_ok_enc by assumption. apply reads_blob. unfold string_ok, blob_ok in *; lia.
Qed.

Lemma reads_int_bytes v : zlen v <= 2147483647 -> reads read_int_bytes (be 4 (zlen v) ++ v) v.
Proof.
  intros H. unfold read_int_bytes. eapply reads_bind.
  - apply reads_int32. unfold in_int32. pose proof (zlen_nonneg v). lia.
  - apply reads_n.
Qed.
