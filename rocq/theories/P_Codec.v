(** Properties C01 .. C05, C09: primitive codecs. *)
From Verif Require Import GoInt M_OutX M_InX M_Value M_Packs M_Steps M_Calls S_Codec S_Wire L_Codec L_Value L_Access.
From Coq Require Import ZifyBool.
Ltac Zify.zify_post_hook ::= Z.div_mod_to_equations.

(* helper lemmas for the specification vocabulary *)
Lemma digits_unbe bs acc : digits bs acc = fold_left (fun a b => a * 256 + b) bs acc.
Proof. revert acc; induction bs as [|b bs IH]; intros acc; cbn [digits fold_left]; [reflexivity|]. rewrite IH. f_equal. lia. Qed.

Lemma be_big_endian n v : big_endian (be n v) v.
Proof.
  split; [apply be_bytes|]. rewrite digits_unbe. change (fold_left (fun a b => a * 256 + b) (be n v) 0) with (unbe (be n v)).
  rewrite unbe_be. rewrite be_zlen. assert (256 ^ Z.of_nat n <> 0) by (apply Z.pow_nonzero; lia).
  rewrite Zminus_mod_idemp_l. rewrite Z.sub_diag. apply Z.mod_0_l. assumption.
Qed.

Lemma decimal_shape v : in_int64 v ->
  exists n payload, buf (write_decimal v new_dout) = n :: payload /\ zlen payload = n /\
    length_class n /\ fits n v /\ big_endian payload v /\
    (forall m, length_class m -> m < n -> ~ fits m v).
Proof.
  intros Hv. rewrite (writes_buf _ _ (writes_decimal v Hv)). unfold in_int64 in Hv. unfold enc_decimal, length_class, fits.
  pose proof (eq_refl : 2 ^ (8 * 1 - 1) = 128) as E1. pose proof (eq_refl : 2 ^ (8 * 2 - 1) = 32768) as E2.
  pose proof (eq_refl : 2 ^ (8 * 4 - 1) = 2147483648) as E4. pose proof (eq_refl : 2 ^ (8 * 8 - 1) = 9223372036854775808) as E8.
  destruct (v =? 0) eqn:E.
  { exists 0, []. repeat split; try lia. constructor. cbn. apply Z.mod_1_r. }
  repeat match goal with |- context [if ?c then _ else _] => destruct c eqn:? end;
  match goal with |- exists n payload, [?k] ++ ?p = _ /\ _ => exists k, p end;
  (split; [reflexivity|split; [apply be_zlen|split; [tauto|split; [right; rewrite ?E1, ?E2, ?E4, ?E8; lia|split; [apply be_big_endian|]]]]]);
  (intros m [->|[->|[->|[->| ->]]]] Hm; rewrite ?E1, ?E2, ?E4, ?E8; lia).
Qed.

(** ** C01 *)
Theorem C01_decimal_roundtrip v rest : in_int64 v ->
  read_decimal (buffer (buf (write_decimal v new_dout) ++ rest)) = Ret v None (buffer rest).
Proof. intros H. rewrite (writes_buf _ _ (writes_decimal v H)). apply reads_decimal; assumption. Qed.

Theorem C01_decimal_any_segmentation v r rest : in_int64 v ->
  concat r = buf (write_decimal v new_dout) ++ rest ->
  exists r', read_decimal r = Ret v None r' /\ concat r' = rest.
Proof. intros H. rewrite (writes_buf _ _ (writes_decimal v H)). apply sreads_decimal; assumption. Qed.

Theorem C01_decimal32_same_bytes v o : in_int32 v -> write_decimal32 v o = write_decimal v o.
Proof. intros H. apply write_decimal32_eq; assumption. Qed.

Theorem C01_decimal_shortest v : in_int64 v ->
  exists n payload, buf (write_decimal v new_dout) = n :: payload /\ zlen payload = n /\
    length_class n /\ fits n v /\ big_endian payload v /\
    (forall m, length_class m -> m < n -> ~ fits m v).
Proof. exact (decimal_shape v). Qed.

Example C01_case : in_int64 (-32769) /\ buf (write_decimal (-32769) new_dout) = [4; 255; 255; 127; 255].
Proof. split; [unfold in_int64; lia|vm_compute; reflexivity]. Qed.

(** ** C02 *)
Theorem C02_fixed_width_any_segmentation r rest z :
  (in_int8 z -> concat r = buf (write_int8 z new_dout) ++ rest -> exists r', read_int8 r = Ret z None r' /\ concat r' = rest) /\
  (in_int16 z -> concat r = buf (write_int16 z new_dout) ++ rest -> exists r', read_int16 r = Ret z None r' /\ concat r' = rest) /\
  (in_int32 z -> concat r = buf (write_int32 z new_dout) ++ rest -> exists r', read_int32 r = Ret z None r' /\ concat r' = rest) /\
  (in_int64 z -> concat r = buf (write_int64 z new_dout) ++ rest -> exists r', read_int64 r = Ret z None r' /\ concat r' = rest) /\
  (is_byte z -> concat r = buf (write_uint8 z new_dout) ++ rest -> exists r', read_uint8 r = Ret z None r' /\ concat r' = rest) /\
  (0 <= z < 2 ^ 32 -> concat r = buf (write_float32 z new_dout) ++ rest -> exists r', read_float32 r = Ret z None r' /\ concat r' = rest) /\
  (0 <= z < 2 ^ 64 -> concat r = buf (write_float64 z new_dout) ++ rest -> exists r', read_float64 r = Ret z None r' /\ concat r' = rest).
Proof.
  repeat split; intros H; [rewrite (writes_buf _ _ (writes_int8 z)); apply sreads_int8; assumption
    | rewrite (writes_buf _ _ (writes_int16 z)); apply sreads_int16; assumption
    | rewrite (writes_buf _ _ (writes_int32 z)); apply sreads_int32; assumption
    | rewrite (writes_buf _ _ (writes_int64 z)); apply sreads_int64; assumption
    | rewrite (writes_buf _ _ (writes_uint8 z)); apply sreads_uint8; assumption
    | rewrite (writes_buf _ _ (writes_float32 z)); apply sreads_float32; assumption
    | rewrite (writes_buf _ _ (writes_float64 z)); apply sreads_float64; assumption].
Qed.

Theorem C02_big_endian z :
  (zlen (buf (write_int8 z new_dout)) = 1 /\ big_endian (buf (write_int8 z new_dout)) z) /\
  (zlen (buf (write_int16 z new_dout)) = 2 /\ big_endian (buf (write_int16 z new_dout)) z) /\
  (zlen (buf (write_int32 z new_dout)) = 4 /\ big_endian (buf (write_int32 z new_dout)) z) /\
  (zlen (buf (write_int64 z new_dout)) = 8 /\ big_endian (buf (write_int64 z new_dout)) z) /\
  (zlen (buf (write_uint8 z new_dout)) = 1 /\ big_endian (buf (write_uint8 z new_dout)) z).
Proof. repeat split; first [apply be_zlen | apply be_bytes | apply be_big_endian]. Qed.

Example C02_case : in_int32 (-2) /\ concat [[255]; []; [255; 255]; [254; 7]] = buf (write_int32 (-2) new_dout) ++ [7]
  /\ read_int32 [[255]; []; [255; 255]; [254; 7]] = Ret (-2) None [[7]].
Proof. split; [unfold in_int32; lia|split; vm_compute; reflexivity]. Qed.

(** A boolean is one byte; every byte but 0 reads as true, in any segmentation. *)
Theorem C02_boolean r rest c : is_byte c -> concat r = c :: rest ->
  exists b r', read_boolean r = Ret b None r' /\ concat r' = rest /\ (b = true <-> c <> 0).
Proof.
  intros H E. unfold is_byte in H.
  destruct (C02_fixed_width_any_segmentation r rest (int8 c)) as (R & _).
  assert (in_int8 (int8 c) /\ (int8 c = 0 <-> c = 0) /\ be 1 (int8 c) = [c]) as (I & Z0 & B).
  { assert (int8 c = if c <? 128 then c else c - 256) as X.
    { destruct (c <? 128) eqn:L.
      - apply int8_id. unfold in_int8. lia.
      - rewrite <- (int8_id (c - 256)) by (unfold in_int8; lia). unfold int8.
        rewrite <- (wrapS_wrapU 8 c), <- (wrapS_wrapU 8 (c - 256)) by lia. f_equal.
        change (2 ^ 8) with 256. replace (c - 256) with (c + (-1) * 256) by lia. rewrite Z_mod_plus_full. reflexivity. }
    rewrite X. split; [unfold in_int8; destruct (c <? 128) eqn:L; lia|]. split; [destruct (c <? 128) eqn:L; lia|].
    cbn [be app]. f_equal. destruct (c <? 128) eqn:L; [apply Z.mod_small; lia|].
    replace (c - 256) with (c + (-1) * 256) by lia. rewrite Z_mod_plus_full. apply Z.mod_small; lia. }
  destruct (R I) as (r' & E' & C').
  { rewrite (writes_buf _ _ (writes_int8 (int8 c))), B. exact E. }
  exists (negb (int8 c =? 0)), r'. unfold read_boolean. rewrite E'. cbn [M_InX.bind].
  split; [reflexivity|]. split; [exact C'|]. rewrite negb_true_iff, Z.eqb_neq, Z0. reflexivity.
Qed.

Example C02_boolean_case : read_boolean [[]; [200; 5]] = Ret true None [[5]].
Proof. vm_compute. reflexivity. Qed.

(** ** C03: WriteBlob then ReadBlob.  Exact domain: the round trip succeeds, or — for lengths
    32768..65535, whose two-byte length ReadBlob reads as negative — it panics. *)
Theorem C03_blob_roundtrip v rest :
  zlen v <= 32767 \/ 65536 <= zlen v <= 2147483647 ->
  read_blob (buffer (buf (write_blob v new_dout) ++ rest)) = Ret v None (buffer rest).
Proof. intros H. rewrite (writes_buf _ _ (writes_blob v)). apply reads_blob; assumption. Qed.

Theorem C03_blob_panics v rest :
  32768 <= zlen v <= 65535 -> read_blob (buffer (buf (write_blob v new_dout) ++ rest)) = Panic.
Proof. intros H. rewrite (writes_buf _ _ (writes_blob v)). apply read_blob_panic; assumption. Qed.

Theorem C03_blob_roundtrip_exact v rest : zlen v <= 2147483647 ->
  (read_blob (buffer (buf (write_blob v new_dout) ++ rest)) = Ret v None (buffer rest)
   <-> ~ 32768 <= zlen v <= 65535).
Proof.
  intros H. split.
  - intros E Hl. rewrite C03_blob_panics in E by assumption. discriminate.
  - intros Hl. apply C03_blob_roundtrip. lia.
Qed.

Theorem C03_string_roundtrip s rest :
  zlen s <= 32767 \/ 65536 <= zlen s <= 100000 ->
  read_string (buffer (buf (write_string s new_dout) ++ rest)) = Ret s None (buffer rest).
Proof. intros H. rewrite (writes_buf _ _ (writes_string s)). apply reads_string; assumption. Qed.

(** Byte arrays with a four-byte length (WriteIntBytes, ReadIntBytes): every array that fits comes back. *)
Theorem C03_int_bytes_roundtrip v rest : zlen v <= 2147483647 ->
  buf (write_int_bytes v new_dout) = be 4 (zlen v) ++ v /\
  read_int_bytes (buffer (buf (write_int_bytes v new_dout) ++ rest)) = Ret v None (buffer rest).
Proof.
  intros H. assert (buf (write_int_bytes v new_dout) = be 4 (zlen v) ++ v) as -> by (apply (writes_buf _ _ (writes_int_bytes v))).
  split; [reflexivity|]. apply reads_int_bytes. exact H.
Qed.

(** The property as listed (every array) is false. *)
Theorem C03_blob_roundtrip_refuted :
  ~ (forall v rest, zlen v <= 2147483647 ->
       read_blob (buffer (buf (write_blob v new_dout) ++ rest)) = Ret v None (buffer rest)).
Proof.
  intros H. specialize (H (repeat 7 (Z.to_nat 40000)) []).
  assert (zlen (repeat 7 (Z.to_nat 40000)) = 40000) as E by (unfold zlen; rewrite repeat_length, Z2Nat.id; lia).
  rewrite C03_blob_panics in H by lia. discriminate H. lia.
Qed.

Example C03_case : zlen (of_string "hello") <= 32767 /\
  read_blob (buffer (buf (write_blob (of_string "hello") new_dout) ++ [1])) = Ret (of_string "hello") None (buffer [1]).
Proof. split; [vm_compute; discriminate|vm_compute; reflexivity]. Qed.

(** ** C04 *)
Theorem C04_blob_collector v rest : zlen v <= 2147483647 ->
  p_blob (buf (write_blob v new_dout) ++ rest) = Some (v, rest).
Proof. intros H. rewrite (writes_buf _ _ (writes_blob v)). apply parses_blob; assumption. Qed.

Example C04_case : let v := repeat 9 300 in zlen v <= 2147483647 /\ p_blob (buf (write_blob v new_dout) ++ [5]) = Some (v, [5]).
Proof. split; [vm_compute; discriminate|vm_compute; reflexivity]. Qed.

(** ** C05 *)
Theorem C05_string_rule s rest :
  (zlen s <= 100000 -> p_text (buf (write_string s new_dout) ++ rest) = Some (s, rest)) /\
  (100000 < zlen s -> p_text (buf (write_string s new_dout) ++ rest) = Some (of_string "huge string omitted...", rest)).
Proof.
  rewrite (writes_buf _ _ (writes_string s)). pose proof (parses_text s rest) as H. unfold on_wire in H.
  split; intros Hl.
  - replace (100000 <? zlen s) with false in H by lia. exact H.
  - replace (100000 <? zlen s) with true in H by lia. exact H.
Qed.

(** the same bytes as the blob of the (possibly replaced) text, so nothing else is written *)
Theorem C05_string_bytes s : buf (write_string s new_dout) = buf (write_blob (on_wire s) new_dout).
Proof. rewrite (writes_buf _ _ (writes_string s)), (writes_buf _ _ (writes_blob _)). apply enc_string_wire. Qed.

Example C05_case : 100000 < zlen (repeat 65 (Z.to_nat 100001)) /\ zlen (of_string "GET /x") <= 100000.
Proof. split; [unfold zlen; rewrite repeat_length, Z2Nat.id; lia|vm_compute; discriminate]. Qed.

(** ** C09 *)
Theorem C09_size_is_bytes cs :
  get_write_size (calls cs new_dout) = int32 (zlen (buf (calls cs new_dout))).
Proof. exact (write_size cs). Qed.

Theorem C09_append_only cs1 cs2 :
  exists bs, buf (calls (cs1 ++ cs2) new_dout) = buf (calls cs1 new_dout) ++ bs.
Proof. exact (bytes_append cs1 cs2). Qed.

Example C09_case : let o := calls [CDecimal 70000; CString (of_string "a"); CValue (VList [VBool true; VNil])] new_dout in
  buf o = [4; 0; 1; 17; 112; 1; 97; 70; 1; 2; 10; 1; 0] /\ get_write_size o = 13.
Proof. split; vm_compute; reflexivity. Qed.

Print Assumptions C01_decimal_roundtrip.
Print Assumptions C01_decimal_any_segmentation.
Print Assumptions C01_decimal32_same_bytes.
Print Assumptions C01_decimal_shortest.
Print Assumptions C02_fixed_width_any_segmentation.
Print Assumptions C02_big_endian.
Print Assumptions C02_boolean.
Print Assumptions C03_blob_roundtrip.
Print Assumptions C03_blob_panics.
Print Assumptions C03_blob_roundtrip_exact.
Print Assumptions C03_string_roundtrip.
Print Assumptions C03_int_bytes_roundtrip.
Print Assumptions C03_blob_roundtrip_refuted.
Print Assumptions C04_blob_collector.
Print Assumptions C05_string_rule.
Print Assumptions C05_string_bytes.
Print Assumptions C09_size_is_bytes.
Print Assumptions C09_append_only.
