(** Properties C06, C07, C08: value trees. *)
From Verif Require Import GoInt M_OutX M_InX M_Value S_Wire S_Value L_Codec L_Value L_Safe.
From Coq Require Import ZifyBool.

(** ** C06.  [w] is the tree [v] in whatever order the runtime iterates its maps while writing. *)
Theorem C06_value_roundtrip v w rest :
  go_value v = true -> agent_readable v = true -> same_value v w ->
  exists w', read_value (buffer (buf (write_value w new_dout) ++ rest)) = Ret w' None (buffer rest) /\ same_value v w'.
Proof. exact (value_roundtrip_any_order v w rest). Qed.

(** A collector recovers every tree (texts over 100000 bytes as the placeholder, C05). *)
Theorem C06_value_collector v rest : go_value v = true ->
  exists fuel, p_value fuel (buf (write_value v new_dout) ++ rest) = Some (collector_view v, rest).
Proof. intros H. eexists. apply value_collector; [assumption|apply le_n]. Qed.

(** The unrestricted round trip is false: a 40000 byte text makes the agent's reader panic. *)
Theorem C06_value_roundtrip_refuted :
  ~ (forall v rest, go_value v = true ->
       exists w', read_value (buffer (buf (write_value v new_dout) ++ rest)) = Ret w' None (buffer rest) /\ same_value v w').
Proof.
  intros H. destruct (H (VBlob (repeat 7 (Z.to_nat 40000))) [] ltac:(reflexivity)) as (w' & E & _).
  vm_compute in E. discriminate E.
Qed.

Example C06_case :
  let v := VMap [(of_string "a", VList [VDec (-5); VText (of_string "x"); VNil]); (of_string "b", VDouble 4607182418800017408)] in
  let w := VMap [(of_string "b", VDouble 4607182418800017408); (of_string "a", VList [VDec (-5); VText (of_string "x"); VNil])] in
  go_value v = true /\ agent_readable v = true /\ same_value v w.
Proof.
  cbn zeta. split; [reflexivity|]. split; [reflexivity|].
  eapply same_map; [apply perm_swap|].
  apply Forall2_cons; [split; [reflexivity|apply same_atom; exact I]|].
  apply Forall2_cons; [split; [reflexivity|apply same_list]|apply Forall2_nil].
  repeat (apply Forall2_cons; [apply same_atom; exact I|]). apply Forall2_nil.
Qed.

(** ** C07: false for every address: the address comes back as a blob, if at all. *)
Theorem C07_ip4_never_roundtrips b rest : zlen b = 4 -> Forall is_byte b ->
  forall e r', read_value (buffer (buf (write_value (VIp4 b) new_dout) ++ rest)) <> Ret (VIp4 b) e r'.
Proof.
  intros Hb _ e r' E.
  assert (buf (write_value (VIp4 b) new_dout) = be 1 61 ++ b) as Ew.
  { apply (writes_buf _ _ (writes_value (VIp4 b) ltac:(cbn [go_value]; lia))). }
  rewrite Ew in E. unfold read_value in E. cbn [read_value_fuel] in E.
  rewrite <- app_assoc in E. rewrite reads_int8 in E by (unfold in_int8; lia). cbn [bind] in E.
  change (uint8 61) with 61 in E.
  repeat match type of E with (if ?c then _ else _) = _ => change c with false in E || change c with true in E; cbv iota in E end.
  destruct (read_blob (buffer (b ++ rest))); cbn [bind] in E; discriminate E.
Qed.

(** a concrete instance: 10.0.0.1 is read back as the ten-byte blob starting at 0.0.1 *)
Theorem C07_ip4_refuted :
  ~ (forall b rest, zlen b = 4 -> Forall is_byte b ->
       read_value (buffer (buf (write_value (VIp4 b) new_dout) ++ rest)) = Ret (VIp4 b) None (buffer rest)).
Proof.
  intros H. apply (C07_ip4_never_roundtrips [10; 0; 0; 1] [] ltac:(reflexivity) ltac:(repeat constructor; lia) None (buffer [])).
  apply H; [reflexivity|repeat constructor; lia].
Qed.

(** the bytes themselves are fine: a collector recovers the address *)
Theorem C07_ip4_collector b rest : zlen b = 4 ->
  exists fuel, p_value fuel (buf (write_value (VIp4 b) new_dout) ++ rest) = Some (VIp4 b, rest).
Proof. intros H. apply (C06_value_collector (VIp4 b) rest). cbn [go_value]. lia. Qed.

(** ** C08 *)
(** Termination: the recursion of ReadValue is never deeper than the number of input bytes (the
    model's fuel), on any reader. *)
Theorem C08_terminates r : read_value r <> NoFuel.
Proof. exact (read_value_terminates r). Qed.

(** The only panics come from a 255- or 254-marked length with its top bit set. *)
Theorem C08_panic_only_negative_length r : Forall is_byte (concat r) ->
  read_value r = Panic ->
  exists pre m b post, concat r = pre ++ m :: b :: post /\ (m = 255 \/ m = 254) /\ 128 <= b.
Proof. exact (read_value_panic r). Qed.

(** A truncated boolean, number or text-hash value is reported as an error. *)
Theorem C08_truncated_number_reported v k : go_value v = true ->
  match v with VBool _ | VDec _ | VFloat _ | VDouble _ | VTextHash _ => True | _ => False end ->
  (0 < k < length (buf (write_value v new_dout)))%nat ->
  exists a e r, read_value (buffer (firstn k (buf (write_value v new_dout)))) = Ret a (Some e) r.
Proof.
  intros Hg Hf. rewrite (writes_buf _ _ (writes_value v Hg)). apply truncated_fixed; [assumption|]. destruct v; try contradiction; reflexivity.
Qed.

(** A byte that is no type code is reported as an error, whatever follows. *)
Theorem C08_unknown_type_reported b bs : is_byte b -> ~ In b [0; 10; 20; 30; 40; 50; 51; 60; 61; 70; 80] -> exists v e r, read_value (buffer (b :: bs)) = Ret v (Some e) r.
Proof.
  intros Hb N. assert (exists r, read_int8 (buffer (b :: bs)) = Ret (int8 b) None r) as (r & E).
  { cbn. eexists. reflexivity. }
  unfold read_value. cbn [read_value_fuel]. rewrite E. cbn [bind]. cbv zeta.
  assert (uint8 (int8 b) = b) as ->.
  { unfold is_byte in Hb. pose proof (be_wrapS 1 b ltac:(lia)) as B. change (8 * Z.of_nat 1) with 8 in B. cbn [be app] in B. injection B as B.
    change (uint8 (int8 b)) with (wrapS 8 b mod 256). rewrite B. apply Z.mod_small. exact Hb. }
  cbn [In] in N. unfold NULL, BOOLEAN, DECIMAL, FLOAT, DOUBLE, TEXT, TEXT_HASH, BLOB, IP4ADDR, LIST, MAP.
  repeat match goal with |- context[b =? ?k] => destruct (Z.eqb_spec b k) as [X|_]; [exfalso; apply N; subst b; tauto|] end.
  eauto.
Qed.
(** never panics: false *)
Theorem C08_no_panic_refuted : ~ (forall bs, Forall is_byte bs -> read_value (buffer bs) <> Panic).
Proof. intros H. apply (H [60; 255; 128; 0] ltac:(repeat constructor; lia)). vm_compute. reflexivity. Qed.

(** error on truncated input: false — every short text cut anywhere in its body is accepted,
    padded with zero bytes *)
Theorem C08_truncation_unreported s k : zlen s <= 253 -> (0 < k < length s)%nat ->
  buf (write_value (VText s) new_dout) = 50 :: zlen s :: s /\
  read_value (buffer (firstn (2 + k) (buf (write_value (VText s) new_dout)))) =
  Ret (VText (firstn k s ++ repeat 0 (length s - k))) None (buffer []).
Proof.
  intros Hs Hk.
  assert (buf (write_value (VText s) new_dout) = 50 :: zlen s :: s) as E.
  { rewrite (writes_buf _ _ (writes_value (VText s) ltac:(cbn [go_value]; lia))). cbn [enc_value value_type].
    unfold enc_string. replace (zlen s >? 100000) with false by lia. unfold enc_blob. cbv zeta.
    assert (0 < zlen s) by (unfold zlen; lia).
    replace (zlen s =? 0) with false by lia. replace (zlen s <=? 253) with true by lia.
    change (be 1 TEXT) with [50]. cbn [be app]. rewrite Z.mod_small by lia. reflexivity. }
  split; [exact E|]. rewrite E. cbn [firstn plus]. apply truncated_text; assumption.
Qed.

(** and ten bytes can demand a list of 2^63-1 elements, again without error *)
Theorem C08_list_bomb n : 0 < n <= 9223372036854775807 ->
  exists bs, zlen bs <= 10 /\ read_value (buffer bs) = Ret (VList (repeat VNil (Z.to_nat n))) None [].
Proof. intros H. eexists. exact (list_bomb n H). Qed.

Example C08_case : go_value (VDec 300) = true /\ (0 < 3 < length (buf (write_value (VDec 300) new_dout)))%nat
  /\ read_value (buffer (firstn 3 (buf (write_value (VDec 300) new_dout)))) = Ret (VDec 0) (Some UnexpectedEOF) [].
Proof. split; [reflexivity|]. split; [cbn; lia|vm_compute; reflexivity]. Qed.

Print Assumptions C06_value_roundtrip.
Print Assumptions C06_value_collector.
Print Assumptions C06_value_roundtrip_refuted.
Print Assumptions C07_ip4_never_roundtrips.
Print Assumptions C07_ip4_refuted.
Print Assumptions C07_ip4_collector.
Print Assumptions C08_terminates.
Print Assumptions C08_panic_only_negative_length.
Print Assumptions C08_truncated_number_reported.
Print Assumptions C08_unknown_type_reported.
Print Assumptions C08_no_panic_refuted.
Print Assumptions C08_truncation_unreported.
Print Assumptions C08_list_bomb.
