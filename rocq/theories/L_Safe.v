(** ReadValue on arbitrary input: termination, panics, truncation. *)
From Verif Require Import GoInt M_OutX M_InX L_Codec M_Value S_Value L_Value.
From Coq Require Import ZifyBool.
Ltac Zify.zify_post_hook ::= Z.div_mod_to_equations.

(** [rd] leaves a suffix of its input *)
Definition advances {A} (rd : reader -> res A) : Prop :=
  forall r a e r', rd r = Ret a e r' -> exists pre, concat r = pre ++ concat r'.

Lemma rd_drop_suffix n r : exists pre, concat r = pre ++ concat (rd_drop n r).
Proof.
  revert n; induction r as [|s r IH]; intros n; cbn [rd_drop concat].
  - exists []; reflexivity.
  - destruct (n <=? length s)%nat eqn:E.
    + exists (firstn n s). cbn [concat]. rewrite app_assoc, firstn_skipn. reflexivity.
    + destruct (IH (n - length s)%nat) as [p Hp]. exists (s ++ p). rewrite <- app_assoc, <- Hp. reflexivity.
Qed.

Lemma read_full_suffix n r bs e r' : read_full n r = (bs, e, r') -> exists pre, concat r = pre ++ concat r'.
Proof.
  unfold read_full. destruct (n <=? length (concat r))%nat.
  - intros [= _ _ <-]. apply rd_drop_suffix.
  - destruct (concat r) as [|b l] eqn:E; intros [= _ _ <-]; cbn [concat].
    + exists []; reflexivity.
    + exists (b :: l). rewrite app_nil_r. reflexivity.
Qed.

Lemma advances_fixed n conv : advances (read_fixed n conv).
Proof.
  intros r a e r' H. unfold read_fixed in H. destruct (read_full n r) as [[[bs|] e0] r0] eqn:E; injection H as _ _ <-;
    eapply read_full_suffix; eassumption.
Qed.

Lemma rd_read_suffix n r bs e r' : rd_read n r = (bs, e, r') -> exists pre, concat r = pre ++ concat r'.
Proof.
  induction r as [|s r IH]; cbn [rd_read concat].
  - destruct (n =? 0); intros [= _ _ <-]; exists []; reflexivity.
  - destruct (n =? 0).
    + intros [= _ _ <-]; exists []; reflexivity.
    + destruct s as [|b s].
      * intros H. destruct (IH H) as [p Hp]. exists p. cbn. assumption.
      * intros [= _ _ <-]. exists (firstn (Z.to_nat n) (b :: s)). cbn [concat].
        rewrite app_assoc, firstn_skipn. reflexivity.
Qed.

Lemma advances_n n : advances (read_n n).
Proof.
  intros r a e r' H. unfold read_n in H. destruct (n <? 0); [discriminate|].
  destruct (rd_read n r) as [[bs [e0|]] r0] eqn:E; injection H as _ _ <-; eapply rd_read_suffix; eassumption.
Qed.

Lemma advances_ret {A} (a : A) e : advances (fun r => Ret a e r).
Proof. intros r a' e' r' [= _ _ <-]. exists []; reflexivity. Qed.

Lemma advances_bind {A B} (m : reader -> res A) (f : A -> option err -> reader -> res B) :
  advances m -> (forall a e, advances (f a e)) -> advances (fun r => bind (m r) f).
Proof.
  intros Hm Hf r b e r' H. destruct (m r) as [a e0 r0| |] eqn:E; cbn [bind] in H; try discriminate.
  destruct (Hm _ _ _ _ E) as [p Hp]. destruct (Hf _ _ _ _ _ _ H) as [q Hq].
  exists (p ++ q). rewrite <- app_assoc, <- Hq. assumption.
Qed.

Lemma advances_if {A} (c : bool) (f g : reader -> res A) :
  advances f -> advances g -> advances (fun r => if c then f r else g r).
Proof. destruct c; auto. Qed.

Lemma advances_blob : advances read_blob.
Proof.
  unfold read_blob. apply advances_bind; [apply advances_fixed|]. intros n e.
  apply advances_if; [apply advances_bind; [apply advances_fixed|intros; apply advances_n]|].
  apply advances_if; [apply advances_bind; [apply advances_fixed|intros; apply advances_n]|].
  apply advances_if; [apply advances_ret|apply advances_n].
Qed.

Lemma advances_decimal : advances read_decimal.
Proof.
  unfold read_decimal. apply advances_bind; [apply advances_fixed|]. intros n e.
  repeat (apply advances_if; [first [apply advances_ret|apply advances_fixed]|]). apply advances_ret.
Qed.

Lemma advances_boolean : advances read_boolean.
Proof. unfold read_boolean. apply advances_bind; [apply advances_fixed|intros; apply advances_ret]. Qed.

Lemma advances_times {A} (rd : reader -> res A) n : advances rd -> forall acc e, advances (read_times rd n acc e).
Proof.
  intros H; induction n as [|n IH]; intros acc e; cbn [read_times].
  - apply advances_ret.
  - apply advances_bind; [assumption|intros; apply IH].
Qed.

Lemma advances_value fuel : advances (read_value_fuel fuel).
Proof.
  induction fuel as [|f IH].
  - intros r a e r' H; discriminate.
  - cbn [read_value_fuel]. apply advances_bind; [apply advances_fixed|]. intros t e. cbv zeta.
    repeat (apply advances_if; [|]); try apply advances_ret;
      (apply advances_bind; [|intros; try apply advances_ret]);
      try apply advances_boolean; try apply advances_decimal; try apply advances_fixed; try apply advances_blob.
    + apply advances_bind; [apply advances_times; exact IH|intros; apply advances_ret].
    + apply advances_bind; [|intros; apply advances_ret]. apply advances_times.
      apply advances_bind; [apply advances_blob|intros].
      apply advances_bind; [exact IH|intros; apply advances_ret].
Qed.

(* ------------------------------------------------------------------ *)
(** * Termination: the input length bounds the nesting depth *)

Definition nofuel_free {A} (rd : reader -> res A) : Prop := forall r, rd r <> NoFuel.

Lemma nf_fixed n conv : nofuel_free (read_fixed n conv).
Proof. intros r. unfold read_fixed. destruct (read_full n r) as [[[bs|] e] r0]; discriminate. Qed.
Lemma nf_n n : nofuel_free (read_n n).
Proof. intros r. unfold read_n. destruct (n <? 0); [discriminate|]. destruct (rd_read n r) as [[bs [e|]] r0]; discriminate. Qed.
Lemma nf_bind {A B} (m : reader -> res A) (f : A -> option err -> reader -> res B) :
  nofuel_free m -> (forall a e, nofuel_free (f a e)) -> nofuel_free (fun r => bind (m r) f).
Proof.
  intros Hm Hf r. specialize (Hm r). destruct (m r) as [a e r0| |]; cbn [bind]; [apply Hf|discriminate|congruence].
Qed.
Lemma nf_if {A} (c : bool) (f g : reader -> res A) :
  nofuel_free f -> nofuel_free g -> nofuel_free (fun r => if c then f r else g r).
Proof. destruct c; auto. Qed.
Lemma nf_ret {A} (a : A) e : nofuel_free (fun r => Ret a e r).
Proof. intros r; discriminate. Qed.
Lemma nf_blob : nofuel_free read_blob.
Proof.
  unfold read_blob. apply nf_bind; [apply nf_fixed|]. intros n e.
  apply nf_if; [apply nf_bind; [apply nf_fixed|intros; apply nf_n]|].
  apply nf_if; [apply nf_bind; [apply nf_fixed|intros; apply nf_n]|].
  apply nf_if; [apply nf_ret|apply nf_n].
Qed.
Lemma nf_decimal : nofuel_free read_decimal.
Proof.
  unfold read_decimal. apply nf_bind; [apply nf_fixed|]. intros n e.
  repeat (apply nf_if; [first [apply nf_ret|apply nf_fixed]|]). apply nf_ret.
Qed.
Lemma nf_boolean : nofuel_free read_boolean.
Proof. unfold read_boolean. apply nf_bind; [apply nf_fixed|intros; apply nf_ret]. Qed.

Lemma nf_map {A B} (m : reader -> res A) (g : A -> B) r : nofuel_free m ->
  bind (m r) (fun a e r => Ret (g a) e r) <> NoFuel.
Proof. intros H. specialize (H r). destruct (m r); cbn [bind]; congruence. Qed.

Lemma suffix_length (a b : bytes) : (exists pre, a = pre ++ b) -> (length b <= length a)%nat.
Proof. intros [p ->]. rewrite app_length. lia. Qed.

(** reading the type byte of a non-empty input shortens it *)
Lemma read_int8_short r t e r' : read_int8 r = Ret t e r' ->
  (length (concat r') < length (concat r))%nat \/ (concat r = [] /\ t = 0).
Proof.
  unfold read_int8, read_fixed, read_full. destruct (1 <=? length (concat r))%nat eqn:E.
  - intros [= _ _ <-]. left. apply Nat.leb_le in E. rewrite rd_drop_concat by assumption. rewrite skipn_length. lia.
  - apply Nat.leb_gt in E. destruct (concat r) as [|b l]; [|cbn in E; lia]. intros [= <- _ _]. right; auto.
Qed.

Lemma times_nofuel {A} (rd : reader -> res A) f n :
  advances rd -> (forall r, (length (concat r) < f)%nat -> rd r <> NoFuel) ->
  forall acc e r, (length (concat r) < f)%nat -> read_times rd n acc e r <> NoFuel.
Proof.
  intros Ha Hrd. induction n as [|n IH]; intros acc e r Hr; cbn [read_times]; [discriminate|].
  pose proof (Hrd r Hr) as H0. destruct (rd r) as [a e0 r0| |] eqn:E; cbn [bind]; [|discriminate|congruence].
  apply IH. pose proof (suffix_length _ _ (Ha _ _ _ _ E)). lia.
Qed.

Lemma read_value_fuel_enough fuel r : (length (concat r) < fuel)%nat -> read_value_fuel fuel r <> NoFuel.
Proof.
  revert r; induction fuel as [|f IH]; intros r Hr; [lia|]. cbn [read_value_fuel].
  destruct (read_int8 r) as [t e0 r0| |] eqn:E0; cbn [bind]; try discriminate.
  2:{ exfalso; apply (nf_fixed 1 int8 r); exact E0. }
  cbv zeta. destruct (read_int8_short _ _ _ _ E0) as [Hs|[_ ->]]; [|discriminate].
  destruct (uint8 t =? NULL); [discriminate|].
  destruct (uint8 t =? BOOLEAN); [apply nf_map, nf_boolean|].
  destruct (uint8 t =? DECIMAL); [apply nf_map, nf_decimal|].
  destruct (uint8 t =? FLOAT); [apply nf_map, nf_fixed|].
  destruct (uint8 t =? DOUBLE); [apply nf_map, nf_fixed|].
  destruct (uint8 t =? TEXT); [apply nf_map, nf_blob|].
  destruct (uint8 t =? TEXT_HASH); [apply nf_map, nf_fixed|].
  destruct (uint8 t =? BLOB); [apply nf_map, nf_blob|].
  destruct (uint8 t =? IP4ADDR); [apply nf_map, nf_blob|].
  destruct (uint8 t =? LIST).
  { pose proof (nf_decimal r0) as Hd. destruct (read_decimal r0) as [size e1 r1| |] eqn:E1; cbn [bind]; try congruence.
    pose proof (suffix_length _ _ (advances_decimal _ _ _ _ E1)).
    assert (read_times (read_value_fuel f) (Z.to_nat size) [] e1 r1 <> NoFuel) as Ht.
    { apply (times_nofuel _ f); [apply advances_value|exact IH|lia]. }
    destruct (read_times _ _ _ _ _) eqn:Et; cbn [bind]; congruence. }
  destruct (uint8 t =? MAP); [|discriminate].
  pose proof (nf_decimal r0) as Hd. destruct (read_decimal r0) as [size e1 r1| |] eqn:E1; cbn [bind]; try congruence.
  pose proof (suffix_length _ _ (advances_decimal _ _ _ _ E1)).
  match goal with |- bind (read_times ?rd ?n [] e1 r1) _ <> _ => assert (read_times rd n [] e1 r1 <> NoFuel) as Ht end.
  { apply (times_nofuel _ f); [| |lia].
    - apply advances_bind; [apply advances_blob|intros]. apply advances_bind; [apply advances_value|intros; apply advances_ret].
    - intros r2 Hr2. pose proof (nf_blob r2) as Hb. unfold read_string.
      destruct (read_blob r2) as [k e2 r3| |] eqn:E2; cbn [bind]; try congruence.
      pose proof (suffix_length _ _ (advances_blob _ _ _ _ E2)).
      pose proof (IH r3 ltac:(lia)). destruct (read_value_fuel f r3) eqn:Ev; cbn [bind]; congruence. }
  destruct (read_times _ _ _ _ _) eqn:Et; cbn [bind]; congruence.
Qed.

Lemma read_value_terminates r : read_value r <> NoFuel.
Proof. apply read_value_fuel_enough. lia. Qed.

(* ------------------------------------------------------------------ *)
(** * Panics *)

(** the input contains a length marker followed by a byte with its sign bit set *)
Definition negative_length (bs : bytes) : Prop :=
  exists pre m b post, bs = pre ++ m :: b :: post /\ (m = 255 \/ m = 254) /\ 128 <= b.

Definition panics_only_neg {A} (rd : reader -> res A) : Prop :=
  forall r, Forall is_byte (concat r) -> rd r = Panic -> negative_length (concat r).

Lemma neg_suffix pre bs : negative_length bs -> negative_length (pre ++ bs).
Proof.
  intros (p & m & b & q & -> & H). exists (pre ++ p), m, b, q. rewrite app_assoc. auto.
Qed.

Lemma suffix_bytes (a b : bytes) : (exists pre, a = pre ++ b) -> Forall is_byte a -> Forall is_byte b.
Proof. intros [p ->] H. apply Forall_app in H. tauto. Qed.

Lemma pn_bind {A B} (m : reader -> res A) (f : A -> option err -> reader -> res B) :
  advances m -> panics_only_neg m -> (forall a e, panics_only_neg (f a e)) ->
  panics_only_neg (fun r => bind (m r) f).
Proof.
  intros Ha Hm Hf r Hb H. destruct (m r) as [a e r0| |] eqn:E; cbn [bind] in H; try discriminate.
  - pose proof (Ha _ _ _ _ E) as Hs. specialize (Hf a e r0 (suffix_bytes _ _ Hs Hb) H).
    destruct Hs as [p ->]. apply neg_suffix; assumption.
  - apply Hm; assumption.
Qed.
Lemma pn_if {A} (c : bool) (f g : reader -> res A) :
  panics_only_neg f -> panics_only_neg g -> panics_only_neg (fun r => if c then f r else g r).
Proof. destruct c; auto. Qed.
Lemma pn_ret {A} (a : A) e : panics_only_neg (fun r => Ret a e r).
Proof. intros r _ H; discriminate. Qed.
Lemma pn_fixed n conv : panics_only_neg (read_fixed n conv).
Proof. intros r _ H. unfold read_fixed in H. destruct (read_full n r) as [[[bs|] e] r0]; discriminate. Qed.
Lemma pn_decimal : panics_only_neg read_decimal.
Proof.
  unfold read_decimal. apply pn_bind; [apply advances_fixed|apply pn_fixed|]. intros n e.
  repeat (apply pn_if; [first [apply pn_ret|apply pn_fixed]|]). apply pn_ret.
Qed.
Lemma pn_boolean : panics_only_neg read_boolean.
Proof. unfold read_boolean. apply pn_bind; [apply advances_fixed|apply pn_fixed|intros; apply pn_ret]. Qed.

Lemma read_n_panic n r : read_n n r = Panic -> n < 0.
Proof.
  unfold read_n. destruct (n <? 0) eqn:E; [lia|]. destruct (rd_read n r) as [[bs [e|]] r0]; discriminate.
Qed.

Lemma unbe_bound bs : Forall is_byte bs -> 0 <= unbe bs < 256 ^ Z.of_nat (length bs).
Proof.
  induction bs as [|b bs IH] using rev_ind; intros H.
  - cbn; lia.
  - apply Forall_app in H as [H1 H2]. inversion H2 as [|? ? Hb _]; subst. specialize (IH H1).
    rewrite unbe_snoc, app_length. cbn [length]. rewrite Nat2Z.inj_add. change (Z.of_nat 1) with 1.
    rewrite Z.pow_add_r by lia. unfold is_byte in Hb. lia.
Qed.

Lemma unbe_cons b bs : unbe (b :: bs) = b * 256 ^ Z.of_nat (length bs) + unbe bs.
Proof.
  induction bs as [|c bs IH] using rev_ind; [cbn; lia|].
  rewrite app_comm_cons, !unbe_snoc, IH, app_length. cbn [length]. rewrite Nat2Z.inj_add. change (Z.of_nat 1) with 1.
  rewrite Z.pow_add_r by lia. lia.
Qed.

Lemma wrap_neg n b bs : (0 < n)%nat -> length (b :: bs) = n -> Forall is_byte (b :: bs) ->
  wrapS (8 * Z.of_nat n) (unbe (b :: bs)) < 0 -> 128 <= b.
Proof.
  intros Hn Hl Hb Hneg. inversion Hb as [|? ? Hb1 Hb2]; subst.
  pose proof (unbe_bound _ Hb2) as Hu. rewrite unbe_cons in Hneg. cbn [length] in *.
  set (k := 256 ^ Z.of_nat (length bs)) in *.
  assert (2 ^ (8 * Z.of_nat (S (length bs)) - 1) = 128 * k) as E.
  { subst k. replace (8 * Z.of_nat (S (length bs)) - 1) with (7 + 8 * Z.of_nat (length bs)) by lia.
    rewrite Z.pow_add_r by lia. f_equal. rewrite Z.pow_mul_r by lia. reflexivity. }
  destruct (Z_lt_le_dec b 128) as [Hlt|]; [|assumption]. exfalso.
  rewrite wrapS_id in Hneg; unfold is_byte in Hb1; try lia. rewrite E. nia.
Qed.

Lemma marker_panic m n conv r :
  (m = 255 \/ m = 254) -> (0 < n)%nat -> (forall z, conv z = wrapS (8 * Z.of_nat n) z) ->
  Forall is_byte (concat r) ->
  bind (read_fixed n conv r) (fun v _ r => read_n v r) = Panic ->
  negative_length (m :: concat r).
Proof.
  intros Hm Hn Hc Hb H. unfold read_fixed, read_full in H.
  destruct (n <=? length (concat r))%nat eqn:E.
  - cbn [bind] in H. apply read_n_panic in H. rewrite Hc in H. apply Nat.leb_le in E.
    destruct (concat r) as [|b l] eqn:Ec; [cbn in E; lia|].
    destruct n as [|n]; [lia|]. cbn [firstn] in H.
    assert (128 <= b).
    { apply (wrap_neg (S n) b (firstn n l)); try assumption.
      - cbn [length] in *. rewrite firstn_length. lia.
      - inversion Hb; subst. constructor; [assumption|]. apply Forall_forall. intros x Hx.
        apply (proj1 (Forall_forall _ _) H3). rewrite <- (firstn_skipn n l). apply in_or_app; left; assumption. }
    exists [], m, b, l. auto.
  - destruct (concat r) as [|b l]; cbn [bind] in H; apply read_n_panic in H; lia.
Qed.

Lemma read_uint8_value r n e r' : read_uint8 r = Ret n e r' ->
  (concat r = n :: concat r') \/ (concat r = [] /\ n = 0 /\ r' = []).
Proof.
  unfold read_uint8, read_fixed, read_full. destruct (1 <=? length (concat r))%nat eqn:E.
  - intros [= <- _ <-]. left. apply Nat.leb_le in E. rewrite rd_drop_concat by assumption.
    destruct (concat r) as [|b l]; [cbn in E; lia|]. cbn. reflexivity.
  - apply Nat.leb_gt in E. destruct (concat r) as [|b l]; [|cbn in E; lia]. intros [= <- _ <-]. right; auto.
Qed.

Lemma pn_blob : panics_only_neg read_blob.
Proof.
  intros r Hb H. unfold read_blob in H.
  destruct (read_uint8 r) as [n e r0| |] eqn:E; cbn [bind] in H.
  2:{ exfalso. unfold read_uint8, read_fixed in E. destruct (read_full 1 r) as [[[?|] ?] ?]; discriminate. }
  2:{ discriminate. }
  destruct (read_uint8_value _ _ _ _ E) as [Hc|(Hc & -> & ->)]; [|discriminate H].
  rewrite Hc in Hb |- *. inversion Hb as [|? ? Hn Hb']; subst.
  destruct (n =? 255) eqn:E1.
  { apply (marker_panic n 2 int16 r0); try assumption; try lia. reflexivity. }
  destruct (n =? 254) eqn:E2.
  { apply (marker_panic n 4 int32 r0); try assumption; try lia. reflexivity. }
  destruct (n =? 0) eqn:E3; [discriminate|]. apply read_n_panic in H. unfold is_byte in Hn. lia.
Qed.

Lemma pn_times {A} (rd : reader -> res A) n : advances rd -> panics_only_neg rd ->
  forall acc e, panics_only_neg (read_times rd n acc e).
Proof.
  intros Ha H; induction n as [|n IH]; intros acc e; cbn [read_times].
  - apply pn_ret.
  - apply pn_bind; [assumption|assumption|intros; apply IH].
Qed.

Lemma pn_value fuel : panics_only_neg (read_value_fuel fuel).
Proof.
  induction fuel as [|f IH].
  - intros r _ H; discriminate.
  - cbn [read_value_fuel]. apply pn_bind; [apply advances_fixed|apply pn_fixed|]. intros t e. cbv zeta.
    repeat (apply pn_if; [|]); try apply pn_ret;
      (apply pn_bind; [| |intros; try apply pn_ret]);
      try apply advances_boolean; try apply advances_decimal; try apply advances_fixed; try apply advances_blob;
      try apply pn_boolean; try apply pn_decimal; try apply pn_fixed; try apply pn_blob.
    + apply pn_bind; [apply advances_times, advances_value|apply pn_times; [apply advances_value|exact IH]|intros; apply pn_ret].
    + assert (forall (k : gostring) (e : option err), panics_only_neg
         (fun r => bind (read_value_fuel f r) (fun v e r => Ret (k, v) e r))) as Hk.
      { intros; apply pn_bind; [apply advances_value|exact IH|intros; apply pn_ret]. }
      assert (forall (k : gostring) (e : option err), advances
         (fun r => bind (read_value_fuel f r) (fun v e r => Ret (k, v) e r))) as Hk'.
      { intros; apply advances_bind; [apply advances_value|intros; apply advances_ret]. }
      apply pn_bind; [apply advances_times|apply pn_times|intros; apply pn_ret];
        try (apply advances_bind; [apply advances_blob|intros; apply Hk'; exact None]).
      apply pn_bind; [apply advances_blob|apply pn_blob|intros; apply Hk; exact None].
Qed.

Lemma read_value_panic r : Forall is_byte (concat r) -> read_value r = Panic -> negative_length (concat r).
Proof. apply pn_value. Qed.

(* ------------------------------------------------------------------ *)
(** * Truncated input *)

Lemma read_times_eof f n : forall acc e, read_times (read_value_fuel (S f)) n acc e [] =
  Ret (rev acc ++ repeat VNil n) (match n with O => e | S _ => None end) [].
Proof.
  induction n as [|n IH]; intros acc e; cbn [read_times repeat].
  - rewrite app_nil_r. reflexivity.
  - change (read_value_fuel (S f) []) with (@Ret value VNil None []). cbn [bind]. rewrite IH. cbn [rev]. rewrite <- app_assoc.
    cbn [app repeat]. destruct n; reflexivity.
Qed.

(** A list header of at most 10 bytes is decoded, without error, to a list of any announced length. *)
Lemma list_bomb n : 0 < n <= 9223372036854775807 ->
  zlen (70 :: enc_decimal n) <= 10 /\
  read_value (buffer (70 :: enc_decimal n)) = Ret (VList (repeat VNil (Z.to_nat n))) None [].
Proof.
  intros Hn. split.
  { unfold enc_decimal. destruct (n =? 0); [cbn [app]; rewrite !zlen_cons, zlen_nil; lia|].
    repeat match goal with |- context [if ?c then _ else _] => destruct c end; rewrite ?zlen_cons, ?zlen_app, ?zlen_cons, ?be_zlen, ?zlen_nil; lia. }
  unfold read_value.
  replace (70 :: enc_decimal n) with (be 1 70 ++ enc_decimal n ++ []) by (rewrite app_nil_r; reflexivity).
  cbn [read_value_fuel]. rewrite (reads_int8 70 ltac:(unfold in_int8; lia)). cbn [bind].
  change (uint8 70) with 70. cbn [NULL BOOLEAN DECIMAL FLOAT DOUBLE TEXT TEXT_HASH BLOB IP4ADDR LIST Z.eqb Pos.eqb].
  rewrite reads_decimal by (unfold in_int64; lia). cbn [bind].
  unfold buffer. cbn [concat]. rewrite !app_nil_r, app_length, be_length. cbn [Nat.add].
  assert (forall f k acc e, (0 < k)%nat -> read_times (read_value_fuel (S f)) k acc e [[]] =
     Ret (rev acc ++ repeat VNil k) None []) as Hk.
  { intros f k acc e Hk. destruct k as [|k]; [lia|]. cbn [read_times repeat].
    change (read_value_fuel (S f) [[]]) with (@Ret value VNil None []). cbn [bind]. rewrite read_times_eof. cbn [rev]. rewrite <- app_assoc. cbn [app].
    destruct k; reflexivity. }
  rewrite Hk by lia. cbn [bind rev app]. reflexivity.
Qed.

(** A text cut off inside its payload decodes, without error, to a zero-padded text. *)
Lemma truncated_text s k : zlen s <= 253 -> (0 < k < length s)%nat ->
  read_value (buffer (50 :: zlen s :: firstn k s)) =
  Ret (VText (firstn k s ++ repeat 0 (length s - k))) None (buffer []).
Proof.
  intros Hs Hk. unfold read_value.
  assert (50 :: zlen s :: firstn k s = be 1 50 ++ be 1 (zlen s) ++ firstn k s) as ->.
  { cbn [be app]. rewrite (Z.mod_small (zlen s)) by (unfold zlen in *; lia). reflexivity. }
  cbn [read_value_fuel]. rewrite (reads_int8 50 ltac:(unfold in_int8; lia)). cbn [bind].
  change (uint8 50) with 50. cbn [NULL BOOLEAN DECIMAL FLOAT DOUBLE TEXT TEXT_HASH BLOB IP4ADDR LIST Z.eqb Pos.eqb].
  unfold read_string, read_blob. rewrite (reads_uint8 (zlen s)) by (unfold is_byte, zlen in *; lia). cbn [bind].
  replace (zlen s =? 255) with false by lia. replace (zlen s =? 254) with false by lia.
  replace (zlen s =? 0) with false by (unfold zlen; lia).
  unfold read_n. replace (zlen s <? 0) with false by (unfold zlen; lia).
  unfold buffer. cbn [rd_read]. replace (zlen s =? 0) with false by (unfold zlen; lia).
  destruct (firstn k s) as [|b l] eqn:E.
  { exfalso. pose proof (firstn_length k s) as Hl. rewrite E in Hl. cbn in Hl. lia. }
  rewrite <- E. assert (length (firstn k s) = k) as Hl by (rewrite firstn_length; lia).
  rewrite (firstn_all2 (firstn k s)) by (rewrite Hl; unfold zlen; lia).
  rewrite (skipn_all2 (firstn k s)) by (rewrite Hl; unfold zlen; lia).
  cbn [bind]. rewrite Hl. replace (Z.to_nat (zlen s)) with (length s) by (unfold zlen; lia). reflexivity.
Qed.

(** Truncated fixed-width values are always reported. *)
Definition fixed_width (v : value) : bool :=
  match v with VBool _ | VDec _ | VFloat _ | VDouble _ | VTextHash _ => true | _ => false end.

Lemma read_fixed_short n conv bs : (length bs < n)%nat ->
  exists e, read_fixed n conv (buffer bs) = Ret 0 (Some e) [].
Proof.
  intros H. unfold read_fixed, read_full, buffer. cbn [concat]. rewrite app_nil_r.
  replace (n <=? length bs)%nat with false by (symmetry; apply Nat.leb_gt; lia).
  destruct bs; eauto.
Qed.

Lemma firstn_app_ge {A} k (a b : list A) : (length a <= k)%nat -> firstn k (a ++ b) = a ++ firstn (k - length a) b.
Proof. intros H. rewrite firstn_app, firstn_all2 by assumption. reflexivity. Qed.

Lemma firstn_be_lt n z k : (k < n)%nat -> (length (firstn k (be n z)) < n)%nat.
Proof. intros H. rewrite firstn_length, be_length. lia. Qed.

Lemma decimal_short z k : in_int64 z -> (k < length (enc_decimal z))%nat ->
  exists a e r, read_decimal (buffer (firstn k (enc_decimal z))) = Ret a (Some e) r.
Proof.
  intros Hz Hk. unfold enc_decimal in *.
  destruct k as [|k]. { exists 0, EOF, []. reflexivity. }
  destruct (z =? 0); [cbn in Hk; lia|].
  destruct ((-128 <=? z) && (z <=? 127)); [|destruct ((-32768 <=? z) && (z <=? 32767)); [|destruct ((-2147483648 <=? z) && (z <=? 2147483647))]].
  all: rewrite app_length, be_length in Hk; cbn [length] in Hk.
  all: rewrite firstn_app_ge by (cbn; lia); cbn [length]; rewrite Nat.sub_succ, Nat.sub_0_r.
  all: unfold read_decimal.
  - change [1] with (be 1 1). rewrite (reads_uint8 1 ltac:(unfold is_byte; lia)). cbn [bind Z.eqb Pos.eqb].
    destruct (read_fixed_short 1 int8 (firstn k (be 1 z)) (firstn_be_lt 1 z k ltac:(lia))) as [e E].
    unfold read_int8. rewrite E. eauto.
  - change [2] with (be 1 2). rewrite (reads_uint8 2 ltac:(unfold is_byte; lia)). cbn [bind Z.eqb Pos.eqb].
    destruct (read_fixed_short 2 int16 (firstn k (be 2 z)) (firstn_be_lt 2 z k ltac:(lia))) as [e E].
    unfold read_int16. rewrite E. eauto.
  - change [4] with (be 1 4). rewrite (reads_uint8 4 ltac:(unfold is_byte; lia)). cbn [bind Z.eqb Pos.eqb].
    destruct (read_fixed_short 4 int32 (firstn k (be 4 z)) (firstn_be_lt 4 z k ltac:(lia))) as [e E].
    unfold read_int32. rewrite E. eauto.
  - change [8] with (be 1 8). rewrite (reads_uint8 8 ltac:(unfold is_byte; lia)). cbn [bind Z.eqb Pos.eqb].
    destruct (read_fixed_short 8 int64 (firstn k (be 8 z)) (firstn_be_lt 8 z k ltac:(lia))) as [e E].
    unfold read_int64. rewrite E. eauto.
Qed.

Lemma truncated_fixed v k : go_value v = true -> fixed_width v = true ->
  (0 < k < length (enc_value v))%nat ->
  exists a e r, read_value (buffer (firstn k (enc_value v))) = Ret a (Some e) r.
Proof.
  intros Hg Hf Hk. destruct k as [|k]; [lia|].
  assert (forall ty bs, 0 <= ty <= 80 -> (S k < length (be 1 ty ++ bs))%nat ->
    forall (kont : Z -> option err -> reader -> res value),
    bind (read_int8 (buffer (firstn (S k) (be 1 ty ++ bs)))) kont = kont ty None (buffer (firstn k bs))) as Hty.
  { intros ty bs Hty Hl kont. rewrite firstn_app_ge by (rewrite be_length; lia).
    rewrite be_length, Nat.sub_succ, Nat.sub_0_r.
    rewrite (reads_int8 ty) by (unfold in_int8; lia). reflexivity. }
  unfold read_value.
  destruct v; try discriminate Hf; cbn [enc_value value_type] in *; cbn [read_value_fuel];
    (rewrite Hty; [|unfold BOOLEAN, DECIMAL, FLOAT, DOUBLE, TEXT_HASH; lia|apply Hk]);
    rewrite app_length, be_length in Hk;
    change (uint8 BOOLEAN) with 10; change (uint8 DECIMAL) with 20; change (uint8 FLOAT) with 30;
    change (uint8 DOUBLE) with 40; change (uint8 TEXT_HASH) with 51;
    cbn [NULL BOOLEAN DECIMAL FLOAT DOUBLE TEXT TEXT_HASH BLOB IP4ADDR LIST Z.eqb Pos.eqb].
  - rewrite be_length in Hk. replace k with O by lia. exists (VBool false), EOF, []. reflexivity.
  - destruct (decimal_short z k) as (a & e & r & ->); [cbn [go_value] in Hg; unfold in_int64; lia|lia|]. cbn [bind]. eauto.
  - rewrite be_length in Hk. destruct (read_fixed_short 4 (fun z => z) (firstn k (be 4 bits)) (firstn_be_lt 4 bits k ltac:(lia))) as [e E].
    unfold read_float32. rewrite E. cbn [bind]. eauto.
  - rewrite be_length in Hk. destruct (read_fixed_short 8 (fun z => z) (firstn k (be 8 bits)) (firstn_be_lt 8 bits k ltac:(lia))) as [e E].
    unfold read_float64. rewrite E. cbn [bind]. eauto.
  - rewrite be_length in Hk. destruct (read_fixed_short 4 int32 (firstn k (be 4 z)) (firstn_be_lt 4 z k ltac:(lia))) as [e E].
    unfold read_int32. rewrite E. cbn [bind]. eauto.
Qed.

(* ------------------------------------------------------------------ *)
(** * Iteration order *)

Lemma nodup_perm_fst {A} (m p : list (gostring * A)) : Permutation m p -> NoDup (map fst m) -> NoDup (map fst p).
Proof. intros H. apply Permutation_NoDup, Permutation_map, H. Qed.

Lemma same_list_ind_aux (P : value -> value -> Prop) :
  (forall v, match v with VList _ | VMap _ => False | _ => True end -> P v v) ->
  (forall l l', Forall2 same_value l l' -> Forall2 P l l' -> P (VList l) (VList l')) ->
  (forall m p m', Permutation m p ->
     Forall2 (fun a b => fst a = fst b /\ same_value (snd a) (snd b)) p m' ->
     Forall2 (fun a b => fst a = fst b /\ P (snd a) (snd b)) p m' -> P (VMap m) (VMap m')) ->
  forall v w, same_value v w -> P v w.
Proof.
  intros Hatom Hlist Hmap. fix IH 3. intros v w [v0 Hv0 | l l' Hl | m p m' Hp Hm].
  - apply Hatom; assumption.
  - apply Hlist; [assumption|]. clear Hlist. induction Hl as [|x y l l' Hxy Hl IHl]; constructor; [apply IH; assumption|assumption].
  - apply (Hmap m p m' Hp Hm). clear Hp Hmap. induction Hm as [|x y l l' [Hx Hxy] Hl IHl]; constructor; [split; [assumption|apply IH; assumption]|assumption].
Qed.

Lemma Forall2_len {A B} (R : A -> B -> Prop) l l' : Forall2 R l l' -> length l = length l'.
Proof. induction 1; cbn [length]; congruence. Qed.

Lemma Forall2_zlen {A B} (R : A -> B -> Prop) l l' : Forall2 R l l' -> zlen l = zlen l'.
Proof. intros H. unfold zlen. rewrite (Forall2_len _ _ _ H). reflexivity. Qed.

Lemma same_ok v w : same_value v w ->
  (go_value v = true -> go_value w = true) /\ (agent_readable v = true -> agent_readable w = true).
Proof.
  revert v w. apply same_list_ind_aux.
  - auto.
  - intros l l' Hs HP. cbn [go_value agent_readable]. rewrite <- (Forall2_zlen _ _ _ Hs). split; intros H.
    + apply andb_true_iff in H as [H1 H]. apply andb_true_iff; split; [assumption|].
      clear H1 Hs. induction HP as [|x y l l' [Hx _] HP IH]; [reflexivity|]. cbn [forallb] in *.
      apply andb_true_iff in H as [Ha Hb]. rewrite (Hx Ha). apply IH; assumption.
    + clear Hs. induction HP as [|x y l l' [_ Hx] HP IH]; [reflexivity|]. cbn [forallb] in *.
      apply andb_true_iff in H as [Ha Hb]. rewrite (Hx Ha). apply IH; assumption.
  - intros m p m' Hp Hs HP. cbn [go_value agent_readable].
    assert (zlen m = zlen m') as Hz.
    { unfold zlen. rewrite (Permutation_length Hp), (Forall2_len _ _ _ Hs). reflexivity. }
    assert (map fst p = map fst m') as Hf.
    { clear Hp Hz HP. induction Hs as [|x y l l' [Hx _] HP IH]; [reflexivity|]. cbn [map]. rewrite Hx, IH; reflexivity. }
    assert (forall f : gostring * value -> bool, forallb f m = forallb f p) as Hfa.
    { intros f. destruct (forallb f m) eqn:E1, (forallb f p) eqn:E2; try reflexivity; exfalso.
      - rewrite forallb_forall in E1. assert (forallb f p = true); [|congruence].
        apply forallb_forall. intros x Hx. apply E1. eapply Permutation_in; [symmetry; exact Hp|exact Hx].
      - rewrite forallb_forall in E2. assert (forallb f m = true); [|congruence].
        apply forallb_forall. intros x Hx. apply E2. eapply Permutation_in; [exact Hp|exact Hx]. }
    rewrite <- Hz, !Hfa. split; intros H.
    + apply andb_true_iff in H as [H1 H]. apply andb_true_iff in H1 as [H0 H1].
      apply nodupb_NoDup in H1. apply (nodup_perm_fst _ _ Hp) in H1. rewrite Hf in H1. apply nodupb_NoDup in H1.
      rewrite H0, H1. cbn [andb]. clear - HP H.
      induction HP as [|[k x] [k' y] l l' [Hk [Hx _]] HP IH]; [reflexivity|]. cbn [forallb fst snd] in *. subst k'.
      apply andb_true_iff in H as [Ha Hb]. apply andb_true_iff in Ha as [Hl Ha]. rewrite Hl, (Hx Ha). apply IH; assumption.
    + clear - HP H.
      induction HP as [|[k x] [k' y] l l' [Hk [_ Hx]] HP IH]; [reflexivity|]. cbn [forallb fst snd] in *. subst k'.
      apply andb_true_iff in H as [Ha Hb]. apply andb_true_iff in Ha as [Hl Ha]. rewrite Hl, (Hx Ha). apply IH; assumption.
Qed.

Lemma value_roundtrip_any_order v w rest :
  go_value v = true -> agent_readable v = true -> same_value v w ->
  exists w', read_value (buffer (buf (write_value w new_dout) ++ rest)) = Ret w' None (buffer rest) /\ same_value v w'.
Proof.
  intros Hg Ha Hs. destruct (same_ok _ _ Hs) as [H1 H2]. exists w. split; [|assumption].
  apply value_roundtrip; auto.
Qed.
