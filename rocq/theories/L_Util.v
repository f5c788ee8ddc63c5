From Verif Require Import GoInt M_Util S_Util.
From Coq Require Import ZifyBool.
Ltac Zify.zify_post_hook ::= Z.div_mod_to_equations.

Lemma char_digit_char d : 0 <= d < 36 -> char_digit (digit_char d) = Some d.
Proof.
  intros H. unfold digit_char, char_digit. destruct (d <? 10) eqn:E.
  - replace ((48 <=? 48 + d) && (48 + d <=? 57)) with true by lia. f_equal; lia.
  - replace ((48 <=? 87 + d) && (87 + d <=? 57)) with false by lia.
    replace ((97 <=? 87 + d) && (87 + d <=? 122)) with true by lia. f_equal; lia.
Qed.

Lemma digit_char_range d : 0 <= d < 36 -> 48 <= digit_char d <= 122.
Proof. unfold digit_char. destruct (d <? 10) eqn:E; lia. Qed.

Lemma parse_digits_app base a s1 s2 : parse_digits base a (s1 ++ s2) =
  match parse_digits base a s1 with Some n => parse_digits base n s2 | None => None end.
Proof.
  revert a; induction s1 as [|c s1 IH]; intros a; cbn [app parse_digits]; [reflexivity|].
  destruct (char_digit c) as [d|]; [|reflexivity]. destruct (d <? base); [apply IH|reflexivity].
Qed.

(** [format_fuel] prepends a list of digits that parses to [z] *)
Lemma format_fuel_spec base : 2 <= base <= 36 -> forall fuel z acc, 0 <= z -> z < base ^ Z.of_nat fuel -> (0 < fuel)%nat ->
  exists ds, format_fuel fuel base z acc = ds ++ acc /\ ds <> [] /\ Forall (fun c => 48 <= c <= 122) ds /\
    parse_digits base 0 ds = Some z /\ (forall s', ds = 48 :: s' -> s' = []) /\ (base = 10 -> Forall (fun c => 48 <= c <= 57) ds).
Proof.
  intros Hb. induction fuel as [|f IH]; intros z acc Hz Hlt Hf; [lia|]. cbn [format_fuel].
  assert (0 <= z mod base < base) as Hm by (apply Z.mod_pos_bound; lia).
  destruct (z <? base) eqn:E.
  - exists [digit_char (z mod base)]. rewrite Z.mod_small by lia. cbn [app].
    split; [reflexivity|]. split; [discriminate|]. split; [constructor; [apply digit_char_range; lia|constructor]|].
    split; [cbn [parse_digits]; rewrite char_digit_char by lia; rewrite E; f_equal; lia|].
    split; [intros s' H; injection H as _ <-; reflexivity|].
    intros ->. constructor; [|constructor]. unfold digit_char. rewrite E. lia.
  - assert (f <> 0%nat). { intros ->. change (Z.of_nat 1) with 1 in Hlt. rewrite Z.pow_1_r in Hlt. lia. }
    assert (0 < z / base) as Hq by (apply Z.div_str_pos; lia).
    destruct (IH (z / base) (digit_char (z mod base) :: acc)) as (ds & E1 & Hn & Hr & Hp & H0 & H10); [lia| |lia|].
    { apply Z.div_lt_upper_bound; [lia|]. rewrite <- Z.pow_succ_r by lia. rewrite <- Nat2Z.inj_succ. assumption. }
    exists (ds ++ [digit_char (z mod base)]). rewrite E1, <- app_assoc. split; [reflexivity|].
    split; [destruct ds; discriminate|]. split; [apply Forall_app; split; [assumption|constructor; [apply digit_char_range; lia|constructor]]|].
    split.
    { rewrite parse_digits_app, Hp. cbn [parse_digits]. rewrite char_digit_char by lia.
      replace (z mod base <? base) with true by lia. f_equal. pose proof (Z_div_mod_eq_full z base). lia. }
    split.
    { intros s' Es. destruct ds as [|c ds]; [contradiction|]. cbn [app] in Es. injection Es as -> _.
      specialize (H0 ds eq_refl). subst ds. cbn in Hp. replace (0 <? base) with true in Hp by lia. injection Hp as Hp. lia. }
    { intros ->. apply Forall_app; split; [auto|]. constructor; [|constructor]. unfold digit_char. replace (z mod 10 <? 10) with true by lia. lia. }
Qed.

Lemma format_uint_spec base z : 2 <= base <= 36 -> 0 <= z ->
  format_uint base z <> [] /\ Forall (fun c => 48 <= c <= 122) (format_uint base z) /\
  parse_digits base 0 (format_uint base z) = Some z /\ (forall s', format_uint base z = 48 :: s' -> s' = []) /\
  (base = 10 -> Forall (fun c => 48 <= c <= 57) (format_uint base z)).
Proof.
  intros Hb Hz. unfold format_uint.
  destruct (format_fuel_spec base Hb (S (Z.to_nat (Z.log2 z))) z [] Hz) as (ds & E & H); [|lia|].
  - rewrite Nat2Z.inj_succ, Z2Nat.id by apply Z.log2_nonneg.
    destruct (Z.eq_dec z 0) as [->|]; [cbn; lia|].
    pose proof (Z.log2_spec z ltac:(lia)) as [_ Hl]. eapply Z.lt_le_trans; [exact Hl|].
    apply Z.pow_le_mono_l. pose proof (Z.log2_nonneg z). lia.
  - rewrite app_nil_r in E. rewrite E. exact H.
Qed.

Lemma parse_format_int base z : 2 <= base <= 36 -> parse_number base (format_int base z) = Some z.
Proof.
  intros Hb. unfold format_int. destruct (z <? 0) eqn:E.
  - destruct (format_uint_spec base (- z) Hb ltac:(lia)) as (Hn & _ & Hp & _). cbn [parse_number].
    replace (45 =? 45) with true by reflexivity. destruct (format_uint base (- z)); [contradiction|].
    rewrite Hp. cbn [option_map]. f_equal. lia.
  - destruct (format_uint_spec base z Hb ltac:(lia)) as (Hn & Hr & Hp & _). unfold parse_number.
    destruct (format_uint base z) as [|c s]; [contradiction|]. inversion Hr; subst. replace (c =? 45) with false by lia. exact Hp.
Qed.

Lemma xlog32_decodes num : in_int64 num -> decode_xlog_string32 (int_to_xlog_string32 num) = Some num.
Proof.
  intros H. unfold int_to_xlog_string32. destruct (num <? 0) eqn:E; unfold decode_xlog_string32.
  - replace (122 =? 120) with false by reflexivity. replace (122 =? 122) with true by reflexivity.
    rewrite parse_format_int by lia. cbn [option_map]. f_equal.
    unfold in_int64 in H. destruct (Z.eq_dec num (-9223372036854775808)) as [->|]; [reflexivity|].
    rewrite (int64_id (- num)) by (unfold in_int64; lia). rewrite int64_id by (unfold in_int64; lia). lia.
  - replace (120 =? 120) with true by reflexivity. apply parse_format_int; lia.
Qed.

(** * IpToBytes *)
Lemma split_go_nosep sep s : ~ In sep s -> forall cur, split_go sep cur s = [rev cur ++ s].
Proof.
  induction s as [|c s IH]; intros H cur; cbn [split_go]; [rewrite app_nil_r; reflexivity|].
  destruct (c =? sep) eqn:E; [exfalso; apply H; left; lia|]. rewrite IH by (intro; apply H; right; assumption).
  cbn [rev]. rewrite <- app_assoc. reflexivity.
Qed.
Lemma split_go_sep sep a s : ~ In sep a -> forall cur, split_go sep cur (a ++ sep :: s) = (rev cur ++ a) :: split_go sep [] s.
Proof.
  induction a as [|c a IH]; intros H cur; cbn [app split_go].
  - rewrite Z.eqb_refl, app_nil_r. reflexivity.
  - destruct (c =? sep) eqn:E; [exfalso; apply H; left; lia|]. rewrite IH by (intro; apply H; right; assumption).
    cbn [rev]. rewrite <- app_assoc. reflexivity.
Qed.

(** joining what Split returned *)
Fixpoint join (sep : Z) (l : list gostring) : gostring :=
  match l with [] => [] | [a] => a | a :: l' => a ++ sep :: join sep l' end.
Lemma split_go_nonnil sep cur s : split_go sep cur s <> [].
Proof. revert cur; induction s as [|c s IH]; intros cur; cbn [split_go]; [discriminate|]. destruct (c =? sep); [discriminate|apply IH]. Qed.
Lemma join_split sep s : forall cur, join sep (split_go sep cur s) = rev cur ++ s.
Proof.
  induction s as [|c s IH]; intros cur; cbn [split_go].
  - cbn [join]. rewrite app_nil_r. reflexivity.
  - destruct (c =? sep) eqn:E.
    + cbn [join]. destruct (split_go sep [] s) eqn:Es; [exfalso; eapply split_go_nonnil; exact Es|].
      rewrite <- Es, IH. cbn [rev app]. f_equal. f_equal. lia.
    + rewrite IH. cbn [rev]. rewrite <- app_assoc. reflexivity.
Qed.

Lemma parse_digits_ge base acc s v : 2 <= base -> 0 <= acc -> parse_digits base acc s = Some v -> acc <= v.
Proof.
  intros Hb. revert acc; induction s as [|c s IH]; intros acc Ha; cbn [parse_digits]; [intros [= <-]; lia|].
  destruct (char_digit c) as [d|] eqn:Ed; [|discriminate]. destruct (d <? base) eqn:El; [|discriminate]. intros H.
  assert (0 <= d). { unfold char_digit in Ed. destruct ((48 <=? c) && (c <=? 57)) eqn:E1; [injection Ed as <-; lia|].
    destruct ((97 <=? c) && (c <=? 122)) eqn:E2; [injection Ed as <-; lia|discriminate]. }
  apply IH in H; nia.
Qed.

Lemma parse_uint8_loop_spec s : forall n, 0 <= n <= 255 -> forall v,
  parse_uint8_loop n s = Some v <-> Forall (fun c => 48 <= c <= 57) s /\ parse_digits 10 n s = Some v /\ v <= 255.
Proof.
  induction s as [|c s IH]; intros n Hn v; cbn [parse_uint8_loop parse_digits].
  - split; [intros [= <-]; repeat split; [constructor|lia]|intros (_ & H & _); exact H].
  - unfold char_digit. destruct ((48 <=? c) && (c <=? 57)) eqn:E.
    + replace (c - 48 <? 10) with true by lia. destruct (n * 10 + (c - 48) >? 255) eqn:E2.
      * split; [discriminate|]. intros (_ & H & Hv). apply parse_digits_ge in H; lia.
      * rewrite IH by lia. split; intros (H1 & H2 & H3); repeat split; auto; [constructor; [lia|assumption]|inversion H1; assumption].
    + split; [discriminate|]. intros (H & _). inversion H; subst. lia.
Qed.

Lemma parse_uint8_spec s v : parse_uint8 s = Some v <-> octet s v.
Proof.
  unfold octet, parse_uint8. destruct s as [|c s].
  - split; [discriminate|intros (H & _); congruence].
  - rewrite parse_uint8_loop_spec by lia. split; [intros (A & B & C); repeat split; auto; discriminate|tauto].
Qed.

Lemma octet_nodot s v : octet s v -> ~ In 46 s.
Proof. intros (_ & H & _) Hin. rewrite Forall_forall in H. specialize (H _ Hin). cbn in H. lia. Qed.
Lemma octet_byte s v : octet s v -> 0 <= v <= 255.
Proof. intros (_ & _ & H & Hv). apply parse_digits_ge in H; lia. Qed.

Lemma ip_quad ip v1 v2 v3 v4 : dotted_quad ip v1 v2 v3 v4 -> ip_to_bytes ip = [v1; v2; v3; v4].
Proof.
  intros (a & b & c & d & Ha & Hb & Hc & Hd & ->). unfold ip_to_bytes, split_byte. cbn [app].
  rewrite !split_go_sep by (eapply octet_nodot; eassumption). rewrite split_go_nosep by (eapply octet_nodot; eassumption).
  cbn [rev app]. change (zlen [a; b; c; d] =? 4) with true. cbn [ip_loop].
  rewrite (proj2 (parse_uint8_spec _ _) Ha), (proj2 (parse_uint8_spec _ _) Hb), (proj2 (parse_uint8_spec _ _) Hc), (proj2 (parse_uint8_spec _ _) Hd).
  reflexivity.
Qed.

Lemma ip_other ip : (forall v1 v2 v3 v4, ~ dotted_quad ip v1 v2 v3 v4) -> ip_to_bytes ip = [0; 0; 0; 0].
Proof.
  intros H. unfold ip_to_bytes. cbv zeta. destruct (zlen (split_byte 46 ip) =? 4) eqn:El; [|reflexivity].
  assert (exists a b c d, split_byte 46 ip = [a; b; c; d]) as (a & b & c & d & E).
  { unfold zlen in El. destruct (split_byte 46 ip) as [|a [|b [|c [|d [|]]]]]; cbn [length] in El; try lia. eauto. }
  rewrite E. cbn [ip_loop].
  destruct (parse_uint8 a) as [va|] eqn:Ea; [|reflexivity]. destruct (parse_uint8 b) as [vb|] eqn:Eb; [|reflexivity].
  destruct (parse_uint8 c) as [vc|] eqn:Ec; [|reflexivity]. destruct (parse_uint8 d) as [vd|] eqn:Ed; [|reflexivity].
  exfalso. apply (H va vb vc vd). exists a, b, c, d. rewrite !parse_uint8_spec in *. repeat (split; [assumption|]).
  unfold split_byte in E. pose proof (join_split 46 ip []) as J. rewrite E in J. cbn [join rev app] in J. cbn [app]. congruence.
Qed.

(** * Durations *)
Lemma format10 n : 0 <= n -> decimal_text n (format_int 10 n).
Proof.
  intros H. unfold format_int. replace (n <? 0) with false by lia.
  destruct (format_uint_spec 10 n ltac:(lia) H) as (A & _ & B & C & _). repeat split; auto.
Qed.

Lemma duration_parts seconds : 0 <= seconds ->
  exists d h m s td th tm ts, 0 <= d /\ 0 <= h < 24 /\ 0 <= m < 60 /\ 0 <= s < 60 /\
    seconds = 86400 * d + 3600 * h + 60 * m + s /\
    decimal_text d td /\ decimal_text h th /\ decimal_text m tm /\ decimal_text s ts /\
    get_duration seconds = td ++ of_string "D " ++ th ++ of_string "H " ++ tm ++ of_string "M " ++ ts ++ of_string "S".
Proof.
  intros H. unfold get_duration. cbv zeta.
  set (d := Z.quot seconds 86400). assert (d = seconds / 86400) as Ed by (apply Z.quot_div_nonneg; lia).
  set (r1 := seconds - d * 86400). assert (0 <= r1 < 86400) as H1 by (subst r1; lia).
  set (h := Z.quot r1 3600). assert (h = r1 / 3600) as Eh by (apply Z.quot_div_nonneg; lia).
  set (r2 := r1 - h * 3600). assert (0 <= r2 < 3600) as H2 by (subst r2; lia).
  set (m := Z.quot r2 60). assert (m = r2 / 60) as Em by (apply Z.quot_div_nonneg; lia).
  set (s := r2 - m * 60).
  assert (0 <= d) by (rewrite Ed; apply Z.div_pos; lia).
  assert (0 <= h < 24) by (rewrite Eh; lia). assert (0 <= m < 60) by (rewrite Em; lia). assert (0 <= s < 60) by (subst s; lia).
  exists d, h, m, s, (format_int 10 d), (format_int 10 h), (format_int 10 m), (format_int 10 s).
  repeat (split; [first [assumption | lia | apply format10; lia]|]). reflexivity.
Qed.

Lemma millis_exact from to : - 2147483648 * 1000000 <= to - from < 2147483648 * 1000000 ->
  millis_between from to = Z.quot (to - from) 1000000.
Proof.
  intros H. unfold millis_between, time_sub. cbv zeta.
  replace (to - from <? -9223372036854775808) with false by lia. replace (to - from >? 9223372036854775807) with false by lia.
  apply int32_id. unfold in_int32.
  destruct (Z.le_gt_cases 0 (to - from)).
  - rewrite Z.quot_div_nonneg by lia. lia.
  - assert (to - from = - (- (to - from))) as -> by lia. rewrite Z.quot_opp_l by lia. rewrite Z.quot_div_nonneg by lia. lia.
Qed.
