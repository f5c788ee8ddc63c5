(** Properties C16 .. C22: hashing, id strings, addresses, durations, patterns. *)
From Verif Require Import GoInt M_Hash S_Hash L_Hash M_Util S_Util L_Util M_StrMatch S_Glob L_StrMatch.
From Coq Require Import ZifyBool.

(** ** C16.  [Some] means that no table access was out of range. *)
Theorem C16_hash_is_crc32 s : Forall is_byte s -> hash_string s = Some (as_int32 (crc32 s)).
Proof. exact (hash_is_crc32 s). Qed.

Theorem C16_index_in_table crc b : 0 <= crc_index crc b < zlen crc_table.
Proof. exact (crc_index_ok crc b). Qed.

(** the check value of the CRC-32 catalogue validates the specification *)
Example C16_case : Forall is_byte (of_string "123456789") /\ crc32 (of_string "123456789") = 3421780262.
Proof. split; [repeat constructor; lia|vm_compute; reflexivity]. Qed.

(** ** C17: false in general, with witnesses; what CRC-32 does guarantee is proved. *)
Theorem C17_distinct_refuted :
  ~ (forall s t, s <> [] -> t <> [] -> Forall is_byte s -> Forall is_byte t -> hash_string s = hash_string t -> s = t).
Proof.
  intros H. specialize (H (of_string "plumless") (of_string "buckeroo")).
  assert (of_string "plumless" = of_string "buckeroo") as E; [|discriminate E].
  apply H; [discriminate|discriminate|repeat constructor; lia|repeat constructor; lia|vm_compute; reflexivity].
Qed.

Theorem C17_nonzero_refuted : ~ (forall s, s <> [] -> Forall is_byte s -> hash_string s <> Some 0).
Proof. intros H. apply (H [157; 10; 217; 109]); [discriminate|repeat constructor; lia|vm_compute; reflexivity]. Qed.

(** texts that differ only within four consecutive bytes never collide *)
Theorem C17_burst_distinct_partial pre a b post :
  Forall is_byte pre -> Forall is_byte a -> Forall is_byte b -> Forall is_byte post ->
  length a = length b -> zlen a <= 4 -> a <> b ->
  hash_string (pre ++ a ++ post) <> hash_string (pre ++ b ++ post).
Proof. exact (burst_distinct pre a b post). Qed.

(** texts of one to three bytes never have the hash 0 *)
Theorem C17_short_nonzero_partial s : Forall is_byte s -> s <> [] -> zlen s <= 3 -> hash_string s <> Some 0.
Proof. exact (short_nonzero s). Qed.

Example C17_case : hash_string (of_string "GET /a?id=1") <> hash_string (of_string "GET /a?id=2").
Proof. vm_compute. discriminate. Qed.

(** ** C18 *)
Theorem C18_string32_decodes num : in_int64 num -> decode_xlog_string32 (int_to_xlog_string32 num) = Some num.
Proof. exact (xlog32_decodes num). Qed.

Theorem C18_string32_injective a b : in_int64 a -> in_int64 b ->
  int_to_xlog_string32 a = int_to_xlog_string32 b -> a = b.
Proof.
  intros Ha Hb E. pose proof (xlog32_decodes a Ha) as H. rewrite E, (xlog32_decodes b Hb) in H. congruence.
Qed.

Example C18_case : in_int64 (-9223372036854775808) /\
  int_to_xlog_string32 (-9223372036854775808) = of_string "z-8000000000000" /\ int_to_xlog_string32 1234567 = of_string "x15lk7".
Proof. split; [unfold in_int64; lia|split; vm_compute; reflexivity]. Qed.

(** ** C19 *)
Theorem C19_dotted_quad ip v1 v2 v3 v4 : dotted_quad ip v1 v2 v3 v4 -> ip_to_bytes ip = [v1; v2; v3; v4].
Proof. exact (ip_quad ip v1 v2 v3 v4). Qed.

Theorem C19_anything_else ip : (forall v1 v2 v3 v4, ~ dotted_quad ip v1 v2 v3 v4) -> ip_to_bytes ip = [0; 0; 0; 0].
Proof. exact (ip_other ip). Qed.

Theorem C19_four_bytes ip : zlen (ip_to_bytes ip) = 4 /\ Forall is_byte (ip_to_bytes ip).
Proof.
  unfold ip_to_bytes. cbv zeta. destruct (zlen (split_byte 46 ip) =? 4) eqn:El; [|split; [reflexivity|repeat constructor; lia]].
  assert (forall parts r, ip_loop parts = Some r -> zlen r = zlen parts /\ Forall is_byte r) as H.
  { induction parts as [|p ps IH]; cbn [ip_loop]; intros r E; [injection E as <-; split; [reflexivity|constructor]|].
    destruct (parse_uint8 p) as [v|] eqn:Ev; [|discriminate]. destruct (ip_loop ps) as [r'|]; [|discriminate]. injection E as <-.
    destruct (IH r' eq_refl) as [E1 E2]. rewrite !zlen_cons, E1. split; [reflexivity|constructor; [|assumption]].
    apply parse_uint8_spec, octet_byte in Ev. unfold is_byte. lia. }
  destruct (ip_loop (split_byte 46 ip)) as [r|] eqn:E; [|split; [reflexivity|repeat constructor; lia]].
  destruct (H _ _ E) as [E1 E2]. split; [lia|assumption].
Qed.

Example C19_case : dotted_quad (of_string "10.0.200.7") 10 0 200 7.
Proof.
  exists (of_string "10"), (of_string "0"), (of_string "200"), (of_string "7"). unfold octet.
  repeat (split; [split; [discriminate|split; [repeat (apply Forall_cons; [cbn; lia|]); apply Forall_nil|split; [reflexivity|lia]]]|]). reflexivity.
Qed.

(** ** C20 *)
Theorem C20_duration seconds : 0 <= seconds ->
  exists d h m s td th tm ts, 0 <= d /\ 0 <= h < 24 /\ 0 <= m < 60 /\ 0 <= s < 60 /\
    seconds = 86400 * d + 3600 * h + 60 * m + s /\
    decimal_text d td /\ decimal_text h th /\ decimal_text m tm /\ decimal_text s ts /\
    get_duration seconds = td ++ of_string "D " ++ th ++ of_string "H " ++ tm ++ of_string "M " ++ ts ++ of_string "S".
Proof. exact (duration_parts seconds). Qed.

(** elapsed milliseconds (truncated) are exact up to 2^31 ms, about 24.8 days *)
Theorem C20_millis_exact from to : - 2147483648 * 1000000 <= to - from < 2147483648 * 1000000 ->
  millis_between from to = Z.quot (to - from) 1000000.
Proof. exact (millis_exact from to). Qed.

Theorem C20_millis_refuted :
  ~ (forall from to, from <= to -> millis_between from to = Z.quot (to - from) 1000000).
Proof. intros H. specialize (H 0 (30 * 86400 * 1000000000) ltac:(lia)). vm_compute in H. discriminate H. Qed.

Example C20_case : get_duration 93784 = of_string "1D 2H 3M 4S" /\ millis_between 5000000 12999999 = 7.
Proof. split; vm_compute; reflexivity. Qed.

(** ** C21 *)
(** single-piece patterns: word, *, **, s*, *s, *s* — exactly glob semantics *)
Theorem C21_single_piece_exact p t : exact_shape p -> t <> [] ->
  (include (new_strmatch p) t = true <-> glob p t).
Proof. exact (exact_match p t). Qed.

(** two-piece patterns s*e, s*m*, *m*e, *m*m2*: whatever glob matches is matched *)
Theorem C21_two_piece_complete_partial p t : two_piece_shape p -> t <> [] ->
  glob p t -> include (new_strmatch p) t = true.
Proof. exact (two_piece_complete p t). Qed.

(** s*e exactly: prefix and suffix, which may overlap; glob also needs room for both *)
Theorem C21_prefix_suffix_exact s e t : no_star s -> no_star e -> s <> [] -> e <> [] -> t <> [] ->
  (include (new_strmatch (s ++ 42 :: e)) t = true <-> (exists x, t = s ++ x) /\ (exists y, t = y ++ e)) /\
  (glob (s ++ 42 :: e) t <-> include (new_strmatch (s ++ 42 :: e)) t = true /\ zlen s + zlen e <= zlen t).
Proof.
  intros Hs He Hn Hne Ht. rewrite both_match by assumption. rewrite andb_true_iff.
  split; [rewrite has_prefix_iff, has_suffix_iff; reflexivity|].
  rewrite glob_both by assumption. unfold zlen. split; [intros (A & B & C)|intros ((A & B) & C)]; repeat split; auto; lia.
Qed.

(** the empty target never matches *)
Theorem C21_empty_target m : include m [] = false.
Proof. reflexivity. Qed.

(** false as listed: overlap, unordered pieces, three pieces *)
Theorem C21_glob_refuted :
  ~ (forall p t, t <> [] -> include (new_strmatch p) t = true -> glob p t) /\
  ~ (forall p t, t <> [] -> glob p t -> include (new_strmatch p) t = true).
Proof.
  split; intros H.
  - specialize (H (of_string "ab*ba") (of_string "aba") ltac:(discriminate) ltac:(reflexivity)).
    apply (glob_both (of_string "ab") (of_string "ba")) in H as (_ & _ & Hl);
      [cbn in Hl; lia|intros Hin; vm_compute in Hin; intuition discriminate..].
  - specialize (H (of_string "a*b*c") (of_string "axbxc") ltac:(discriminate)).
    assert (glob (of_string "a*b*c") (of_string "axbxc")) as G.
    { apply glob_char; [discriminate|]. apply (glob_star [120]). apply glob_char; [discriminate|]. apply (glob_star [120]).
      apply glob_char; [discriminate|]. constructor. }
    specialize (H G). vm_compute in H. discriminate H.
Qed.

Theorem C21_order_refuted :
  exists p t, two_piece_shape p /\ t <> [] /\ include (new_strmatch p) t = true /\ ~ glob p t.
Proof.
  exists (of_string "*one*two*"), (of_string "/two/one"). split; [|split; [discriminate|split; [reflexivity|]]].
  - apply (sh_mid_mid (of_string "one") (of_string "two")); intros Hin; vm_compute in Hin; intuition discriminate.
  - intros G. apply glob_star_iff in G as (r & t & E & G).
    apply (glob_word_app (of_string "one")) in G as (t' & -> & G); [|intros Hin; vm_compute in Hin; intuition discriminate].
    apply glob_star_iff in G as (r2 & t2 & -> & G).
    apply (glob_word_app (of_string "two")) in G as (t3 & -> & G); [|intros Hin; vm_compute in Hin; intuition discriminate].
    assert (length r <= 2)%nat as Hr.
    { pose proof (f_equal (@length Z) E) as El. rewrite !app_length in El. cbn [of_string length] in El. lia. }
    destruct r as [|x [|y [|w r]]]; [| | |cbn [length] in Hr; lia]; cbn in E; repeat (injection E as ? E); discriminate.
Qed.

Example C21_case : exact_shape (of_string "/api/*") /\ include (new_strmatch (of_string "/api/*")) (of_string "/api/v1") = true.
Proof. split; [apply (sh_prefix (of_string "/api/")); intros Hin; vm_compute in Hin; intuition discriminate|reflexivity]. Qed.

(** ** C22: false — a pattern list never matches anything *)
Theorem C22_list_never_matches patterns t : is_match (comma_matcher patterns) t = false.
Proof. exact (comma_never patterns t). Qed.

Theorem C22_list_refuted :
  ~ (forall patterns t, t <> [] ->
       (is_match (comma_matcher patterns) t = true <->
        exists p, In p (split_byte 44 patterns) /\ include (new_strmatch p) t = true)).
Proof.
  intros H. specialize (H (of_string "/a,/b*") (of_string "/a") ltac:(discriminate)). rewrite comma_never in H.
  destruct H as [_ H]. discriminate H. exists (of_string "/a"). split; [left; reflexivity|reflexivity].
Qed.

(** the list itself is split correctly: the pieces between the commas *)
Theorem C22_split_pieces patterns :
  Forall (fun p => ~ In 44 p) (split_byte 44 patterns) /\ join 44 (split_byte 44 patterns) = patterns.
Proof.
  split; [|exact (join_split 44 patterns [])].
  assert (forall s cur, ~ In 44 cur -> Forall (fun p => ~ In 44 p) (split_go 44 cur s)) as H.
  { induction s as [|c s IH]; intros cur Hc; cbn [split_go].
    - constructor; [rewrite <- in_rev; assumption|constructor].
    - destruct (c =? 44) eqn:E; [constructor; [rewrite <- in_rev; assumption|apply IH; intros []]|].
      apply IH. intros [->|Hin]; [discriminate|contradiction]. }
  apply H. intros [].
Qed.

Example C22_case : split_byte 44 (of_string "/a,/b*") = [of_string "/a"; of_string "/b*"].
Proof. reflexivity. Qed.

Print Assumptions C16_hash_is_crc32.
Print Assumptions C16_index_in_table.
Print Assumptions C17_distinct_refuted.
Print Assumptions C17_nonzero_refuted.
Print Assumptions C17_burst_distinct_partial.
Print Assumptions C17_short_nonzero_partial.
Print Assumptions C18_string32_decodes.
Print Assumptions C18_string32_injective.
Print Assumptions C19_dotted_quad.
Print Assumptions C19_anything_else.
Print Assumptions C19_four_bytes.
Print Assumptions C20_duration.
Print Assumptions C20_millis_exact.
Print Assumptions C20_millis_refuted.
Print Assumptions C21_single_piece_exact.
Print Assumptions C21_two_piece_complete_partial.
Print Assumptions C21_prefix_suffix_exact.
Print Assumptions C21_empty_target.
Print Assumptions C21_glob_refuted.
Print Assumptions C21_order_refuted.
Print Assumptions C22_list_never_matches.
Print Assumptions C22_list_refuted.
Print Assumptions C22_split_pieces.
