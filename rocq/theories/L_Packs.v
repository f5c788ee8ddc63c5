(** Proofs about packs and steps. *)
From Verif Require Import GoInt M_OutX M_InX L_Codec M_Value S_Wire S_Value L_Value M_Packs S_Packs M_Steps S_Steps.
From Coq Require Import ZifyBool.
Ltac Zify.zify_post_hook ::= Z.div_mod_to_equations.

Lemma writes_wseq ws bss : Forall2 writes ws bss -> writes (wseq ws) (concat bss).
Proof.
  induction 1 as [|w b ws bss Hw Hs IH]; cbn [concat].
  - exact writes_id.
  - exact (writes_comp _ _ _ _ Hw IH).
Qed.

Lemma is_i8_in z : is_i8 z = true -> in_int8 z. Proof. unfold is_i8, in_int8; lia. Qed.
Lemma is_i32_in z : is_i32 z = true -> in_int32 z. Proof. unfold is_i32, in_int32; lia. Qed.
Lemma is_i64_in z : is_i64 z = true -> in_int64 z. Proof. unfold is_i64, in_int64; lia. Qed.
Lemma is_u8_in z : is_u8 z = true -> is_byte z. Proof. unfold is_u8, is_byte; lia. Qed.
Lemma is_blob_in b : is_blob b = true -> zlen b <= 2147483647. Proof. unfold is_blob; lia. Qed.
Lemma is_i32_64 z : is_i32 z = true -> in_int64 z. Proof. unfold is_i32, in_int64; lia. Qed.

Lemma reads_val v : go_value v = true -> agent_readable v = true -> reads read_value (enc_value v) v.
Proof.
  intros Hg Ha rest. unfold read_value. apply reads_value; try assumption.
  unfold buffer. cbn [concat]. rewrite !app_length. lia.
Qed.

Lemma reads_txt s : readable_text s = true -> reads read_string (enc_string s) s.
Proof. intros H. apply reads_string. unfold readable_text in H. cbn [agent_readable] in H. unfold len_readable in H. unfold string_ok. lia. Qed.

Lemma reads_map_value {A} (k : list (gostring * value) -> option err -> reader -> res A) m bs a :
  is_map m = true -> readable_map m = true -> reads (k m None) bs a ->
  reads (fun r => read_map_value r k) (enc_value (VMap m) ++ bs) a.
Proof.
  intros Hm Hr Hk rest. unfold read_map_value. rewrite <- app_assoc.
  rewrite (reads_val (VMap m) Hm Hr). cbn [bind]. apply Hk.
Qed.

Lemma reads_end {A} (a : A) : reads (fun r => Ret a None r) [] a.
Proof. intros rest; reflexivity. Qed.

Lemma parses_val v : go_value v = true -> parses p_val (enc_value v) (collector_view v).
Proof. intros Hg rest. unfold p_val. apply parses_value; [assumption|]. rewrite app_length. lia. Qed.

Lemma parses_pmap m : is_map m = true -> parses p_map (enc_value (VMap m)) (view_map m).
Proof.
  intros Hm rest. unfold p_map, pbind. rewrite (parses_val (VMap m) Hm rest). reflexivity.
Qed.

Lemma parses_pdec32 z : is_i32 z = true -> parses p_decimal (enc_decimal z) z.
Proof. intros H. apply parses_decimal, is_i32_64, H. Qed.
Lemma parses_pdec z : is_i64 z = true -> parses p_decimal (enc_decimal z) z.
Proof. intros H. apply parses_decimal, is_i64_in, H. Qed.
Lemma parses_pi64 z : is_i64 z = true -> parses p_i64 (be 8 z) z.
Proof. intros H. apply parses_i64, is_i64_in, H. Qed.
Lemma parses_pi32 z : is_i32 z = true -> parses p_i32 (be 4 z) z.
Proof. intros H. apply parses_i32, is_i32_in, H. Qed.
Lemma parses_pi8 z : is_i8 z = true -> parses p_i8 (be 1 z) z.
Proof. intros H. apply parses_i8, is_i8_in, H. Qed.
Lemma parses_pu8 z : is_u8 z = true -> parses p_u8 (be 1 z) z.
Proof. intros H. apply parses_u8, is_u8_in, H. Qed.

Lemma writes_dec32 z : is_i32 z = true -> writes (write_decimal32 z) (enc_decimal z).
Proof. intros H. apply writes_decimal32, is_i32_in, H. Qed.
Lemma writes_dec z : is_i64 z = true -> writes (write_decimal z) (enc_decimal z).
Proof. intros H. apply writes_decimal, is_i64_in, H. Qed.
Lemma writes_map m : is_map m = true -> writes (write_value (VMap m)) (enc_value (VMap m)).
Proof. apply writes_value. Qed.
Lemma reads_dec z : is_i64 z = true -> reads read_decimal (enc_decimal z) z.
Proof. intros H. apply reads_decimal, is_i64_in, H. Qed.
Lemma reads_dec32 z : is_i32 z = true -> reads read_decimal (enc_decimal z) z.
Proof. intros H. apply reads_decimal, is_i32_64, H. Qed.
Lemma reads_i64 z : is_i64 z = true -> reads read_int64 (be 8 z) z.
Proof. intros H. apply reads_int64, is_i64_in, H. Qed.
Lemma reads_i8 z : is_i8 z = true -> reads read_int8 (be 1 z) z.
Proof. intros H. apply reads_int8, is_i8_in, H. Qed.

Ltac split_ands :=
  repeat match goal with H : (_ && _) = true |- _ => apply andb_true_iff in H as [? ?] end.

Ltac wfield := first
  [ solve [apply writes_string] | solve [apply writes_boolean] | solve [apply writes_blob]
  | solve [apply writes_int64] | solve [apply writes_int32] | solve [apply writes_int8] | solve [apply writes_uint8]
  | solve [apply writes_dec32; assumption] | solve [apply writes_dec; assumption] | solve [apply writes_map; assumption] ].
Ltac wfields := repeat (apply Forall2_cons; [wfield|]); apply Forall2_nil.

Ltac pfield := first
  [ solve [apply parses_text] | solve [apply parses_bool] | solve [apply parses_blob, is_blob_in; assumption]
  | solve [apply parses_pi64; assumption] | solve [apply parses_pi32; assumption]
  | solve [apply parses_pi8; assumption] | solve [apply parses_pu8; assumption]
  | solve [apply parses_pdec32; assumption] | solve [apply parses_pdec; assumption] | solve [apply parses_pmap; assumption] ].
Ltac pfields := cbn [concat]; repeat (eapply parses_bind; [pfield|]); apply parses_ret.

(** For each pack there is an encoding that Write produces and the collector parses. *)
Definition decodable {A} (w : dout -> dout) (p : parser A) (a : A) : Prop :=
  exists bs, writes w bs /\ parses p bs a.

Lemma text_decodable p : go_text_pack p = true -> decodable (write_text_pack p) p_text_pack (view_text_pack p).
Proof. intros H. unfold go_text_pack in H. split_ands. eexists; split; [apply writes_wseq; wfields|]. unfold p_text_pack. pfields. Qed.

Lemma alert_decodable p : go_alert_pack p = true -> decodable (write_alert_pack p) p_alert_pack (view_alert_pack p).
Proof. intros H. unfold go_alert_pack in H. split_ands. eexists; split; [apply writes_wseq; wfields|]. unfold p_alert_pack. pfields. Qed.

Lemma perf_decodable p : go_perf_pack p = true -> decodable (write_perf_pack p) p_perf_pack (view_perf_pack p).
Proof. intros H. unfold go_perf_pack in H. split_ands. eexists; split; [apply writes_wseq; wfields|]. unfold p_perf_pack. pfields. Qed.

Lemma k8s_decodable p : go_k8s_pack p = true -> decodable (write_k8s_pack p) p_k8s_pack (view_k8s_pack p).
Proof. intros H. unfold go_k8s_pack in H. split_ands. eexists; split; [apply writes_wseq; wfields|]. unfold p_k8s_pack. pfields. Qed.

Lemma object_decodable p : go_object_pack p = true -> decodable (write_object_pack p) p_object_pack (view_object_pack p).
Proof. intros H. unfold go_object_pack in H. split_ands. eexists; split; [apply writes_wseq; wfields|]. unfold p_object_pack. pfields. Qed.

Lemma object2_decodable p : go_object_pack2 p = true -> decodable (write_object_pack2 p) p_object_pack2 (view_object_pack2 p).
Proof. intros H. unfold go_object_pack2 in H. split_ands. eexists; split; [apply writes_wseq; wfields|]. unfold p_object_pack2. pfields. Qed.

Lemma profile_decodable p : go_profile_pack p = true -> decodable (write_profile_pack p) p_profile_pack (view_profile_pack p).
Proof. intros H. unfold go_profile_pack in H. split_ands. eexists; split; [apply writes_wseq; wfields|]. unfold p_profile_pack. pfields. Qed.

Lemma parses_all {A} (p : parser A) bs a : parses p bs a -> p bs = Some (a, []).
Proof. intros H. specialize (H []). rewrite app_nil_r in H. exact H. Qed.

(** size bounds, to fit the xlog body in a blob *)
Lemma enc_decimal_len z : zlen (enc_decimal z) <= 9.
Proof.
  unfold enc_decimal. destruct (z =? 0); [cbn; lia|].
  repeat match goal with |- context [if ?c then _ else _] => destruct c end;
    rewrite zlen_app, be_zlen, ?zlen_cons, ?zlen_nil; lia.
Qed.
Lemma enc_blob_len b : zlen (enc_blob b) <= 5 + zlen b.
Proof.
  unfold enc_blob. cbv zeta. pose proof (zlen_nonneg b). destruct (zlen b =? 0); [rewrite zlen_cons, zlen_nil; lia|].
  repeat match goal with |- context [if ?c then _ else _] => destruct c end;
    rewrite ?zlen_app, ?be_zlen, ?zlen_cons, ?zlen_nil; lia.
Qed.
Lemma enc_string_len s : zlen (enc_string s) <= 100005.
Proof. rewrite enc_string_wire. pose proof (enc_blob_len (on_wire s)). pose proof (on_wire_len s). lia. Qed.

Lemma concat_len (bss : list bytes) k : 0 <= k -> Forall (fun b => zlen b <= k) bss -> zlen (concat bss) <= k * zlen bss.
Proof.
  intros Hk. induction 1 as [|b l Hb Hl IH]; cbn [concat]; [unfold zlen; cbn [length Z.of_nat]; lia|].
  rewrite zlen_app, zlen_cons. lia.
Qed.

Lemma xlog_decodable p : go_xlog_pack p = true -> decodable (write_xlog_pack p) p_xlog_pack (view_xlog_pack p).
Proof.
  intros H. unfold go_xlog_pack in H. split_ands.
  assert (is_blob (xl_Ipaddr p) = true) by (unfold is_blob; lia).
  assert (exists bss, Forall2 writes [write_decimal (xl_EndTime p); write_decimal32 (xl_ObjHash p)] bss) as _.
  { eexists. wfields. }
  match goal with |- decodable (write_xlog_pack ?p) _ _ => 
    assert (exists bss, buf (xlog_body p) = concat bss /\ zlen bss = 43 /\ Forall (fun b => zlen b <= 1000005) bss
      /\ parses p_xlog_pack_body (concat bss) (view_xlog_pack p)) as (bss & Hb & Hn & Hl & Hp) end.
  { eexists. split; [|split; [|split]].
    - unfold xlog_body. apply (writes_buf (wseq _)). apply writes_wseq. wfields.
    - reflexivity.
    - repeat (apply Forall_cons; [first [rewrite be_zlen; lia
        | match goal with |- zlen (enc_decimal ?z) <= _ => pose proof (enc_decimal_len z); lia end
        | match goal with |- zlen (enc_string ?z) <= _ => pose proof (enc_string_len z); lia end
        | match goal with |- zlen (enc_blob ?z) <= _ => pose proof (enc_blob_len z); lia end]|]); apply Forall_nil.
    - unfold p_xlog_pack_body. pfields. }
  exists (enc_blob (buf (xlog_body p))). split; [apply writes_blob|].
  intros rest. unfold p_xlog_pack, pbind.
  pose proof (concat_len bss 1000005 ltac:(lia) Hl).
  rewrite parses_blob by (rewrite Hb; lia).
  rewrite Hb, (parses_all _ _ _ Hp). reflexivity.
Qed.

Lemma mapfold_writes m : is_map m = true ->
  writes (write_map_pack m) (enc_decimal (zlen m) ++ concat (map (fun kv => enc_string (fst kv) ++ enc_value (snd kv)) m)).
Proof.
  intros H. unfold is_map in H. cbn [go_value] in H. split_ands.
  unfold write_map_pack.
  apply (writes_comp (write_decimal (zlen m)) (fun o => fold_left (fun o kv => write_value (snd kv) (write_string (fst kv) o)) m o)).
  - apply writes_decimal. pose proof (zlen_nonneg m). unfold in_int64; lia.
  - apply (writes_fold (fun kv o => write_value (snd kv) (write_string (fst kv) o)) (fun kv => enc_string (fst kv) ++ enc_value (snd kv))).
    match goal with H : forallb _ m = true |- _ => apply forallb_Forall in H; revert H end.
    apply Forall_impl. intros [k v] Hk. cbn [fst snd] in *. split_ands.
    apply (writes_comp _ _ _ _ (writes_string k)). apply writes_value; assumption.
Qed.

Lemma map_decodable m : is_map m = true -> decodable (write_map_pack m) p_map_pack (view_map m).
Proof.
  intros H. pose proof (mapfold_writes m H) as Hw. eexists; split; [exact Hw|].
  unfold is_map in H. cbn [go_value] in H. split_ands.
  unfold p_map_pack. eapply parses_bind. { apply parses_decimal. pose proof (zlen_nonneg m). unfold in_int64; lia. }
  replace (Z.to_nat (zlen m)) with (length m) by (unfold zlen; lia).
  apply (parses_many _ (fun kv => enc_string (fst kv) ++ enc_value (snd kv)) (fun kv => (on_wire (fst kv), collector_view (snd kv)))).
  match goal with H : forallb _ m = true |- _ => apply forallb_Forall in H; revert H end.
  apply Forall_impl. intros [k v] Hk. cbn [fst snd] in *. split_ands.
  eapply parses_bind; [apply parses_text|]. apply (parses_map _ (fun v => (on_wire k, v))). apply parses_val; assumption.
Qed.

Lemma tag_decodable {A} (w : dout -> dout) (p : parser A) (a : A) (g : A -> pack) ty (k : Z -> parser pack) :
  is_byte ty -> decodable w p a -> (k ty = (x <- p ;; pret (g x))) ->
  decodable (fun o => w (write_uint8 ty o)) (t <- p_u8 ;; k t) (g a).
Proof.
  intros Ht (bs & Hw & Hp) Hk. exists (be 1 ty ++ bs). split.
  - exact (writes_comp _ _ _ _ (writes_uint8 ty) Hw).
  - eapply parses_bind; [apply parses_u8; exact Ht|]. cbn beta. rewrite Hk. exact (parses_map _ g _ _ Hp).
Qed.

Lemma pack_decodable p : go_pack p = true -> decodable (write_pack p) (p_pack (needs_v2 p)) (collector_pack p).
Proof.
  intros H. destruct p as [m|p|p|p|p|p|p|p|p]; cbn [go_pack needs_v2] in *; unfold p_pack, write_pack; cbn [write_pack_body collector_pack].
  - apply (tag_decodable _ p_map_pack (view_map m) PMap 10); [unfold is_byte; lia|apply map_decodable; assumption|reflexivity].
  - apply (tag_decodable _ p_text_pack (view_text_pack p) PText 50); [unfold is_byte; lia|apply text_decodable; assumption|reflexivity].
  - apply (tag_decodable _ p_perf_pack (view_perf_pack p) PPerf 60); [unfold is_byte; lia|apply perf_decodable; assumption|reflexivity].
  - apply (tag_decodable _ p_k8s_pack (view_k8s_pack p) PK8s 65); [unfold is_byte; lia|apply k8s_decodable; assumption|reflexivity].
  - apply (tag_decodable _ p_object_pack (view_object_pack p) PObject 80); [unfold is_byte; lia|apply object_decodable; assumption|reflexivity].
  - apply (tag_decodable _ p_object_pack2 (view_object_pack2 p) PObject2 80); [unfold is_byte; lia|apply object2_decodable; assumption|reflexivity].
  - apply (tag_decodable _ p_alert_pack (view_alert_pack p) PAlert 70); [unfold is_byte; lia|apply alert_decodable; assumption|reflexivity].
  - apply (tag_decodable _ p_xlog_pack (view_xlog_pack p) PXlog 21); [unfold is_byte; lia|apply xlog_decodable; assumption|reflexivity].
  - apply (tag_decodable _ p_profile_pack (view_profile_pack p) PProfile 26); [unfold is_byte; lia|apply profile_decodable; assumption|reflexivity].
Qed.

Lemma pack_collector p rest : go_pack p = true ->
  p_pack (needs_v2 p) (buf (write_pack p new_dout) ++ rest) = Some (collector_pack p, rest).
Proof.
  intros H. destruct (pack_decodable p H) as (bs & Hw & Hp). rewrite (writes_buf _ _ Hw). apply Hp.
Qed.

(* ------------------------------------------------------------------ *)
(** * The agent's own pack readers *)

Ltac rfield := first
  [ solve [apply reads_txt; assumption] | solve [apply reads_boolean] | solve [apply reads_i64; assumption]
  | solve [apply reads_i8; assumption] | solve [apply reads_dec32; assumption] | solve [apply reads_dec; assumption] ].
Ltac rfields := cbn [concat]; repeat (eapply reads_bind; [rfield|]); apply reads_map_value; [assumption|assumption|].

Definition rereadable {A} (w : dout -> dout) (rd : reader -> res A) (a : A) : Prop :=
  exists bs, writes w bs /\ reads rd bs a.

Lemma perf_rereadable p : go_perf_pack p = true -> readable_perf_pack p = true -> rereadable (write_perf_pack p) read_perf_pack p.
Proof.
  intros H Hr. unfold go_perf_pack, readable_perf_pack in *. split_ands. eexists; split; [apply writes_wseq; wfields|].
  unfold read_perf_pack. rfields. destruct p; apply reads_end.
Qed.
Lemma k8s_rereadable p : go_k8s_pack p = true -> readable_k8s_pack p = true -> rereadable (write_k8s_pack p) read_k8s_pack p.
Proof.
  intros H Hr. unfold go_k8s_pack, readable_k8s_pack in *. split_ands. eexists; split; [apply writes_wseq; wfields|].
  unfold read_k8s_pack. rfields. destruct p; apply reads_end.
Qed.
Lemma object_rereadable p : go_object_pack p = true -> readable_object_pack p = true -> rereadable (write_object_pack p) read_object_pack p.
Proof.
  intros H Hr. unfold go_object_pack, readable_object_pack in *. split_ands. eexists; split; [apply writes_wseq; wfields|].
  unfold read_object_pack. rfields. rewrite int32_id by (apply is_i32_in; assumption). destruct p; apply reads_end.
Qed.
Lemma object2_rereadable p : go_object_pack2 p = true -> readable_object_pack2 p = true -> rereadable (write_object_pack2 p) read_object_pack2 p.
Proof.
  intros H Hr. unfold go_object_pack2, readable_object_pack2 in *. split_ands. eexists; split; [apply writes_wseq; wfields|].
  unfold read_object_pack2. rfields. rewrite int32_id by (apply is_i32_in; assumption). destruct p; apply reads_end.
Qed.

Lemma map_rereadable m : is_map m = true -> readable_map m = true -> rereadable (write_map_pack m) read_map_pack m.
Proof.
  intros H Hr. pose proof (mapfold_writes m H) as Hw. eexists; split; [exact Hw|].
  unfold is_map, readable_map in *. cbn [go_value agent_readable] in *. split_ands.
  unfold read_map_pack. eapply reads_bind. { apply reads_decimal. pose proof (zlen_nonneg m). unfold in_int64; lia. }
  replace (Z.to_nat (zlen m)) with (length m) by (unfold zlen; lia).
  assert (fold_left (fun m kv => put (fst kv) (snd kv) m) m [] = m) as Em
    by (rewrite fold_put_nodup; [reflexivity|apply nodupb_NoDup; assumption]).
  match goal with |- reads ?rd ?bs m => cut (reads rd bs (fold_left (fun m kv => put (fst kv) (snd kv) m) m [])); [rewrite Em; auto|] end.
  apply (L_Value.reads_map _ (fun kvs => fold_left (fun m kv => put (fst kv) (snd kv) m) kvs [])).
  apply (reads_times _ (fun kv => enc_string (fst kv) ++ enc_value (snd kv))).
  repeat match goal with H : forallb _ m = true |- _ => apply forallb_Forall in H; revert H end.
  intros Ha Hb. eapply Forall_impl2; [|exact Ha|exact Hb]. intros [k v] Hk Hk'. cbn [fst snd] in *. split_ands.
  eapply reads_bind; [apply reads_string; unfold len_readable in *; unfold string_ok; lia|].
  apply (L_Value.reads_map _ (fun v => (k, v))). apply reads_val; assumption.
Qed.

Lemma rereadable_eq {A} w (rd : reader -> res A) a rest : rereadable w rd a -> rd (buffer (buf (w new_dout) ++ rest)) = Ret a None (buffer rest).
Proof. intros (bs & Hw & Hr). rewrite (writes_buf _ _ Hw). apply Hr. Qed.

(** ReadPack on the readable, creatable pack types *)
Definition repackable (p : pack) : bool :=
  match p with
  | PMap m => readable_map m
  | PPerf p => readable_perf_pack p
  | PObject2 p => readable_object_pack2 p
  | _ => false
  end.

Lemma read_pack_inverts p rest : go_pack p = true -> repackable p = true ->
  read_pack (buffer (buf (write_pack p new_dout) ++ rest)) = Ret (Some p) None (buffer rest).
Proof.
  intros Hg Hr. assert (rereadable (write_pack p) read_pack (Some p)) as H; [|apply (rereadable_eq _ _ _ _ H)].
  destruct p as [m|p|p|p|p|p|p|p|p]; try discriminate Hr; cbn [go_pack repackable] in *; unfold write_pack; cbn [write_pack_body pack_type].
  - destruct (map_rereadable m Hg Hr) as (bs & Hw & Hrd). exists (be 1 10 ++ bs). split; [exact (writes_comp _ _ _ _ (writes_uint8 10) Hw)|].
    unfold read_pack. eapply reads_bind; [apply reads_int8; unfold in_int8; lia|]. intros rest'. cbn beta iota. rewrite Hrd. reflexivity.
  - destruct (perf_rereadable p Hg Hr) as (bs & Hw & Hrd). exists (be 1 60 ++ bs). split; [exact (writes_comp _ _ _ _ (writes_uint8 60) Hw)|].
    unfold read_pack. eapply reads_bind; [apply reads_int8; unfold in_int8; lia|]. intros rest'. cbn beta iota. rewrite Hrd. reflexivity.
  - destruct (object2_rereadable p Hg Hr) as (bs & Hw & Hrd). exists (be 1 80 ++ bs). split; [exact (writes_comp _ _ _ _ (writes_uint8 80) Hw)|].
    unfold read_pack. eapply reads_bind; [apply reads_int8; unfold in_int8; lia|]. intros rest'. cbn beta iota. rewrite Hrd. reflexivity.
Qed.

Lemma read_pack_type ty bs : 0 <= ty <= 80 ->
  (ty = 21 \/ ty = 26 \/ ty = 65) -> read_pack (buffer (be 1 ty ++ bs)) = Panic.
Proof.
  intros Ht H. unfold read_pack. rewrite reads_int8 by (unfold in_int8; lia).
  destruct H as [->|[->| ->]]; reflexivity.
Qed.

(** xlog, profile and k8s packs cannot be created by CreatePack: ReadPack panics on every one of them *)
Lemma read_pack_panics p rest : match p with PXlog _ | PProfile _ | PK8s _ => True | _ => False end ->
  go_pack p = true -> read_pack (buffer (buf (write_pack p new_dout) ++ rest)) = Panic.
Proof.
  intros Hp Hg.
  assert (exists bs, buf (write_pack p new_dout) = be 1 (pack_type p) ++ bs) as [bs ->].
  { assert (exists bs, writes (write_pack_body p) bs) as [bs Hw].
    { destruct p; try contradiction; cbn [go_pack write_pack_body] in *.
      - destruct (k8s_decodable _ Hg) as (bs & Hw & _); eauto.
      - destruct (xlog_decodable _ Hg) as (bs & Hw & _); eauto.
      - destruct (profile_decodable _ Hg) as (bs & Hw & _); eauto. }
    exists bs. exact (writes_buf _ _ (writes_comp _ _ _ _ (writes_uint8 (pack_type p)) Hw)). }
  rewrite <- app_assoc. apply read_pack_type; destruct p; try contradiction; cbn [pack_type]; lia.
Qed.

(** text and alert packs come back empty *)
Lemma read_pack_empty p rest : match p with PText _ | PAlert _ => True | _ => False end -> go_pack p = true ->
  exists rest', read_pack (buffer (buf (write_pack p new_dout) ++ rest))
    = Ret (Some (match p with PText _ => PText new_text_pack | _ => PAlert new_alert_pack end)) None (buffer rest')
    /\ rest' <> rest.
Proof.
  intros Hp Hg.
  assert (exists bs, bs <> [] /\ writes (write_pack_body p) bs) as (bs & Hne & Hw).
  { destruct p; try contradiction; cbn [go_pack write_pack_body] in *.
    - destruct p as [x h t]. eexists; split; cycle 1; [unfold write_text_pack; apply writes_wseq; wfields|].
      cbn [concat tp_Hash]. intro E. apply app_eq_nil in E as [_ E]. apply app_eq_nil in E as [E _].
      pose proof (be_length 4 h) as Hl. rewrite E in Hl. discriminate.
    - unfold go_alert_pack in Hg. split_ands.
      eexists; split; cycle 1; [unfold write_alert_pack; apply writes_wseq; wfields|].
      cbn [concat]. intro E. apply app_eq_nil in E as [E _].
      pose proof (be_length 8 (al_Time p)) as Hl. rewrite E in Hl. discriminate. }
  exists (bs ++ rest). split.
  - replace (buf (write_pack p new_dout)) with (be 1 (pack_type p) ++ bs).
    2:{ symmetry. exact (writes_buf _ _ (writes_comp _ _ _ _ (writes_uint8 (pack_type p)) Hw)). }
    rewrite <- app_assoc. unfold read_pack.
    destruct p; try contradiction; cbn [pack_type]; rewrite reads_int8 by (unfold in_int8; lia); reflexivity.
  - intro E. apply (f_equal (@length Z)) in E. rewrite app_length in E. destruct bs; [congruence|cbn in E; lia].
Qed.

(* ------------------------------------------------------------------ *)
(** * Steps *)

Lemma single_decodable s : go_single s = true -> decodable (write_single s) p_single s.
Proof.
  intros H. unfold go_single in H. split_ands.
  exists (concat [enc_decimal (ss_Parent s); enc_decimal (ss_Index s); enc_decimal (ss_StartTime s); enc_decimal 0]).
  split. { unfold write_single. apply writes_wseq.
    repeat (apply Forall2_cons; [apply writes_dec32; first [assumption|reflexivity]|]). apply Forall2_nil. }
  unfold p_single. cbn [concat]. repeat (eapply parses_bind; [solve [apply parses_pdec32; first [assumption|reflexivity]]|]).
  cbn [Z.eqb]. destruct s; apply parses_ret.
Qed.

Lemma parses_int_array l : forallb is_i32 l = true -> zlen l <= 32767 ->
  parses p_int_array (be 2 (zlen l) ++ concat (map (be 4) l)) l.
Proof.
  intros H Hl. unfold p_int_array. eapply parses_bind. { apply parses_i16. pose proof (zlen_nonneg l). unfold in_int16; lia. }
  replace (Z.to_nat (zlen l)) with (length l) by (unfold zlen; lia).
  rewrite <- (map_id l) at 3. apply (parses_many p_i32 (be 4) (fun z => z)).
  apply forallb_Forall in H. revert H. apply Forall_impl. intros z. apply parses_pi32.
Qed.

(** lookup of the type byte in p_step *)
Ltac step_start := unfold p_step; eapply parses_bind; [apply parses_u8; unfold is_byte; lia|]; cbn [Z.eqb Pos.eqb].

Lemma is_u8_dec z : is_u8 z = true -> is_i32 z = true.
Proof. unfold is_u8, is_i32; lia. Qed.

Lemma step_decodable st : go_step st = true -> is_dump st = false -> decodable (write_step st) p_step (view_step st).
Proof.
  intros H Hd. unfold go_step in H. apply andb_true_iff in H as [Hs H].
  destruct (single_decodable _ Hs) as (sb & Hsw & Hsp).
  destruct st as [s h e c|s t h e c er o a|s stk ti tn ts li ln lo|s h t v|s m|s h e l p|s t h e]; try discriminate Hd;
    cbn [step_single] in *; split_ands.
  - assert (writes (write_step_body (SMethod s h e c)) (concat [sb; enc_decimal h; enc_decimal e; enc_decimal c])) as Hw.
    { cbn [write_step_body]. apply writes_wseq. apply Forall2_cons; [exact Hsw|]. wfields. }
    eexists; split; [exact (writes_comp _ _ _ _ (writes_uint8 1) Hw)|]. step_start.
    cbn [concat]. eapply parses_bind; [exact Hsp|]. pfields.
  - assert (exists bs, writes (write_step_body (SApiCall s t h e c er o a)) bs /\
      bs = concat ([sb; enc_decimal t; enc_decimal h; enc_decimal e; enc_decimal c; enc_decimal er; be 1 o] ++ (if o =? 1 then [enc_string a] else []))) as (bs & Hw & ->).
    { eexists; split; [|reflexivity]. cbn [write_step_body]. apply writes_wseq. cbn [app].
      apply Forall2_cons; [exact Hsw|]. repeat (apply Forall2_cons; [wfield|]).
      destruct (o =? 1); wfields. }
    eexists; split; [exact (writes_comp _ _ _ _ (writes_uint8 6) Hw)|]. step_start.
    cbn [app concat]. eapply parses_bind; [exact Hsp|]. repeat (eapply parses_bind; [pfield|]). cbn beta.
    cbn [view_step]. destruct (o =? 1); pfields.
  - assert (writes (write_step_body (SHashed s h t v)) (concat [sb; enc_decimal h; enc_decimal t; enc_decimal v])) as Hw.
    { cbn [write_step_body]. apply writes_wseq. apply Forall2_cons; [exact Hsw|]. wfields. }
    eexists; split; [exact (writes_comp _ _ _ _ (writes_uint8 9) Hw)|]. step_start.
    cbn [concat]. eapply parses_bind; [exact Hsp|]. pfields.
  - assert (writes (write_step_body (SMessage s m)) (concat [sb; enc_string m])) as Hw.
    { cbn [write_step_body]. apply writes_wseq. apply Forall2_cons; [exact Hsw|]. wfields. }
    eexists; split; [exact (writes_comp _ _ _ _ (writes_uint8 3) Hw)|]. step_start.
    cbn [concat]. eapply parses_bind; [exact Hsp|]. pfields.
  - assert (is_i32 l = true) by (apply is_u8_dec; assumption).
    assert (writes (write_step_body (SPMessage s h e l p)) (concat [sb; enc_decimal h; enc_decimal e; enc_decimal l; enc_string p])) as Hw.
    { cbn [write_step_body]. apply writes_wseq. apply Forall2_cons; [exact Hsw|]. wfields. }
    eexists; split; [exact (writes_comp _ _ _ _ (writes_uint8 17) Hw)|]. step_start.
    cbn [concat]. eapply parses_bind; [exact Hsp|]. pfields.
  - assert (writes (write_step_body (SAsync s t h e)) (concat [sb; enc_decimal t; enc_decimal h; enc_decimal e; be 1 1])) as Hw.
    { cbn [write_step_body]. apply writes_wseq. apply Forall2_cons; [exact Hsw|]. wfields. }
    eexists; split; [exact (writes_comp _ _ _ _ (writes_uint8 14) Hw)|]. step_start.
    cbn [concat]. eapply parses_bind; [exact Hsp|]. repeat (eapply parses_bind; [pfield|]).
    eapply parses_bind; [apply parses_u8; unfold is_byte; lia|]. apply parses_ret.
Qed.

(** the body of a dump step is fine up to 32767 stack entries *)
Lemma dump_body_decodable s stk ti tn ts li ln lo :
  go_step (SDump s stk ti tn ts li ln lo) = true -> zlen stk <= 32767 ->
  decodable (write_step_body (SDump s stk ti tn ts li ln lo)) p_dump_body (view_step (SDump s stk ti tn ts li ln lo)).
Proof.
  intros H Hl. unfold go_step in H. apply andb_true_iff in H as [Hs H].
  destruct (single_decodable _ Hs) as (sb & Hsw & Hsp). cbn [step_single] in *. split_ands.
  exists (concat [sb; be 2 (zlen stk) ++ concat (map (be 4) stk); be 8 ti; enc_string tn; enc_string ts; be 8 li; enc_string ln; enc_string lo]).
  split.
  - cbn [write_step_body]. apply writes_wseq. apply Forall2_cons; [exact Hsw|]. apply Forall2_cons; [apply writes_int32_array|]. wfields.
  - unfold p_dump_body. cbn [concat]. eapply parses_bind; [exact Hsp|].
    eapply parses_bind; [apply parses_int_array; assumption|]. pfields.
Qed.

Definition step_bytes (st : step) : bytes := buf (write_step st new_dout).

Lemma step_writes st : go_step st = true -> writes (write_step st) (step_bytes st).
Proof.
  intros H. unfold step_bytes.
  assert (exists bs, writes (write_step st) bs) as [bs Hw].
  { destruct (is_dump st) eqn:E.
    - destruct st; try discriminate E.
      pose proof H as H'. unfold go_step in H'. apply andb_true_iff in H' as [Hs H']. cbn [step_single] in Hs.
      destruct (single_decodable _ Hs) as (sb & Hsw & _). split_ands.
      assert (exists bs, writes (write_step_body (SDump s Stacks threadId threadName threadState lockOwnerId lockName lockOwnerName)) bs) as [bs Hw].
      { eexists. cbn [write_step_body]. apply writes_wseq. apply Forall2_cons; [exact Hsw|]. apply Forall2_cons; [apply writes_int32_array|]. wfields. }
      eexists. exact (writes_comp _ _ _ _ (writes_uint8 1) Hw).
    - destruct (step_decodable st H E) as (bs & Hw & _). eauto. }
  rewrite (writes_buf _ _ Hw). exact Hw.
Qed.

Lemma step_parses st : go_step st = true -> is_dump st = false -> parses p_step (step_bytes st) (view_step st).
Proof.
  intros H Hd. destruct (step_decodable st H Hd) as (bs & Hw & Hp). unfold step_bytes. rewrite (writes_buf _ _ Hw). exact Hp.
Qed.

Lemma steps_to_bytes_concat l : Forall (fun st => match st with Some st => go_step st = true | None => True end) l ->
  steps_to_bytes l = concat (map step_bytes (present l)).
Proof.
  intros H. unfold steps_to_bytes.
  set (w := fun o : dout => fold_left (fun o st => match st with Some st => write_step st o | None => o end) l o).
  change (buf (w new_dout) = concat (map step_bytes (present l))). apply writes_buf. subst w.
  induction H as [|[st|] l Hst Hl IH]; cbn [fold_left present map concat].
  - exact writes_id.
  - exact (writes_comp _ _ _ _ (step_writes st Hst) IH).
  - exact IH.
Qed.

Lemma step_bytes_pos st : go_step st = true -> (0 < length (step_bytes st))%nat.
Proof.
  intros H. unfold step_bytes, write_step. pose proof (step_writes st H) as Hw.
  assert (length (step_bytes st) = 0 -> False)%nat.
  { intro E. destruct (is_dump st) eqn:Ed.
    - destruct st; try discriminate Ed. unfold step_bytes, write_step in E.
      pose proof H as H'. unfold go_step in H'. apply andb_true_iff in H' as [Hs H']. cbn [step_single] in Hs.
      destruct (single_decodable _ Hs) as (sb & Hsw & _). split_ands.
      assert (exists bs, writes (write_step_body (SDump s Stacks threadId threadName threadState lockOwnerId lockName lockOwnerName)) bs) as [bs Hw'].
      { eexists. cbn [write_step_body]. apply writes_wseq. apply Forall2_cons; [exact Hsw|]. apply Forall2_cons; [apply writes_int32_array|]. wfields. }
      pose proof (writes_buf _ _ (writes_comp _ _ _ _ (writes_uint8 1) Hw')) as Hb. cbn [step_type] in E. rewrite Hb in E. cbn in E. lia.
    - pose proof (step_parses st H Ed []) as Hp. destruct (step_bytes st); [|cbn in E; lia]. discriminate Hp. }
  unfold step_bytes, write_step in *. lia.
Qed.

Lemma p_steps_concat l fuel :
  Forall (fun st => go_step st = true /\ is_dump st = false) l ->
  (length (concat (map step_bytes l)) <= fuel)%nat ->
  p_steps fuel (concat (map step_bytes l)) = Some (map view_step l).
Proof.
  revert fuel; induction l as [|st l IH]; intros fuel H Hf; cbn [map concat].
  - destruct fuel; reflexivity.
  - inversion H as [|? ? [Hg Hd] Hl]; subst. cbn [map concat] in Hf. rewrite app_length in Hf.
    pose proof (step_bytes_pos st Hg). pose proof (step_parses st Hg Hd (concat (map step_bytes l))) as Hp.
    destruct fuel as [|f]; [lia|].
    destruct (step_bytes st ++ concat (map step_bytes l)) as [|b bs] eqn:E.
    { apply (f_equal (@length Z)) in E. rewrite app_length in E. cbn in E. lia. }
    cbn [p_steps]. rewrite Hp. rewrite IH by (try assumption; lia). reflexivity.
Qed.

Lemma profile_decodes l :
  Forall (fun st => match st with Some st => go_step st = true /\ is_dump st = false | None => True end) l ->
  decode_profile (steps_to_bytes l) = Some (map view_step (present l)).
Proof.
  intros H. rewrite steps_to_bytes_concat.
  - apply p_steps_concat; [|lia]. induction H as [|[st|] l Hst Hl IH]; cbn [present]; [constructor|constructor; assumption|assumption].
  - eapply Forall_impl; [|exact H]. intros [st|]; tauto.
Qed.

Lemma steps_to_bytes_app l k :
  Forall (fun st => match st with Some st => go_step st = true | None => True end) (l ++ k) ->
  steps_to_bytes (l ++ k) = steps_to_bytes l ++ steps_to_bytes k.
Proof.
  intros H. rewrite steps_to_bytes_concat by assumption. apply Forall_app in H as [H1 H2].
  rewrite !steps_to_bytes_concat by assumption. rewrite <- concat_app, <- map_app. f_equal. f_equal.
  clear. induction l as [|[st|] l IH]; cbn [app present]; [reflexivity|f_equal; assumption|assumption].
Qed.

(** parameters *)
Lemma split_etx_word cur p rest : ~ In 3 p -> split_etx cur (p ++ 3 :: rest) = (rev cur ++ p) :: split_etx [] rest.
Proof.
  revert cur; induction p as [|b p IH]; intros cur H; cbn [app split_etx].
  - rewrite app_nil_r. reflexivity.
  - destruct (b =? 3) eqn:E; [exfalso; apply H; left; lia|]. rewrite IH by (intro Hin; apply H; right; assumption).
    cbn [rev]. rewrite <- app_assoc. reflexivity.
Qed.

Lemma split_param_string ps : Forall (fun p => ~ In 3 p) ps -> split_etx [] (param_string ps) = ps.
Proof.
  unfold param_string. induction 1 as [|p ps Hp Hps IH]; cbn [map concat]; [reflexivity|].
  rewrite <- app_assoc. cbn [app]. rewrite split_etx_word by assumption. rewrite IH. reflexivity.
Qed.
