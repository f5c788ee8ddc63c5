From Verif Require Import GoInt M_OutX L_Codec M_Value S_Wire S_Value L_Value M_Packs L_Packs M_Udp S_Udp.
From Coq Require Import ZifyBool.

Lemma mtu_bytes pk total num data :
  mtu_datagram pk total num data =
  CAFE_MTU ++ be 4 0 ++ be 8 pk ++ be 2 (int16 total) ++ be 2 (int16 num) ++ enc_blob data.
Proof.
  unfold mtu_datagram. erewrite writes_buf; [|apply writes_wseq; repeat (apply Forall2_cons; [first [apply writes_raw|apply writes_int32|apply writes_int64|apply writes_int16|apply writes_blob]|]); apply Forall2_nil].
  cbn [concat]. rewrite app_nil_r. reflexivity.
Qed.

Lemma mtu_parse pk total num data : in_int64 pk -> zlen data <= 2147483647 ->
  as_fragment (mtu_datagram pk total num data) = Some (mkFragment pk (int16 total) (int16 num) data).
Proof.
  intros Hp Hd. unfold as_fragment. rewrite mtu_bytes.
  assert (parses p_fragment (CAFE_MTU ++ be 4 0 ++ be 8 pk ++ be 2 (int16 total) ++ be 2 (int16 num) ++ enc_blob data)
            (mkFragment pk (int16 total) (int16 num) data)) as H.
  { unfold p_fragment. apply parses_bind with (a := CAFE_MTU); [exact (parses_take CAFE_MTU)|].
    replace (negb (beqb CAFE_MTU (of_string "CAFM"))) with false by reflexivity.
    apply parses_bind with (a := 0); [apply parses_i32; unfold in_int32; lia|].
    apply parses_bind with (a := pk); [apply parses_i64; assumption|].
    apply parses_bind with (a := int16 total); [apply parses_i16, int16_range|].
    apply parses_bind with (a := int16 num); [apply parses_i16, int16_range|].
    apply (parses_map p_blob (fun d => mkFragment pk (int16 total) (int16 num) d)). apply parses_blob; assumption. }
  rewrite (parses_all _ _ _ H). reflexivity.
Qed.

(** the [i]-th chunk of [data] *)
Definition chunk (data : bytes) (ps : Z) (i : nat) : bytes := firstn (Z.to_nat ps) (skipn (i * Z.to_nat ps) data).
Definition n_frags (len ps : Z) : Z := if 0 <? len mod ps then len / ps + 1 else len / ps.

Lemma mtu_loop_map pk total data ps n : 0 < ps -> forall k,
  mtu_loop pk total data ps (Z.of_nat k) n = map (fun i => mtu_datagram pk total (Z.of_nat i) (chunk data ps i)) (seq k n).
Proof.
  intros Hp. induction n as [|n IH]; intros k; cbn [mtu_loop seq map]; [reflexivity|].
  f_equal; [|rewrite <- IH; f_equal; lia]. unfold chunk, copy_array. f_equal. f_equal. f_equal. rewrite Z2Nat.inj_mul, Nat2Z.id by lia. reflexivity.
Qed.

Lemma write_mtu_map pk data ps : 0 < ps ->
  write_mtu pk data ps = Some (map (fun i => mtu_datagram pk (n_frags (zlen data) ps) (Z.of_nat i) (chunk data ps i))
                                   (seq 0 (Z.to_nat (n_frags (zlen data) ps)))).
Proof.
  intros Hp. pose proof (zlen_nonneg data) as Hn. unfold write_mtu. replace (ps =? 0) with false by lia.
  rewrite Z.quot_div_nonneg, Z.rem_mod_nonneg by lia. f_equal.
  assert (0 <= zlen data / ps) as Hq by (apply Z.div_pos; lia). pose proof (Z.mod_pos_bound (zlen data) ps Hp) as Hr.
  pose proof (Z.div_mod (zlen data) ps ltac:(lia)) as Hdm.
  change 0 with (Z.of_nat 0) at 2. rewrite mtu_loop_map by assumption. unfold n_frags.
  destruct (0 <? zlen data mod ps) eqn:E; [|apply app_nil_r].
  replace (Z.to_nat (zlen data / ps + 1)) with (S (Z.to_nat (zlen data / ps))) by lia.
  rewrite seq_S, map_app. cbn [map]. f_equal. f_equal. cbn [Nat.add]. rewrite Z.max_r by assumption.
  rewrite Z2Nat.id by assumption. f_equal. unfold chunk, copy_array.
  replace (Z.to_nat (zlen data - zlen data mod ps)) with (Z.to_nat (zlen data / ps) * Z.to_nat ps)%nat by (rewrite <- Z2Nat.inj_mul by lia; f_equal; lia).
  assert (0 <= ps * (zlen data / ps)) as Hpq by (apply Z.mul_nonneg_nonneg; lia).
  assert (length (skipn (Z.to_nat (zlen data / ps) * Z.to_nat ps) data) = Z.to_nat (zlen data mod ps)) as Hs.
  { rewrite skipn_length, <- Z2Nat.inj_mul, (Z.mul_comm (zlen data / ps)) by lia. unfold zlen in *. lia. }
  rewrite !firstn_all2 by lia. reflexivity.
Qed.

Lemma n_frags_bounds len ps : 0 < ps -> 0 <= len -> (n_frags len ps - 1) * ps < len + (if len =? 0 then 1 else 0) /\ len <= n_frags len ps * ps /\ 0 <= n_frags len ps.
Proof.
  intros Hp Hl. unfold n_frags. pose proof (Z.mod_pos_bound len ps Hp) as Hr. pose proof (Z.div_mod len ps ltac:(lia)) as Hdm.
  assert (0 <= len / ps) as Hq by (apply Z.div_pos; lia).
  set (q := len / ps) in *. set (r := len mod ps) in *. clearbody q r.
  destruct (0 <? r) eqn:E.
  - split; [|split]; [destruct (len =? 0)| |lia]; nia.
  - split; [|split]; [destruct (len =? 0) eqn:E0|nia|lia]; nia.
Qed.

Lemma skipn_skipn' {A} a b (l : list A) : skipn a (skipn b l) = skipn (a + b) l.
Proof. revert l; induction b as [|b IH]; intros l; [rewrite Nat.add_0_r; reflexivity|]. rewrite Nat.add_succ_r. destruct l; [rewrite !skipn_nil; reflexivity|]. cbn [skipn]. apply IH. Qed.

Lemma chunks_concat data ps n : 0 < ps -> forall k,
  concat (map (chunk data ps) (seq k n)) = firstn (n * Z.to_nat ps) (skipn (k * Z.to_nat ps) data).
Proof.
  intros Hp. induction n as [|n IH]; intros k; cbn [seq map concat]; [reflexivity|].
  rewrite IH. unfold chunk at 1. set (p := Z.to_nat ps). change (S n * p)%nat with (p + n * p)%nat.
  rewrite <- (firstn_skipn p (skipn (k * p) data)) at 2.
  rewrite firstn_app, firstn_firstn. replace (Nat.min (p + n * p) p) with p by lia. f_equal.
  rewrite skipn_skipn'. replace (p + k * p)%nat with (S k * p)%nat by lia. 
  destruct (Nat.le_gt_cases p (length (skipn (k * p) data))) as [Hle|Hgt].
  - rewrite firstn_length. replace (p + n * p - Nat.min p (length (skipn (k * p) data)))%nat with (n * p)%nat by lia. reflexivity.
  - rewrite skipn_length in Hgt. assert (skipn (S k * p) data = []) as -> by (apply skipn_all2; lia). rewrite !firstn_nil. reflexivity.
Qed.

Lemma chunk_len data ps i : 0 < ps -> zlen (chunk data ps i) <= ps.
Proof. intros H. unfold chunk, zlen. rewrite firstn_length. lia. Qed.

Lemma piece_found pk i F received :
  (exists d, In d received /\ as_fragment d = Some F) -> f_pkid F = pk -> f_num F = i ->
  (forall d f, In d received -> as_fragment d = Some f -> f_pkid f = pk -> f_num f = i -> f = F) ->
  piece pk i received = Some F.
Proof.
  intros Hex Hp Hn Hu. induction received as [|d ds IH]; [destruct Hex as (? & [] & _)|]. cbn [piece].
  destruct (as_fragment d) as [f|] eqn:E.
  - destruct ((f_pkid f =? pk) && (f_num f =? i)) eqn:Em.
    + f_equal. apply (Hu d); [left; reflexivity|assumption|lia|lia].
    + apply IH; [|intros d' f' Hi; apply Hu; right; assumption].
      destruct Hex as (d' & [<-|Hi] & Hd); [|exists d'; split; assumption]. rewrite E in Hd. injection Hd as ->. lia.
  - apply IH; [|intros d' f' Hi; apply Hu; right; assumption].
    destruct Hex as (d' & [<-|Hi] & Hd); [congruence|exists d'; split; assumption].
Qed.

Lemma mtu_carries_pk pk data ps : in_int64 pk -> 0 < ps <= 2147483647 -> data <> [] -> n_frags (zlen data) ps <= 32767 ->
  exists fs, write_mtu pk data ps = Some fs /\ zlen fs = n_frags (zlen data) ps /\
    forall received, incl fs received ->
    (forall d f, In d received -> as_fragment d = Some f -> f_pkid f = pk -> In d fs) ->
    reassemble pk received = Some data.
Proof.
  intros Hpk Hps Hne Hn. eexists. split; [apply write_mtu_map; lia|].
  pose proof (zlen_nonneg data) as Hz. pose proof (n_frags_bounds (zlen data) ps ltac:(lia) Hz) as (B1 & B2 & B3).
  set (N := n_frags (zlen data) ps) in *. split; [unfold zlen; rewrite map_length, seq_length; lia|].
  intros received Hincl Hown.
  set (F := fun i : nat => mkFragment pk N (Z.of_nat i) (chunk data ps i)).
  assert (forall i, (i < Z.to_nat N)%nat -> as_fragment (mtu_datagram pk N (Z.of_nat i) (chunk data ps i)) = Some (F i)) as Hparse.
  { intros i Hi. rewrite mtu_parse; [|assumption|pose proof (chunk_len data ps i ltac:(lia)); lia].
    rewrite !int16_id by (unfold in_int16; lia). reflexivity. }
  assert (forall i, (i < Z.to_nat N)%nat -> piece pk (Z.of_nat i) received = Some (F i)) as Hpiece.
  { intros i Hi. apply piece_found; try reflexivity.
    - exists (mtu_datagram pk N (Z.of_nat i) (chunk data ps i)). split; [|apply Hparse; assumption].
      apply Hincl. apply in_map_iff. exists i. split; [reflexivity|apply in_seq; lia].
    - intros d f Hin Hd Hp Hf. pose proof (Hown d f Hin Hd Hp) as Hfs. apply in_map_iff in Hfs as (j & <- & Hj).
      apply in_seq in Hj. rewrite Hparse in Hd by lia. injection Hd as <-. cbn [F f_num] in Hf.
      assert (j = i) by lia. subst j. reflexivity. }
  assert (0 < N) as HN. { destruct data; [congruence|]. rewrite zlen_cons in *. pose proof (zlen_nonneg data). nia. }
  unfold reassemble. change 0 with (Z.of_nat 0). rewrite Hpiece by lia. cbn [F f_total]. replace (Z.of_nat 0 <? N) with true by lia.
  assert (forall n k, (k + n <= Z.to_nat N)%nat -> pieces pk (Z.of_nat k) n received = Some (concat (map (chunk data ps) (seq k n)))) as Hall.
  { induction n as [|n IH]; intros k Hk; cbn [pieces seq map concat]; [reflexivity|].
    rewrite Hpiece by lia. replace (Z.of_nat k + 1) with (Z.of_nat (S k)) by lia. rewrite IH by lia. reflexivity. }
  rewrite Hall by lia. rewrite chunks_concat by lia. cbn [Nat.mul skipn]. rewrite firstn_all2; [reflexivity|].
  unfold zlen in *. nia.
Qed.

Lemma mtu_size pk data ps fs : 0 < ps -> write_mtu pk data ps = Some fs -> Forall (fun d => zlen d <= ps + 25) fs.
Proof.
  intros Hp H. rewrite write_mtu_map in H by assumption. injection H as <-. apply Forall_map, Forall_forall. intros i _.
  rewrite mtu_bytes, !zlen_app. pose proof (enc_blob_len (chunk data ps i)). pose proof (chunk_len data ps i Hp).
  rewrite !be_zlen. change (zlen CAFE_MTU) with 4. lia.
Qed.

(* ------------------------------------------------------------------ *)
(** * WriteBufferList *)
Lemma write_raw_buf b o : buf (write_raw b o) = buf o ++ b. Proof. reflexivity. Qed.
Lemma write_raw_size b o : written o = zlen (buf o) -> zlen (buf o) + zlen b <= 2147483647 -> written (write_raw b o) = zlen (buf o ++ b).
Proof.
  intros H Hl. unfold write_raw, emit. cbn [written]. rewrite int32_plus_r, H, zlen_app, int32_id; [reflexivity|].
  pose proof (zlen_nonneg b). pose proof (zlen_nonneg (buf o)). unfold in_int32. lia.
Qed.
Lemma list_datagram_bytes c data : list_datagram c data = CAFE_N ++ be 2 c ++ data.
Proof.
  unfold list_datagram. erewrite writes_buf; [|apply writes_wseq; repeat (apply Forall2_cons; [first [apply writes_raw|apply writes_int16]|]); apply Forall2_nil].
  cbn [concat]. rewrite app_nil_r. reflexivity.
Qed.
Lemma single_bytes b : buf (write_raw b (write_raw CAFE new_dout)) = CAFE ++ b.
Proof. reflexivity. Qed.

(** what WriteBufferList puts on the wire: batches and fragmented buffers *)
Inductive item := Batch (g : list bytes) | Frags (fs : list bytes) (b : bytes).
Definition item_wire (it : item) : list bytes :=
  match it with
  | Batch g => [CAFE_N ++ be 2 (zlen g) ++ concat g]
  | Frags fs _ => fs
  end.
Definition item_bufs (it : item) : list bytes := match it with Batch g => g | Frags _ b => [b] end.
Definition item_small (it : item) : list bytes := match it with Batch g => g | Frags _ b => [] end.
Definition item_big (it : item) : list bytes := match it with Batch g => [] | Frags _ b => [b] end.
Definition item_ok (max : Z) (it : item) : Prop :=
  match it with
  | Batch g => g <> [] /\ zlen (concat g) <= max /\ Forall (fun b => zlen b <= max) g
  | Frags fs b => max < zlen b /\ exists pk, in_int64 pk /\ write_mtu pk b max = Some fs
  end.

Definition small max (b : bytes) : bool := zlen b <=? max.

Lemma concat_snoc {A} (l : list (list A)) x : concat (l ++ [x]) = concat l ++ x.
Proof. rewrite concat_app. cbn [concat]. rewrite app_nil_r. reflexivity. Qed.

Lemma buffer_loop_items max bs : 0 < max <= 2147483647 -> Forall (fun b => b <> []) bs ->
  forall pkids out g, (forall n, in_int64 (pkids n)) -> buf out = concat g -> written out = zlen (buf out) -> zlen (buf out) <= max ->
    Forall (fun b => zlen b <= max) g -> Forall (fun b => b <> []) g -> zlen g + zlen bs <= 32767 ->
  exists ds o c g' items, buffer_loop max pkids bs out (zlen g) = Some (ds, o, c) /\
    ds = flat_map item_wire items /\ Forall (item_ok max) items /\
    c = zlen g' /\ buf o = concat g' /\ written o = zlen (buf o) /\ zlen (buf o) <= max /\ Forall (fun b => b <> []) g' /\
    Forall (fun b => zlen b <= max) g' /\ zlen g' <= zlen g + zlen bs /\
    flat_map item_small items ++ g' = g ++ filter (small max) bs /\
    flat_map item_big items = filter (fun b => negb (small max b)) bs /\ Forall (fun it => zlen (item_bufs it) <= 32767) items.
Proof.
  intros Hm. induction bs as [|b bs IH]; intros Hne pkids out g Hpk Hb Hw Hmax Hsm Hgne Hlen; cbn [buffer_loop filter].
  - exists [], out, (zlen g), g, []. rewrite app_nil_r. cbn [flat_map app]. change (zlen []) with 0. repeat (split; [first [reflexivity|assumption|lia|constructor]|]). constructor.
  - inversion Hne as [|? ? Hb0 Hne']; subst. rewrite zlen_cons in Hlen. pose proof (zlen_nonneg bs) as Hbs. pose proof (zlen_nonneg g) as Hgz. assert (small max b = negb (max <? zlen b)) as Esm by (unfold small; lia). rewrite Esm.
    destruct (max <? zlen b) eqn:E1.
    + cbn [negb].
      rewrite write_mtu_map by lia.
      destruct (IH Hne' (fun n => pkids (S n)) out g (fun n => Hpk (S n)) Hb Hw Hmax Hsm Hgne ltac:(lia)) as (ds & o & c & g' & items & -> & Hds & Hit & H1 & H2 & H3 & H4 & H5 & H6 & H7 & H8 & H9 & H10).
      set (fs := map _ _). exists (fs ++ ds), o, c, g', (Frags fs b :: items). split; [reflexivity|].
      split; [cbn [flat_map item_wire]; rewrite Hds; reflexivity|].
      split; [apply Forall_cons; [split; [lia|]; exists (pkids O); split; [apply Hpk|apply write_mtu_map; lia]|assumption]|].
      rewrite zlen_cons. split; [assumption|]. split; [assumption|]. split; [assumption|]. split; [assumption|]. split; [assumption|]. split; [assumption|]. split; [lia|].
      split; [exact H8|]. split; [cbn [flat_map item_big app]; rewrite H9; reflexivity|]. apply Forall_cons; [cbn; unfold zlen; cbn; lia|assumption].
    + cbn [negb]. unfold get_write_size. rewrite Hw.
      destruct (max <? zlen b + zlen (buf out)) eqn:E2.
      * assert (g <> []) as Hgn. { intros ->. rewrite Hb in E2. cbn [concat] in E2. change (zlen []) with 0 in E2. lia. }
        destruct (IH Hne' pkids (write_raw b new_dout) [b] Hpk) as (ds & o & c & g' & items & E & Hds & Hit & H1 & H2 & H3 & H4 & H5 & H6 & H7 & H8 & H9 & H10).
        { rewrite write_raw_buf. cbn [new_dout buf concat app]. rewrite app_nil_r. reflexivity. }
        { rewrite write_raw_buf. apply write_raw_size; [reflexivity|]. cbn [new_dout buf]. change (zlen []) with 0. lia. }
        { rewrite write_raw_buf. cbn [new_dout buf app]. lia. }
        { apply Forall_cons; [lia|constructor]. }
        { apply Forall_cons; [assumption|constructor]. }
        { rewrite zlen_cons. change (zlen []) with 0. destruct g; [congruence|]. rewrite zlen_cons in Hlen. pose proof (zlen_nonneg g). lia. }
        change (zlen [b]) with 1 in E. rewrite E. eexists. exists o, c, g', (Batch g :: items). split; [reflexivity|].
        split; [cbn [flat_map item_wire app]; rewrite list_datagram_bytes, Hb, Hds; reflexivity|].
        split; [apply Forall_cons; [split; [assumption|split; [rewrite <- Hb; assumption|assumption]]|assumption]|].
        change (zlen [b]) with 1 in H7. rewrite (zlen_cons b bs).
        assert (1 <= zlen g) as Hg1 by (destruct g as [|b0 g0]; [congruence|]; rewrite zlen_cons; pose proof (zlen_nonneg g0); lia).
        split; [assumption|]. split; [assumption|]. split; [assumption|]. split; [assumption|]. split; [assumption|]. split; [assumption|].
        split; [lia|].
        split; [cbn [flat_map item_small]; rewrite <- app_assoc, H8; reflexivity|]. split; [exact H9|]. apply Forall_cons; [cbn [item_bufs]; lia|assumption].
      * replace (int16 (zlen g + 1)) with (zlen (g ++ [b])).
        2: { rewrite zlen_app. change (zlen [b]) with 1. rewrite int16_id; [reflexivity|]. unfold in_int16. lia. }
        destruct (IH Hne' pkids (write_raw b out) (g ++ [b]) Hpk) as (ds & o & c & g' & items & E & Hds & Hit & H1 & H2 & H3 & H4 & H5 & H6 & H7 & H8 & H9 & H10).
        { rewrite write_raw_buf, concat_snoc, Hb. reflexivity. }
        { rewrite write_raw_buf. apply write_raw_size; [assumption|]. lia. }
        { rewrite write_raw_buf, zlen_app. lia. }
        { apply Forall_app. split; [assumption|apply Forall_cons; [lia|constructor]]. }
        { apply Forall_app. split; [assumption|apply Forall_cons; [assumption|constructor]]. }
        { rewrite zlen_app. change (zlen [b]) with 1. lia. }
        exists ds, o, c, g', items. split; [exact E|]. split; [assumption|]. split; [assumption|].
        rewrite zlen_app in H7. change (zlen [b]) with 1 in H7. rewrite zlen_cons.
        split; [assumption|]. split; [assumption|]. split; [assumption|]. split; [assumption|]. split; [assumption|]. split; [assumption|].
        split; [lia|]. split; [rewrite H8, <- app_assoc; reflexivity|]. split; assumption.
Qed.

Lemma write_buffer_list_items max pkids bs : 0 < max <= 2147483647 -> (forall n, in_int64 (pkids n)) -> Forall (fun b => b <> []) bs -> zlen bs <= 32767 ->
  exists items, write_buffer_list max pkids bs = Some (flat_map item_wire items) /\ Forall (item_ok max) items /\
    flat_map item_small items = filter (small max) bs /\
    flat_map item_big items = filter (fun b => negb (small max b)) bs /\ Forall (fun it => zlen (item_bufs it) <= 32767) items.
Proof.
  intros Hm Hpk Hne Hl.
  destruct (buffer_loop_items max bs Hm Hne pkids new_dout [] Hpk) as (ds & o & c & g' & items & E & Hds & Hit & H1 & H2 & H3 & H4 & H5 & H6 & H7 & H8 & H9 & H10);
    try reflexivity; try constructor; try (change (zlen (@nil bytes)) with 0; lia).
  - cbn [new_dout buf]. change (zlen []) with 0. lia.
  - unfold write_buffer_list. change (zlen []) with 0 in *. rewrite E. unfold get_write_size. rewrite H3.
    destruct (0 <? zlen (buf o)) eqn:E0.
    + exists (items ++ [Batch g']). rewrite flat_map_app, Hds. split; [cbn [flat_map item_wire]; rewrite list_datagram_bytes, H1, H2; reflexivity|].
      split; [apply Forall_app; split; [assumption|apply Forall_cons; [|constructor]]|].
      * split; [|split; [rewrite <- H2; assumption|assumption]]. intros ->. rewrite H2 in E0. discriminate E0.
      * rewrite !flat_map_app. cbn [flat_map item_small item_big app]. rewrite !app_nil_r. split; [exact H8|]. split; [exact H9|].
        apply Forall_app; split; [assumption|apply Forall_cons; [cbn [item_bufs]; lia|constructor]].
    + assert (g' = []) as Hg.
      { destruct g' as [|b g']; [reflexivity|]. inversion H5; subst. rewrite H2 in E0. cbn [concat] in E0. rewrite zlen_app in E0.
        destruct b; [congruence|]. rewrite zlen_cons in E0. pose proof (zlen_nonneg b). pose proof (zlen_nonneg (concat g')). lia. }
      subst g'. rewrite app_nil_r in H8. exists items. rewrite Hds. split; [reflexivity|]. split; [assumption|]. split; [exact H8|]. split; [exact H9|assumption].
Qed.

(* ------------------------------------------------------------------ *)
(** * Delivery *)
Lemma mtu_carries pk b max fs : in_int64 pk -> 0 < max <= 2147483647 -> max < zlen b -> zlen b <= 32767 * max ->
  write_mtu pk b max = Some fs -> carries fs b.
Proof.
  intros Hpk Hm Hb Hl E. destruct (mtu_carries_pk pk b max Hpk Hm) as (fs' & E' & _ & H).
  - intros ->. change (zlen []) with 0 in Hb. lia.
  - pose proof (n_frags_bounds (zlen b) max ltac:(lia) ltac:(lia)) as (B1 & _ & _). replace (zlen b =? 0) with false in B1 by lia. nia.
  - rewrite E in E'. injection E' as <-. exists pk. exact H.
Qed.

Lemma items_deliver max items : 0 < max <= 2147483647 -> Forall (item_ok max) items ->
  Forall (fun it => zlen (item_bufs it) <= 32767) items -> Forall (fun b => zlen b <= 32767 * max) (flat_map item_bufs items) ->
  forall ds bs, delivers ds bs -> delivers (ds ++ flat_map item_wire items) (bs ++ flat_map item_bufs items).
Proof.
  intros Hm. induction items as [|it items IH]; intros Hok Hl Hb ds bs D; cbn [flat_map]; [rewrite !app_nil_r; assumption|].
  inversion Hok as [|? ? Hit Hok']; subst. inversion Hl as [|? ? Hl1 Hl']; subst. cbn [flat_map] in Hb. apply Forall_app in Hb as [Hb1 Hb2].
  rewrite !app_assoc. apply IH; try assumption. destruct it as [g|fs b]; cbn [item_ok item_wire item_bufs] in *.
  - apply dl_many; [assumption|apply Hit|assumption|reflexivity].
  - destruct Hit as (Hbig & pk & Hpk & E). apply dl_frags; [assumption|]. inversion Hb1; subst. eapply mtu_carries; eassumption.
Qed.

Lemma items_only_small max items : Forall (item_ok max) items -> flat_map item_big items = [] -> flat_map item_bufs items = flat_map item_small items.
Proof.
  induction items as [|it items IH]; intros H E; [reflexivity|]. inversion H; subst. cbn [flat_map] in *. apply app_eq_nil in E as [E1 E2].
  rewrite IH by assumption. destruct it; [reflexivity|discriminate].
Qed.
Lemma items_only_big max items : Forall (item_ok max) items -> flat_map item_small items = [] -> flat_map item_bufs items = flat_map item_big items.
Proof.
  induction items as [|it items IH]; intros H E; [reflexivity|]. inversion H as [|? ? Hit Hr]; subst. cbn [flat_map] in *. apply app_eq_nil in E as [E1 E2].
  rewrite IH by assumption. destruct it as [g|]; [|reflexivity]. cbn [item_small item_ok] in *. destruct Hit as [Hg _]. congruence.
Qed.

(** the buffers a caller may queue *)
Definition good (max : Z) (b : bytes) : Prop := b <> [] /\ zlen b <= 32767 * max.
Definition total_len (l : list bytes) : Z := zlen (concat l).
Definition held_ok (max : Z) (held : list bytes) : Prop := (exists b, held = [b]) \/ total_len held < max.

Lemma total_len_in b l : In b l -> zlen b <= total_len l.
Proof.
  unfold total_len. induction l as [|x l IH]; [intros []|]. cbn [concat]. rewrite zlen_app. pose proof (zlen_nonneg x). pose proof (zlen_nonneg (concat l)).
  intros [->|Hin]; [lia|]. specialize (IH Hin). lia.
Qed.

Lemma filter_all {A} (f : A -> bool) l : (forall x, In x l -> f x = true) -> filter f l = l.
Proof. induction l as [|x l IH]; intros H; [reflexivity|]. cbn [filter]. rewrite (H x) by (left; reflexivity). rewrite IH; [reflexivity|intros y Hy; apply H; right; assumption]. Qed.
Lemma filter_none {A} (f : A -> bool) l : (forall x, In x l -> f x = false) -> filter f l = [].
Proof. induction l as [|x l IH]; intros H; [reflexivity|]. cbn [filter]. rewrite (H x) by (left; reflexivity). apply IH; intros y Hy; apply H; right; assumption. Qed.

Lemma list_delivers max pkids held : 0 < max <= 2147483647 -> (forall n, in_int64 (pkids n)) ->
  Forall (good max) held -> held_ok max held -> zlen held <= 32767 ->
  exists out, write_buffer_list max pkids held = Some out /\ forall ds bs, delivers ds bs -> delivers (ds ++ out) (bs ++ held).
Proof.
  intros Hm Hpk Hg Hh Hl.
  assert (Forall (fun b => b <> []) held) as Hne by (eapply Forall_impl; [|exact Hg]; intros b Hb; apply Hb).
  destruct (write_buffer_list_items max pkids held Hm Hpk Hne Hl) as (items & -> & Hok & Hs & Hb & Hz).
  eexists. split; [reflexivity|]. intros ds bs D.
  assert (flat_map item_bufs items = held) as E.
  { destruct Hh as [(b & ->)|Hh].
    - cbn [filter] in Hs, Hb. destruct (small max b); cbn [negb] in Hb.
      + rewrite (items_only_small max) by assumption. exact Hs.
      + rewrite (items_only_big max) by assumption. exact Hb.
    - assert (forall x, In x held -> small max x = true) as Hall by (intros x Hx; pose proof (total_len_in x held Hx); unfold small; lia).
      rewrite (filter_none (fun b => negb (small max b))) in Hb by (intros x Hx; rewrite Hall by assumption; reflexivity).
      rewrite (items_only_small max) by assumption. rewrite Hs. apply filter_all. assumption. }
  pose proof (items_deliver max items Hm Hok Hz) as Hd. rewrite E in Hd. apply Hd; [|assumption]. eapply Forall_impl; [|exact Hg]. intros b Hbb. apply Hbb.
Qed.

Lemma single_delivers max pk b : 0 < max <= 2147483647 -> in_int64 pk -> good max b ->
  exists out, write_buffer max pk b = Some out /\ forall ds bs, delivers ds bs -> delivers (ds ++ out) (bs ++ [b]).
Proof.
  intros Hm Hpk [Hne Hl]. unfold write_buffer. destruct (max <? zlen b) eqn:E.
  - rewrite write_mtu_map by lia. eexists. split; [reflexivity|]. intros ds bs D. apply dl_frags; [assumption|].
    apply (mtu_carries pk b max); [assumption|assumption|lia|assumption|apply write_mtu_map; lia].
  - eexists. split; [reflexivity|]. intros ds bs D. rewrite single_bytes. apply dl_one. assumption.
Qed.

Lemma send_list_delivers max pkids held : 0 < max <= 2147483647 -> (forall n, in_int64 (pkids n)) ->
  Forall (good max) held -> held_ok max held -> zlen held <= 32767 ->
  exists out, send_list max pkids held = Some out /\ forall ds bs, delivers ds bs -> delivers (ds ++ out) (bs ++ held).
Proof.
  intros Hm Hpk Hg Hh Hl. destruct held as [|b [|b' held]]; cbn [send_list].
  - exists []. split; [reflexivity|]. intros ds bs D. rewrite !app_nil_r. assumption.
  - inversion Hg; subst. apply single_delivers; [assumption|apply Hpk|assumption].
  - apply list_delivers; assumption.
Qed.

(* ------------------------------------------------------------------ *)
(** * The sender *)
Inductive ureach (qcap max : Z) : usys -> Prop :=
| ur_init : ureach qcap max usys0
| ur_add b s : good max b -> ureach qcap max s -> ureach qcap max (add_buffer qcap b s)
| ur_send pkids s s' : (forall n, in_int64 (pkids n)) -> ureach qcap max s -> sender_step max pkids s = Some s' -> ureach qcap max s'.

Definition held_of (s : usys) : list bytes := match snd_state s with Idle => [] | Sending _ h _ => h end.

Record uinv (qcap max : Z) (s : usys) (done : list bytes) : Prop := {
  ui_del : delivers (wire s) done;
  ui_acc : accepted s = done ++ held_of s ++ queue s;
  ui_good : Forall (good max) (held_of s ++ queue s);
  ui_cap : zlen (queue s) <= Z.max 0 qcap;
  ui_held : held_ok max (held_of s);
  ui_st : match snd_state s with
          | Idle => True
          | Sending n h size => (n <= length (queue s))%nat /\ zlen h + Z.of_nat n <= Z.max 0 qcap /\ size = total_len h
          end
}.

Lemma total_len_snoc l b : total_len (l ++ [b]) = total_len l + zlen b.
Proof. unfold total_len. rewrite concat_snoc, zlen_app. reflexivity. Qed.
Lemma total_len_1 b : total_len [b] = zlen b.
Proof. unfold total_len. cbn [concat]. rewrite app_nil_r. reflexivity. Qed.

Lemma uinv_add qcap max b s done : good max b -> uinv qcap max s done -> uinv qcap max (add_buffer qcap b s) done.
Proof.
  intros Hb [D A G C H St]. unfold add_buffer. destruct (zlen (queue s) <? qcap) eqn:E; constructor; cbn [wire accepted queue snd_state dropped]; try assumption.
  - rewrite A. unfold held_of. cbn [snd_state]. rewrite <- !app_assoc. reflexivity.
  - unfold held_of in *. cbn [snd_state]. rewrite app_assoc. apply Forall_app. split; [assumption|apply Forall_cons; [assumption|constructor]].
  - rewrite zlen_app. change (zlen [b]) with 1. lia.
  - destruct (snd_state s); [exact I|]. rewrite app_length. destruct St as (S1 & S2 & S3). split; [lia|split; assumption].
Qed.

Lemma uinv_step qcap max pkids s done : 0 < max <= 2147483647 -> qcap <= 32767 -> (forall n, in_int64 (pkids n)) ->
  uinv qcap max s done -> exists s' done', sender_step max pkids s = Some s' /\ uinv qcap max s' done'.
Proof.
  intros Hm Hq Hpk [D A G C H St]. unfold sender_step. unfold held_of in *. destruct (snd_state s) as [|[|n] held size] eqn:Es.
  - destruct (queue s) as [|b [|b' q]] eqn:Eq.
    + exists s, done. split; [reflexivity|]. constructor; unfold held_of; rewrite ?Es, ?Eq; assumption.
    + cbn [app] in *. inversion G; subst. destruct (single_delivers max (pkids O) b Hm (Hpk O)) as (out & -> & Hd); [assumption|].
      eexists. exists (done ++ [b]). split; [reflexivity|]. constructor; unfold held_of; cbn [wire accepted queue snd_state]; try assumption.
      * apply Hd; assumption.
      * rewrite A, !app_nil_r. reflexivity.
      * change (zlen []) with 0. lia.
    + eexists. exists done. split; [reflexivity|]. constructor; unfold held_of; cbn [wire accepted queue snd_state]; try assumption.
      split; [lia|split; [|reflexivity]]. change (zlen []) with 0. unfold zlen in C. lia.
  - destruct St as (S1 & S2 & S3). apply Forall_app in G as [G1 G2].
    destruct (list_delivers max pkids held Hm Hpk G1 H ltac:(lia)) as (out & -> & Hd).
    eexists. exists (done ++ held). split; [reflexivity|]. constructor; unfold held_of; cbn [wire accepted queue snd_state app]; try assumption.
    + apply Hd; assumption.
    + rewrite A, <- app_assoc. reflexivity.
    + right. unfold total_len. cbn [concat]. change (zlen []) with 0. lia.
    + exact I.
  - destruct St as (S1 & S2 & S3). apply Forall_app in G as [G1 G2].
    destruct (queue s) as [|b q] eqn:Eq; [cbn [length] in S1; lia|].
    inversion G2 as [|? ? Gb Gq]; subst. cbn [length] in S1. rewrite zlen_cons in C.
    destruct (max <=? total_len held + zlen b) eqn:E.
    + destruct (send_list_delivers max pkids held Hm Hpk G1 H ltac:(lia)) as (out & -> & Hd).
      eexists. exists (done ++ held). split; [reflexivity|]. constructor; unfold held_of; cbn [wire accepted queue snd_state].
      * apply Hd; assumption.
      * rewrite A, <- !app_assoc. reflexivity.
      * cbn [app]. apply Forall_cons; assumption.
      * lia.
      * left. exists b. reflexivity.
      * split; [lia|split]; [change (zlen [b]) with 1; pose proof (zlen_nonneg held); lia|]. rewrite total_len_1. reflexivity.
    + eexists. exists done. split; [reflexivity|]. constructor; unfold held_of; cbn [wire accepted queue snd_state].
      * assumption.
      * rewrite A, <- !app_assoc. reflexivity.
      * apply Forall_app; split; [apply Forall_app; split; [assumption|apply Forall_cons; [assumption|constructor]]|assumption].
      * lia.
      * right. rewrite total_len_snoc. lia.
      * split; [lia|split]; [rewrite zlen_app; change (zlen [b]) with 1; lia|]. rewrite total_len_snoc. reflexivity.
Qed.

Lemma ureach_inv qcap max s : 0 < max <= 2147483647 -> qcap <= 32767 -> ureach qcap max s -> exists done, uinv qcap max s done.
Proof.
  intros Hm Hq. induction 1 as [|b s Hb R (done & IH)|pkids s s' Hpk R (done & IH) E].
  - exists []. constructor; [constructor|reflexivity|constructor|cbn [usys0 queue]; change (zlen []) with 0; lia| |exact I].
    right. unfold total_len. cbn [held_of usys0 snd_state concat]. change (zlen []) with 0. lia.
  - exists done. apply uinv_add; assumption.
  - destruct (uinv_step qcap max pkids s done Hm Hq Hpk IH) as (s1 & d1 & E1 & H1). rewrite E in E1. injection E1 as <-. exists d1. assumption.
Qed.

(** running the sender alone empties the queue *)
Fixpoint sender_steps (n : nat) (max : Z) (pkids : nat -> Z) (s : usys) : option usys :=
  match n with
  | O => Some s
  | S m => match sender_step max pkids s with Some s' => sender_steps m max pkids s' | None => None end
  end.

Lemma sender_drains qcap max pkids : 0 < max <= 2147483647 -> qcap <= 32767 -> (forall n, in_int64 (pkids n)) ->
  forall n s done, uinv qcap max s done ->
  (2 * length (queue s) + match snd_state s with Idle => 0 | Sending k _ _ => 1 end <= n)%nat ->
  exists m s' done', sender_steps m max pkids s = Some s' /\ uinv qcap max s' done' /\ queue s' = [] /\ snd_state s' = Idle /\ accepted s' = accepted s.
Proof.
  intros Hm Hq Hpk.
  (* a batch in progress finishes *)
  assert (forall k s done h z, uinv qcap max s done -> snd_state s = Sending k h z ->
    exists m s' done', sender_steps m max pkids s = Some s' /\ uinv qcap max s' done' /\ snd_state s' = Idle /\ length (queue s') = (length (queue s) - k)%nat /\ accepted s' = accepted s) as Hbatch.
  { induction k as [|k IH]; intros s done h z I E.
    - destruct (uinv_step qcap max pkids s done Hm Hq Hpk I) as (s' & d' & E' & I'). exists 1%nat, s', d'. cbn [sender_steps]. rewrite E'.
      split; [reflexivity|]. split; [assumption|]. unfold sender_step in E'. rewrite E in E'. destruct (write_buffer_list max pkids h); [|discriminate].
      injection E' as <-. cbn [snd_state queue accepted]. split; [reflexivity|]. split; [lia|reflexivity].
    - destruct (uinv_step qcap max pkids s done Hm Hq Hpk I) as (s' & d' & E' & I').
      assert (exists h' z', snd_state s' = Sending k h' z' /\ length (queue s) = S (length (queue s')) /\ accepted s' = accepted s) as (h' & z' & Es' & Lq & Ac).
      { pose proof (ui_st _ _ _ _ I) as St. rewrite E in St. unfold sender_step in E'. rewrite E in E'. destruct (queue s) as [|b q]; [cbn [length] in St; lia|].
        destruct (max <=? z + zlen b); [destruct (send_list max pkids h); [|discriminate]|]; injection E' as <-; cbn [snd_state queue accepted]; eexists; eexists; split; [reflexivity|split; reflexivity|reflexivity|split; reflexivity]. }
      destruct (IH s' d' h' z' I' Es') as (m & s2 & d2 & E2 & I2 & Id & Lq2 & Ac2).
      exists (S m), s2, d2. cbn [sender_steps]. rewrite E'. split; [assumption|]. split; [assumption|]. split; [assumption|]. split; [lia|congruence]. }
  assert (forall a b s s1, sender_steps a max pkids s = Some s1 -> sender_steps (a + b) max pkids s = sender_steps b max pkids s1) as Happ.
  { induction a as [|a IH]; intros b s s1 E; cbn [sender_steps Nat.add] in *; [injection E as ->; reflexivity|].
    destruct (sender_step max pkids s); [|discriminate]. apply IH. assumption. }
  assert (forall k s done, uinv qcap max s done -> snd_state s = Idle -> (length (queue s) <= k)%nat ->
    exists m s' done', sender_steps m max pkids s = Some s' /\ uinv qcap max s' done' /\ queue s' = [] /\ snd_state s' = Idle /\ accepted s' = accepted s) as Hidle.
  { intros k. induction k as [|k IH]; intros s done I E Hl.
    - exists O, s, done. split; [reflexivity|]. split; [assumption|]. split; [destruct (queue s); [reflexivity|cbn in Hl; lia]|]. split; [assumption|reflexivity].
    - destruct (queue s) as [|b [|b' q]] eqn:Eq.
      + exists O, s, done. split; [reflexivity|]. split; [assumption|]. split; [assumption|]. split; [assumption|reflexivity].
      + destruct (uinv_step qcap max pkids s done Hm Hq Hpk I) as (s' & d' & E' & I'). exists 1%nat, s', d'. cbn [sender_steps]. rewrite E'.
        unfold sender_step in E'. rewrite E, Eq in E'. destruct (write_buffer max (pkids O) b); [|discriminate]. injection E' as <-.
        split; [reflexivity|]. split; [assumption|]. split; [reflexivity|split; reflexivity].
      + destruct (uinv_step qcap max pkids s done Hm Hq Hpk I) as (s' & d' & E' & I').
        assert (snd_state s' = Sending (length (queue s)) [] 0 /\ queue s' = queue s /\ accepted s' = accepted s) as (Es' & Eq' & Ac').
        { unfold sender_step in E'. rewrite E, Eq in E'. injection E' as <-. cbn [snd_state queue accepted]. rewrite Eq. auto. }
        destruct (Hbatch _ s' d' _ _ I' Es') as (m & s2 & d2 & E2 & I2 & Id & Lq2 & Ac2).
        assert (queue s2 = []) as Q2 by (rewrite Eq' in Lq2; destruct (queue s2); [reflexivity|cbn [length] in Lq2; lia]).
        exists (S m), s2, d2. cbn [sender_steps]. rewrite E'. split; [assumption|]. split; [assumption|]. split; [assumption|]. split; [assumption|congruence]. }
  intros n s done I _. destruct (snd_state s) as [|k h z] eqn:E.
  - exact (Hidle (length (queue s)) s done I E (le_n _)).
  - destruct (Hbatch k s done h z I E) as (m & s' & d' & E' & I' & Id & _ & Ac).
    destruct (Hidle (length (queue s')) s' d' I' Id (le_n _)) as (m2 & s2 & d2 & E2 & I2 & Q2 & Id2 & Ac2).
    exists (m + m2)%nat, s2, d2. rewrite (Happ m m2 s s' E'). split; [assumption|]. split; [assumption|]. split; [assumption|]. split; [assumption|congruence].
Qed.
