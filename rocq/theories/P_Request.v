(** C81: arbitrary bytes on the command connection. *)
From Verif Require Import GoInt M_OutX M_InX S_Wire M_Value S_Value L_Codec L_Value L_Safe M_Packs S_Packs L_Packs M_Conf M_Dump M_Tcp S_Tcp L_Tcp P_Codec P_Packs P_Tcp S_Session P_Session S_Request.
From Coq Require Import ZifyBool.

(** ** Reading terminates *)
Lemma nf_map_value {A} (k : list (gostring * value) -> option err -> reader -> res A) : (forall m e, nofuel_free (k m e)) -> nofuel_free (fun r => read_map_value r k).
Proof.
  intros Hk r. unfold read_map_value. pose proof (read_value_terminates r) as T. destruct (read_value r) as [v e r0| |]; cbn [bind]; [|discriminate|congruence].
  destruct v; try discriminate. apply Hk.
Qed.
Lemma nf_times {A} (rd : reader -> res A) n : nofuel_free rd -> forall acc e, nofuel_free (read_times rd n acc e).
Proof. intros H. induction n as [|n IH]; intros acc e; cbn [read_times]; [apply nf_ret|]. apply nf_bind; [exact H|intros; apply IH]. Qed.
Lemma nf_map_pack : nofuel_free read_map_pack.
Proof.
  unfold read_map_pack. apply nf_bind; [apply nf_decimal|]. intros n e. apply nf_bind; [|intros; apply nf_ret]. apply nf_times.
  apply nf_bind; [apply nf_blob|]. intros k e'. apply nf_bind; [intros r; apply read_value_terminates|intros; apply nf_ret].
Qed.
Ltac nf_fields := repeat (apply nf_bind; [first [apply nf_fixed | apply nf_blob | apply nf_decimal | apply nf_boolean] | intros ? ?]).
Lemma nf_perf : nofuel_free read_perf_pack.
Proof. unfold read_perf_pack. nf_fields. apply nf_map_value. intros; apply nf_ret. Qed.
Lemma nf_object2 : nofuel_free read_object_pack2.
Proof. unfold read_object_pack2. nf_fields. apply nf_map_value. intros; apply nf_ret. Qed.
Lemma nf_pack : nofuel_free read_pack.
Proof.
  unfold read_pack. apply nf_bind; [apply nf_fixed|]. intros t [e|]; [apply nf_ret|]. cbv zeta.
  apply nf_if; [apply nf_bind; [apply nf_map_pack|intros; apply nf_ret]|].
  apply nf_if; [apply nf_ret|].
  apply nf_if; [apply nf_bind; [apply nf_perf|intros; apply nf_ret]|].
  apply nf_if; [apply nf_bind; [apply nf_object2|intros; apply nf_ret]|].
  apply nf_if; [apply nf_ret|]. intros r; discriminate.
Qed.
Lemma nf_int_bytes : nofuel_free read_int_bytes.
Proof. unfold read_int_bytes. apply nf_bind; [apply nf_fixed|intros; apply nf_n]. Qed.

(** Whatever arrives, reading a frame, its command and its pack comes to an end. *)
Theorem C81_reading_ends conn : read_int_bytes conn <> NoFuel /\
  forall frame e conn', read_int_bytes conn = Ret frame e conn' -> read_string (buffer frame) <> NoFuel /\
  forall cmd e' r, read_string (buffer frame) = Ret cmd e' r -> read_pack r <> NoFuel.
Proof. split; [apply nf_int_bytes|]. intros frame e conn' _. split; [apply nf_blob|]. intros. apply nf_pack. Qed.

(** ** Panics *)
Lemma pn_map_pack : panics_only_neg read_map_pack.
Proof.
  assert (forall (k : gostring) (e : option err), panics_only_neg (fun r => bind (read_value r) (fun v e r => Ret (k, v) e r))) as P.
  { intros k e r F H. pose proof (read_value_panic r F). unfold read_value in *. pose proof (read_value_terminates r) as T. unfold read_value in T.
    destruct (read_value_fuel _ r) as [v e' r'| |]; cbn [bind] in H; [discriminate|auto|discriminate]. }
  assert (forall (k : gostring) (e : option err), advances (fun r => bind (read_value r) (fun v e r => Ret (k, v) e r))) as A.
  { intros k e r a e' r' H. destruct (read_value r) as [v e1 r1| |] eqn:E; cbn [bind] in H; try discriminate. injection H as _ _ <-. exact (advances_value _ _ _ _ _ E). }
  unfold read_map_pack. apply pn_bind; [apply advances_decimal|apply pn_decimal|]. intros n e.
  apply pn_bind; [apply advances_times|apply pn_times|intros; apply pn_ret]; try (apply advances_bind; [apply advances_blob|intros; apply A; exact None]).
  apply pn_bind; [apply advances_blob|apply pn_blob|intros; apply P; exact None].
Qed.

(** A request panics only if it contains a length marker with the sign bit set behind it, or if its pack is not a map (the collector sends nothing else), text or
    alert pack. *)
Theorem C81_panic_partial h frame s : Forall is_byte frame -> handle_frame h frame s = FPanic ->
  negative_length frame \/ exists cmd e r t rest, read_string (buffer frame) = Ret cmd e r /\ concat r = t :: rest /\ t <> 10 /\ t <> 50 /\ t <> 70.
Proof.
  intros F H. unfold handle_frame in H.
  assert (concat (buffer frame) = frame) as Eb by (unfold buffer; cbn; apply app_nil_r).
  destruct (read_string (buffer frame)) as [cmd e r| |] eqn:E.
  2:{ left. rewrite <- Eb. apply pn_blob; [rewrite Eb; exact F|exact E]. }
  2:{ exfalso. exact (nf_blob _ E). }
  pose proof (advances_blob _ _ _ _ E) as Hs. rewrite Eb in Hs.
  destruct (read_pack r) as [p [e'|] r'| |] eqn:Ep; try discriminate.
  { destruct (handle h cmd p s new_dout) as [[s' out] res]. discriminate. }
  2:{ exfalso. exact (nf_pack _ Ep). }
  unfold read_pack in Ep. unfold read_int8, read_fixed, read_full in Ep. pose proof (suffix_bytes _ _ Hs F) as Fr.
  destruct (1 <=? length (concat r))%nat eqn:El.
  2:{ destruct (concat r); cbn [bind] in Ep; discriminate. }
  apply Nat.leb_le in El. pose proof (rd_drop_concat 1 r El) as Ed.
  destruct (concat r) as [|t rest] eqn:Ec; [cbn in El; lia|]. cbn [firstn skipn bind] in Ep, Ed.
  assert (uint8 (int8 (unbe [t])) = t) as Et.
  { inversion Fr as [|? ? Ht _]; subst. unfold is_byte in Ht. change (unbe [t]) with t. pose proof (be_wrapS 1 t ltac:(lia)) as B. change (8 * Z.of_nat 1) with 8 in B. cbn [be app] in B. injection B as B. unfold int8. change (uint8 (wrapS 8 t)) with (wrapS 8 t mod 256). rewrite B. apply Z.mod_small. exact Ht. }
  cbv zeta in Ep. rewrite Et in Ep.
  destruct (t =? 10) eqn:E10.
  { left. destruct (read_map_pack (rd_drop 1 r)) as [m e1 r1| |] eqn:Em; cbn [bind] in Ep; try discriminate.
    assert (negative_length rest) as N. { rewrite <- Ed. apply pn_map_pack; [rewrite Ed; inversion Fr; assumption|exact Em]. }
    destruct Hs as [pre ->]. apply neg_suffix. change (t :: rest) with ([t] ++ rest). apply neg_suffix, N. }
  destruct (t =? 50) eqn:E50; [discriminate|].
  right. exists cmd, e, r, t, rest. repeat split; try assumption; try lia.
  destruct (t =? 60) eqn:E60; [lia|]. destruct (t =? 80) eqn:E80; [lia|]. destruct (t =? 70) eqn:E70; [discriminate|lia].
Qed.

(** Otherwise it does panic: a perf-counter pack whose data is not a map; a pack of an unknown type. *)
Theorem C81_panic_refuted h s : let not_a_map := [1; 65; 60; 0; 0; 0; 0; 0; 0; 0; 0; 0; 5; 0] in let unknown := [1; 65; 9] in
  Forall is_byte not_a_map /\ ~ negative_length not_a_map /\ handle_frame h not_a_map s = FPanic /\
  Forall is_byte unknown /\ ~ negative_length unknown /\ handle_frame h unknown s = FPanic.
Proof.
  cbv zeta. assert (forall l, forallb (fun b => (0 <=? b) && (b <? 128)) l = true -> Forall is_byte l /\ ~ negative_length l) as N.
  { intros l H. rewrite forallb_forall in H. split; [apply Forall_forall; intros x I; specialize (H x I); unfold is_byte; lia|].
    intros (pre & m & b & post & -> & Hm & Hb). specialize (H m ltac:(apply in_or_app; right; left; reflexivity)). lia. }
  destruct (N [1; 65; 60; 0; 0; 0; 0; 0; 0; 0; 0; 0; 5; 0] eq_refl) as (A & B). destruct (N [1; 65; 9] eq_refl) as (C & D).
  repeat split; assumption || reflexivity.
Qed.

(** ** Nothing but whole commands has an effect *)
Lemma rd_read_occurs n r bs e r' : rd_read n r = (bs, e, r') -> exists pre post, concat r = pre ++ bs ++ post /\ concat r' = post.
Proof.
  revert bs e r'. induction r as [|s r IH]; intros bs e r'; cbn [rd_read concat].
  - destruct (n =? 0); intros [= <- _ <-]; exists [], []; auto.
  - destruct (n =? 0).
    + intros [= <- _ <-]. exists [], (s ++ concat r). auto.
    + destruct s as [|b s]; [intros H; cbn [app]; exact (IH _ _ _ H)|]. intros [= <- _ <-].
      exists [], (skipn (Z.to_nat n) (b :: s) ++ concat r). cbn [app concat]. rewrite app_assoc, firstn_skipn. auto.
Qed.
Lemma read_n_occurs n r bs e r' : read_n n r = Ret bs e r' -> was_sent bs (concat r).
Proof.
  unfold read_n. destruct (n <? 0); [discriminate|]. destruct (rd_read n r) as [[b0 [e0|]] r0] eqn:E; intros [= <- _ _].
  - exists [], O. split; [reflexivity|]. exists [], (concat r). reflexivity.
  - destruct (rd_read_occurs _ _ _ _ _ E) as (pre & post & Ec & _). eexists b0, _. split; [reflexivity|]. exists pre, post. exact Ec.
Qed.
Lemma occurs_suffix part pre all : occurs part all -> occurs part (pre ++ all).
Proof. intros (b & c & ->). exists (pre ++ b), c. rewrite app_assoc. reflexivity. Qed.
Lemma was_sent_suffix text pre all : was_sent text all -> was_sent text (pre ++ all).
Proof. intros (p & z & E & O). exists p, z. split; [exact E|apply occurs_suffix, O]. Qed.
Lemma was_sent_nil all : was_sent [] all.
Proof. exists [], O. split; [reflexivity|]. exists [], all. reflexivity. Qed.
Lemma read_blob_occurs r bs e r' : read_blob r = Ret bs e r' -> was_sent bs (concat r).
Proof.
  unfold read_blob. destruct (read_uint8 r) as [n e0 r0| |] eqn:E; cbn [bind]; try discriminate. destruct (advances_fixed _ _ _ _ _ _ E) as [pre ->].
  intros H. apply was_sent_suffix.
  assert (forall conv k rr, bind (read_fixed k conv rr) (fun v _ r => read_n v r) = Ret bs e r' -> was_sent bs (concat rr)) as Q.
  { intros conv k rr Hq. destruct (read_fixed k conv rr) as [v e1 r1| |] eqn:E1; cbn [bind] in Hq; try discriminate. destruct (advances_fixed _ _ _ _ _ _ E1) as [pre1 ->].
    apply was_sent_suffix. eapply read_n_occurs. exact Hq. }
  destruct (n =? 255); [eapply Q; exact H|]. destruct (n =? 254); [eapply Q; exact H|]. destruct (n =? 0); [injection H as <- _ _; apply was_sent_nil|eapply read_n_occurs; exact H].
Qed.

Lemma zeros_cut z c d : repeat 0 z = c ++ d -> exists k, c = repeat 0 k.
Proof.
  revert z. induction c as [|x c IH]; intros z E; [exists O; reflexivity|]. destruct z as [|z]; [discriminate|]. cbn in E. injection E as <- E.
  destruct (IH z E) as (k & ->). exists (S k). reflexivity.
Qed.
Lemma prefix_zeros (a : bytes) : forall z c d, a ++ repeat 0 z = c ++ d -> exists c' k q, c = c' ++ repeat 0 k /\ a = c' ++ q.
Proof.
  induction a as [|x a IH]; intros z c d E; cbn [app] in E.
  - destruct (zeros_cut z c d E) as (k & ->). exists [], k, []. auto.
  - destruct c as [|y c]; [exists [], O, (x :: a); auto|]. cbn [app] in E. injection E as <- E.
    destruct (IH z c d E) as (c' & k & q & -> & ->). exists (x :: c'), k, q. auto.
Qed.
Lemma split_at_zeros (a : bytes) : forall b z c d, a ++ repeat 0 z = b ++ c ++ d -> exists c' k, c = c' ++ repeat 0 k /\ occurs c' a.
Proof.
  intros b. revert a. induction b as [|y b IH]; intros a z c d E; cbn [app] in E.
  - destruct (prefix_zeros a z c d E) as (c' & k & q & -> & ->). exists c', k. split; [reflexivity|]. exists [], q. reflexivity.
  - destruct a as [|x a]; cbn [app] in E.
    + destruct z as [|z]; [discriminate|]. cbn [repeat] in E. injection E as <- E. destruct (IH [] z c d E) as (c' & k & Ec & O). exists c', k. auto.
    + injection E as <- E. destruct (IH a z c d E) as (c' & k & Ec & O). exists c', k. split; [exact Ec|]. change (x :: a) with ([x] ++ a). apply occurs_suffix, O.
Qed.
Lemma occurs_trans a b c : occurs a b -> occurs b c -> occurs a c.
Proof. intros (p & q & ->) (p' & q' & ->). exists (p' ++ p), (q ++ q'). rewrite <- !app_assoc. reflexivity. Qed.
Lemma was_sent_trans text padded all : was_sent text padded -> was_sent padded all -> was_sent text all.
Proof.
  intros (p & z & -> & (b & c & E)) (p' & z' & -> & O). destruct (split_at_zeros p' b z' p c E) as (p1 & k & -> & O1).
  exists p1, (k + z)%nat. split; [rewrite <- app_assoc, repeat_app; reflexivity|eapply occurs_trans; eassumption].
Qed.
Lemma frame_was_sent conn frame e conn' : read_int_bytes conn = Ret frame e conn' -> was_sent frame (concat conn) /\ exists pre, concat conn = pre ++ concat conn'.
Proof.
  unfold read_int_bytes. destruct (read_int32 conn) as [n e0 r0| |] eqn:E; cbn [bind]; try discriminate. intros H. destruct (advances_fixed _ _ _ _ _ _ E) as [pre Ep].
  split; [rewrite Ep; apply was_sent_suffix; eapply read_n_occurs; exact H|]. destruct (advances_n _ _ _ _ _ H) as [q Hq]. exists (pre ++ q). rewrite <- app_assoc, <- Hq. exact Ep.
Qed.

(** Whatever bytes arrive on the connection, in whatever segments, and however the session ends: all that happened is that commands whose text was sent were obeyed
    one after the other, each answered once. *)
Theorem C81_only_commands me its : forall conn s s' replies e, process_loop me its conn s = (s', replies, e) ->
  exists cmds, obeyed cmds s s' replies /\ Forall (fun c => was_sent (fst c) (concat conn)) cmds.
Proof.
  induction its as [|[ops h] its IH]; intros conn s s' replies e H; cbn [process_loop] in H.
  { injection H as <- <- _. exists []. split; constructor. }
  destruct (conf_run ops (hs_conf s)) as [c|] eqn:Ec.
  2:{ injection H as <- <- _. exists []. split; constructor. }
  assert (exists cmds, obeyed cmds s (set_conf c s) [] /\ Forall (fun c => was_sent (fst c) (concat conn)) cmds) as Stop.
  { exists []. split; [eapply ob_refresh; [exact Ec|constructor]|constructor]. }
  destruct (identity_eqb me (identity (c_conf c))); [|injection H as <- <- _; exact Stop].
  destruct (read_int_bytes conn) as [frame [e0|] conn'| |] eqn:Er; try (injection H as <- <- _; exact Stop).
  destruct (handle_frame h frame (set_conf c s)) as [s1 bs| |] eqn:Ef; try (injection H as <- <- _; exact Stop).
  destruct (process_loop me its conn' s1) as [[s2 out] e2] eqn:El. injection H as <- <- _.
  destruct (IH _ _ _ _ _ El) as (cmds & Ob & Fs). destruct (frame_was_sent _ _ _ _ Er) as (Sf & [pre Ep]).
  unfold handle_frame in Ef. destruct (read_string (buffer frame)) as [cmd e3 r| |] eqn:Es; try discriminate.
  destruct (read_pack r) as [param [e4|] r4| |]; try discriminate. destruct (handle h cmd param (set_conf c s) new_dout) as [[s3 o3] res] eqn:Eh. injection Ef as <- <-.
  exists ((cmd, param) :: cmds). split.
  - eapply ob_refresh; [exact Ec|]. eapply ob_command; [exact Eh|exact Ob].
  - constructor; [|rewrite Ep; eapply Forall_impl; [|exact Fs]; intros a Ha; apply was_sent_suffix, Ha].
    cbn [fst]. eapply was_sent_trans; [|exact Sf]. pose proof (read_blob_occurs _ _ _ _ Es) as W. unfold buffer in W. cbn [concat] in W. rewrite app_nil_r in W. exact W.
Qed.

Lemma was_sent_solid text all : (forall pre, text <> pre ++ [0]) -> was_sent text all -> occurs text all.
Proof.
  intros N (p & z & E & O). destruct z as [|z]; [cbn in E; rewrite app_nil_r in E; subst; exact O|]. exfalso. replace (S z) with (z + 1)%nat in E by lia. rewrite repeat_app, app_assoc in E. exact (N _ E).
Qed.
Lemma obeyed_file cmds s s' replies : obeyed cmds s s' replies -> Forall (fun c => fst c <> of_string "SET_CONFIGURE_WAS") cmds ->
  hs_file s' = hs_file s /\ exists ops, conf_run ops (hs_conf s) = Some (hs_conf s').
Proof.
  assert (forall a b c d, conf_run a b = Some c -> conf_run d c = conf_run (a ++ d) b) as App.
  { induction a as [|x a IH]; intros b c d E; cbn [conf_run app] in *; [injection E as <-; reflexivity|]. destruct (conf_step x b) as [b'|]; [|discriminate]. apply IH, E. }
  induction 1 as [s|ops c cmds s s' replies Ec Ob IH|h cmd param cmds s s1 s' out res replies Eh Ob IH]; intros F.
  - split; [reflexivity|]. exists []. reflexivity.
  - destruct (IH F) as (A & ops' & B). split; [rewrite A; reflexivity|]. exists (ops ++ ops'). rewrite <- (App _ _ _ _ Ec). exact B.
  - inversion F as [|? ? F1 F2]; subst. destruct (C69_only_set_changes _ _ _ _ _ _ _ _ Eh F1) as (A & B). destruct (IH F2) as (A' & ops & B'). split; [congruence|]. exists ops. rewrite <- B. exact B'.
Qed.

(** As long as the text SET_CONFIGURE_WAS does not occur in what arrives, the configuration file keeps its contents, and the settings change only by refreshes. *)
Theorem C81_config_untouched me its conn s s' replies e : process_loop me its conn s = (s', replies, e) -> ~ occurs (of_string "SET_CONFIGURE_WAS") (concat conn) ->
  hs_file s' = hs_file s /\ exists ops, conf_run ops (hs_conf s) = Some (hs_conf s').
Proof.
  intros H N. destruct (C81_only_commands _ _ _ _ _ _ _ H) as (cmds & Ob & Fs). apply (obeyed_file _ _ _ _ Ob). eapply Forall_impl; [|exact Fs].
  intros [cmd param] W E. cbn [fst] in *. subst cmd. apply N. apply was_sent_solid; [|exact W].
  intros pre Ep. apply (f_equal (@rev Z)) in Ep. rewrite rev_app_distr in Ep. discriminate Ep.
Qed.

(** A request that cannot be read has no effect and gets no reply; it ends the session. *)
Theorem C81_bad_request me ops h its conn conn' frame s c : conf_run ops (hs_conf s) = Some c -> read_int_bytes conn = Ret frame None conn' ->
  (forall s' bs, handle_frame h frame (set_conf c s) <> FReply s' bs) -> exists e, process_loop me ((ops, h) :: its) conn s = (set_conf c s, [], Some e).
Proof.
  intros Ec Er N. cbn [process_loop]. rewrite Ec. destruct (identity_eqb me (identity (c_conf c))); [|eauto]. rewrite Er.
  destruct (handle_frame h frame (set_conf c s)) as [s1 bs| |] eqn:Ef; [exfalso; eapply N; reflexivity|eauto|eauto].
Qed.

(** ** A request cut by TCP is obeyed with what has arrived *)
Definition set_request (text : gostring) : request := mk_request (of_string "SET_CONFIGURE_WAS") [(of_string "setConfig", VText text)].
Definition lead (n : Z) : bytes :=
  enc_string (of_string "SET_CONFIGURE_WAS") ++ be 1 10 ++ enc_decimal 1 ++ enc_string (of_string "setConfig") ++ be 1 50 ++ (if n <=? 253 then be 1 n else [255] ++ be 2 n).
Lemma set_request_bytes text : 0 < zlen text <= 32767 -> request_bytes (set_request text) = lead (zlen text) ++ text.
Proof.
  intros Hz. unfold request_bytes, set_request, lead. cbn [rq_cmd rq_param]. rewrite (writes_buf _ _ (writes_string _)).
  assert (writes (write_pack (PMap [(of_string "setConfig", VText text)])) ((((be 1 10 ++ enc_decimal 1) ++ enc_string (of_string "setConfig")) ++ be 1 50) ++ enc_string text)) as W.
  { change (write_pack (PMap [(of_string "setConfig", VText text)])) with
      (fun o => write_string text (write_uint8 50 (write_string (of_string "setConfig") (write_decimal 1 (write_uint8 10 o))))).
    apply (writes_comp (fun o => write_uint8 50 (write_string (of_string "setConfig") (write_decimal 1 (write_uint8 10 o)))) (write_string text)); [|apply writes_string].
    apply (writes_comp (fun o => write_string (of_string "setConfig") (write_decimal 1 (write_uint8 10 o))) (write_uint8 50)); [|apply writes_uint8].
    apply (writes_comp (fun o => write_decimal 1 (write_uint8 10 o)) (write_string (of_string "setConfig"))); [|apply writes_string].
    apply (writes_comp (write_uint8 10) (write_decimal 1)); [apply writes_uint8|apply writes_decimal; unfold in_int64; lia]. }
  rewrite (writes_buf _ _ W). rewrite <- !app_assoc. do 5 f_equal. unfold enc_string. replace (zlen text >? 100000) with false by lia. unfold enc_blob.
  replace (zlen text =? 0) with false by lia. replace (zlen text <=? 65535) with true by lia. destruct (zlen text <=? 253); [reflexivity|]. rewrite <- app_assoc. reflexivity.
Qed.
Lemma set_request_ok text : 0 < zlen text <= 32767 -> request_ok (set_request text).
Proof.
  intros Hz. unfold request_ok. cbn [set_request rq_cmd rq_param]. split; [vm_compute; discriminate|]. split; [|split].
  - cbn. lia.
  - change (readable_map [(of_string "setConfig", VText text)]) with (((zlen text <=? 100000) && ((zlen text <=? 32767) || (65536 <=? zlen text))) && true). lia.
  - change (mk_request _ _) with (set_request text). rewrite set_request_bytes by exact Hz. rewrite zlen_app. unfold lead. rewrite !zlen_app, !be_zlen. 
    assert (zlen (if zlen text <=? 253 then be 1 (zlen text) else [255] ++ be 2 (zlen text)) <= 3) by (destruct (zlen text <=? 253); [rewrite be_zlen; lia|rewrite zlen_app, be_zlen; cbn; lia]).
    change (zlen (enc_string (of_string "SET_CONFIGURE_WAS"))) with 18. change (zlen (enc_decimal 1)) with 2. change (zlen (enc_string (of_string "setConfig"))) with 10. lia.
Qed.

(** A SET_CONFIGURE_WAS whose text is cut by a TCP segment boundary is obeyed at once, and the configuration file then holds the first part of the text, filled up with
    zero bytes; the rest of the text is taken for the next frame. *)
Theorem C81_cut_text_refuted me ops h text1 text2 rest s c : text1 <> [] -> text2 <> [] -> zlen (text1 ++ text2) <= 32767 ->
  conf_run ops (hs_conf s) = Some c -> identity (c_conf c) = me -> h_save_ok h = true ->
  let bytes := frame (request_bytes (set_request (text1 ++ text2))) ++ rest in
  exists first_segment s' replies, bytes = first_segment ++ (text2 ++ rest) /\
    process_loop me [(ops, h)] [first_segment; text2 ++ rest] s = (s', replies, None) /\
    hs_file s' = Some (text1 ++ repeat 0 (length text2)).
Proof.
  intros N1 N2 Hz Ec Ei Hs. cbv zeta. set (n := zlen (text1 ++ text2)) in *.
  assert (0 < n) as Hn. { subst n. destruct text1 as [|x text1]; [congruence|]. cbn [app]. rewrite zlen_cons. pose proof (zlen_nonneg (text1 ++ text2)). lia. }
  set (padded := text1 ++ repeat 0 (length text2)).
  assert (zlen padded = n) as Hp. { subst padded n. unfold zlen. rewrite !app_length, repeat_length. reflexivity. }
  rewrite (set_request_bytes (text1 ++ text2)) by lia. fold n. set (p1 := lead n ++ text1).
  assert (lead n ++ text1 ++ text2 = p1 ++ text2) as E1 by (subst p1; rewrite <- app_assoc; reflexivity).
  assert (zlen (p1 ++ text2) <= 2147483647) as Hq.
  { rewrite <- E1. destruct (set_request_ok (text1 ++ text2)) as (_ & _ & _ & Q); [fold n; lia|]. rewrite set_request_bytes in Q by (fold n; lia). exact Q. }
  destruct (C54_split_refuted p1 text2 rest) as (r' & Er & _); [subst p1; unfold lead; destruct text1; [congruence|]; intros X; apply app_eq_nil in X; destruct X; discriminate|exact N2|exact Hq|].
  assert (p1 ++ repeat 0 (length text2) = request_bytes (set_request padded)) as Eq.
  { rewrite set_request_bytes by lia. rewrite Hp. subst p1 padded. rewrite <- app_assoc. reflexivity. }
  destruct (handle h (of_string "SET_CONFIGURE_WAS") (Some (PMap [(of_string "setConfig", VText padded)])) (set_conf c s) new_dout) as [[s1 o1] res] eqn:Eh.
  exists (be 4 (zlen (p1 ++ text2)) ++ p1), s1, [response o1 res]. split; [|split].
  - unfold frame. rewrite E1, <- !app_assoc. reflexivity.
  - cbn [process_loop]. rewrite Ec, Ei, same_identity, Er, Eq. rewrite (request_read h (set_request padded)) by (apply set_request_ok; lia).
    cbn [set_request rq_cmd rq_param]. rewrite Eh. reflexivity.
  - assert (o1 = new_dout) as ->. { revert Eh. unfold handle. change (get (of_string "SET_CONFIGURE_WAS") commands) with (Some SetConfigureWas). destruct (save_config _ _ _) as [s2 [t|]]; intros [= _ <- _]; reflexivity. }
    destruct (C61_answer _ _ _ _ _ _ Eh) as (_ & B). destruct (B Hs) as (F & _). exact F.
Qed.

(** Cases: a good request and then one with an unknown pack type, cut in the middle of the first length; a frame with a negative length; a configuration cut in two. *)
Example C81_case : let conn := [[0; 0]; skipn 2 (frame keep_alive) ++ frame [1; 65; 9] ++ frame keep_alive] in
  (exists s, talking = Some s /\ process_loop (identity (c_conf (hs_conf s))) (repeat ([], ex_henv) 3) conn s = (s, [[4]], Some EndPanic)) /\
  ~ occurs (of_string "SET_CONFIGURE_WAS") (concat conn) /\
  (forall h s, handle_frame h [255; 128; 0] s = FPanic) /\ Forall is_byte [255; 128; 0] /\ negative_length [255; 128; 0].
Proof.
  cbv zeta. split; [|split; [|split; [|split]]].
  - assert (match talking with Some s => true | None => false end = true) as E by (vm_compute; reflexivity). destruct talking as [s|]; [|discriminate]. exists s. split; [reflexivity|].
    assert (set_conf (hs_conf s) s = s) as Es by (destruct s; reflexivity).
    assert (forall h, handle_frame h keep_alive s = FReply s [4]) as Ek by reflexivity.
    assert (forall h, handle_frame h [1; 65; 9] s = FPanic) as Eu by reflexivity.
    cbn [repeat process_loop conf_run]. rewrite Es, same_identity.
    replace (read_int_bytes [[0; 0]; skipn 2 (frame keep_alive) ++ frame [1; 65; 9] ++ frame keep_alive]) with
      (Ret keep_alive None [frame [1; 65; 9] ++ frame keep_alive]) by (vm_compute; reflexivity).
    rewrite Ek, Es, same_identity.
    replace (read_int_bytes [frame [1; 65; 9] ++ frame keep_alive]) with (Ret [1; 65; 9] None [frame keep_alive]) by (vm_compute; reflexivity).
    rewrite Eu. reflexivity.
  - intros (b & a & E). apply (f_equal (fun l => existsb (Z.eqb 83) l)) in E. cbv beta in E. rewrite (existsb_app _ b), existsb_app in E.
    assert (existsb (Z.eqb 83) (of_string "SET_CONFIGURE_WAS") = true) as E2 by reflexivity. rewrite E2, Bool.orb_true_l, Bool.orb_true_r in E. vm_compute in E. discriminate E.
  - intros h s. reflexivity.
  - repeat constructor; unfold is_byte; lia.
  - exists [], 255, 128, [0]. repeat split; auto. lia.
Qed.
Example C81_cut_case : exists s c, talking = Some s /\ conf_run [] (hs_conf s) = Some c /\ h_save_ok ex_henv = true /\ zlen (of_string "x=" ++ of_string "12") <= 32767.
Proof.
  assert (match talking with Some s => true | None => false end = true) as E by (vm_compute; reflexivity). destruct talking as [s|]; [|discriminate].
  exists s, (hs_conf s). repeat split. vm_compute. discriminate.
Qed.
Print Assumptions C81_reading_ends.
Print Assumptions C81_panic_partial.
Print Assumptions C81_panic_refuted.
Print Assumptions C81_only_commands.
Print Assumptions C81_config_untouched.
Print Assumptions C81_bad_request.
Print Assumptions C81_cut_text_refuted.
