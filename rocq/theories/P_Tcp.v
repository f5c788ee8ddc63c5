(** Properties C53-C56, C61, C67 (listing), C68-C70: the command connection. *)
From Verif Require Import GoInt M_Util M_StrMatch M_Cache L_Cache M_Text M_Sampler M_Profile M_Trace S_Trace L_Trace L_TraceInv L_TraceActive.
From Verif Require Import M_OutX M_InX M_Value M_Packs M_Access M_Dump M_Conf M_Tcp S_Wire S_Packs S_Conf S_Dump S_Tcp.
From Verif Require Import L_Codec L_Value L_Dump L_Conf L_Tcp P_Packs P_Conf P_Trace.
Import S_Trace.
From Coq Require Import ZifyBool Permutation.

(** ** C53: responses are correctly framed *)

Lemma parses_int_bytes p : zlen p <= 2147483647 -> parses p_int_bytes (frame p) p.
Proof.
  intros H rest. unfold p_int_bytes, frame. pose proof (zlen_nonneg p).
  rewrite <- app_assoc. unfold pbind. rewrite (parses_i32 (zlen p)) by (unfold in_int32; lia).
  unfold p_take. rewrite zlen_app. replace ((0 <=? zlen p) && (zlen p <=? zlen p + zlen rest)) with true by (pose proof (zlen_nonneg rest); lia).
  unfold zlen. rewrite Nat2Z.id, firstn_app, firstn_all, skipn_app, skipn_all, Nat.sub_diag. cbn [firstn skipn app]. rewrite app_nil_r. reflexivity.
Qed.

Lemma next_response_items {A B} (p : parser A) (enc : B -> bytes) (v : B -> A) l rest : (forall x, In x l -> parses p (enc x) (v x)) ->
  next_response p ((concat (map (fun c => be 1 3 ++ enc c) l) ++ be 1 4) ++ rest) = Some (map v l, rest).
Proof.
  intro H. unfold next_response. apply parses_items; [exact H|].
  rewrite !app_length, be_length. clear. induction l as [|x l IH]; cbn [map concat length]; [lia|].
  rewrite !app_length, be_length. lia.
Qed.

Lemma written_items_response chunks w : writes w (enc_items chunks) -> Forall (fun c => (length c <= 4096)%nat) chunks ->
  forall rest, next_response p_blob (response (w new_dout) None ++ rest) = Some (chunks, rest).
Proof.
  intros Hw Hc rest. unfold response.
  assert (buf (write_uint8 NoNEXT (w new_dout)) = enc_items chunks ++ be 1 4) as ->.
  { apply (writes_buf (fun o => write_uint8 NoNEXT (w o))). apply (writes_comp w); [exact Hw|apply writes_uint8]. }
  unfold enc_items. rewrite (next_response_items p_blob enc_blob (fun c => c)); [rewrite map_id; reflexivity|].
  intros x Hx. apply parses_blob. rewrite Forall_forall in Hc. specialize (Hc x Hx). unfold zlen. lia.
Qed.

Lemma no_items : writes (fun o => o) (enc_items []).
Proof. intros o Ho. unfold enc_items. cbn. destruct o as [w b]. unfold emit. cbn in *. rewrite app_nil_r, Z.add_0_r. rewrite int32_id by exact Ho. reflexivity. Qed.

Lemma empty_response rest : next_response p_blob (response new_dout None ++ rest) = Some ([], rest).
Proof. apply (written_items_response [] (fun o => o)); [apply no_items|constructor]. Qed.

(** Whatever the command, its parameter, the state and the files, the collector reads from the connection exactly
    the items of this response - a stream of blobs, or the one returned pack - and is left with what follows it. *)
Theorem C53_framed h cmd param s s' out res rest : handle h cmd param s new_dout = (s', out, res) ->
  (forall q, res = Some q -> zlen (buf (write_pack q new_dout)) <= 2147483647) ->
  match res with
  | Some q => next_response p_int_bytes (response out res ++ rest) = Some ([buf (write_pack q new_dout)], rest)
  | None => exists chunks, next_response p_blob (response out res ++ rest) = Some (chunks, rest)
  end.
Proof.
  intros H Hz.
  assert (match res with Some q => out = new_dout | None => exists chunks, next_response p_blob (response out None ++ rest) = Some (chunks, rest) end) as K.
  { unfold handle in H. destruct (get cmd commands) as [k|]; [|injection H as <- <- <-; exists []; apply empty_response].
    destruct k; try (match type of H with context [h_walk_ok h] => destruct (h_walk_ok h) end); try (injection H as <- <- <-; try reflexivity; exists []; apply empty_response).
    - injection H as <- <- <-. destruct param; [reflexivity|exists []; apply empty_response].
    - destruct (heavy_all_stack_trace _ _ _ _ _ _ _) as [t d]. injection H as <- <- <-. reflexivity.
    - destruct param as [[p| | | | | | | |]|]; injection H as <- <- <-; try (exists []; apply empty_response).
      unfold stream_dump_file. destruct (fs_open _ _) as [f|]; [|exists []; apply empty_response].
      destruct (stream_loop_chunks (S (length (concat (h_split h (f_data f))))) (h_split h (f_data f))) as (chunks & Hw & _ & Hl); [lia|].
      exists chunks. apply (written_items_response chunks _ Hw). eapply Forall_impl; [|exact Hl]. cbn beta; intros; lia.
    - destruct param as [[p| | | | | | | |]|]; injection H as <- <- <-; try (exists []; apply empty_response).
      unfold download_binary_dump. destruct (download_name _ _ _) as [full|]; [|exists []; apply empty_response].
      destruct (fs_open _ _) as [f|]; [|exists []; apply empty_response].
      destruct (download_loop_any (f_data f) (h_bad h) (S (length (f_data f))) 0) as (chunks & t & Hw & _ & Hl); [lia|].
      exists chunks. apply (written_items_response chunks _ Hw). eapply Forall_impl; [|exact Hl]. cbn beta; intros; lia.
    - destruct param as [[p| | | | | | | |]|]; try (injection H as <- <- <-; exists []; apply empty_response).
      destruct (delete_binary_dump _ _ _ _ _) as [t d]. injection H as <- <- <-. reflexivity.
    - destruct (save_config h param s) as [s1 [t|]]; injection H as <- <- <-; [reflexivity|exists []; apply empty_response]. }
  destruct res as [q|]; [|exact K]. subst out.
  rewrite (writes_response_pack q (fun o => o) [] no_items). cbn [app].
  pose proof (next_response_items p_int_bytes frame (fun c => c) [buf (write_pack q new_dout)] rest) as N.
  cbn [map concat] in N. rewrite app_nil_r in N. rewrite <- app_assoc in N. rewrite <- !app_assoc. rewrite <- !app_assoc in N. apply N.
  intros x [<-|[]]. apply parses_int_bytes. apply Hz. reflexivity.
Qed.

(** ... the payload of a returned pack decodes to it (as the collector sees packs, property C11) ... *)
Theorem C53_payload_decodes q : go_pack q = true ->
  p_pack (needs_v2 q) (buf (write_pack q new_dout)) = Some (collector_pack q, []).
Proof. intro H. rewrite <- (app_nil_r (buf _)). apply C11_pack_decodable. exact H. Qed.

(** ... and an unknown command, like KEEP_ALIVE, is answered with the single end flag and changes nothing. *)
Theorem C53_unknown_command h cmd param s : (forall k, ~ In (cmd, k) commands) \/ cmd = of_string "KEEP_ALIVE" ->
  handle h cmd param s new_dout = (s, new_dout, None) /\ response new_dout None = [4].
Proof.
  intro H. split; [|reflexivity]. unfold handle.
  assert (get cmd commands = None \/ get cmd commands = Some KeepAlive) as [-> | ->]; [|reflexivity|reflexivity].
  destruct H as [H | ->]; [left|right; reflexivity].
  revert H. generalize commands. induction l as [|[k v] l IH]; intro H; [reflexivity|]. cbn [get].
  destruct (beqb_spec cmd k) as [->|N]; [exfalso; apply (H v); left; reflexivity|].
  apply IH. intros x I. apply (H x). right. exact I.
Qed.

(** Every frame is answered with one such response, or ends the session. *)
Theorem C53_frame_response h bs s s' resp rest : handle_frame h bs s = FReply s' resp -> zlen resp <= 2147483647 ->
  (exists chunks, next_response p_blob (resp ++ rest) = Some (chunks, rest)) \/
  (exists q, next_response p_int_bytes (resp ++ rest) = Some ([buf (write_pack q new_dout)], rest)).
Proof.
  unfold handle_frame. destruct (read_string (buffer bs)) as [cmd e r| |]; try discriminate.
  destruct (read_pack r) as [param [e'|] r'| |]; try discriminate.
  destruct (handle h cmd param s new_dout) as [[s1 out] res] eqn:E. intros H Hz. injection H as <- <-.
  pose proof (C53_framed h cmd param s s1 out res rest E) as F.
  destruct res as [q|]; [right|left; apply F; discriminate].
  exists q. apply F. intros q' Eq. injection Eq as <-. unfold response in Hz.
  set (pb := buf (write_pack q new_dout)) in *.
  cbn [write_uint8 write_int_bytes write_raw write_int32 emit buf] in Hz. rewrite !zlen_app in Hz.
  pose proof (zlen_nonneg (buf out)). pose proof (zlen_nonneg (be 1 HasNEXT)). pose proof (zlen_nonneg (be 4 (int32 (zlen pb)))). pose proof (zlen_nonneg (be 1 NoNEXT)). lia.
Qed.

(** ** C54: requests are read whole *)

(** When no payload is cut, the session is the same however the stream is segmented otherwise. *)
Theorem C54_unsplit_partial me its r ps s : carries r ps -> unsplit r ps ->
  process_loop me its r s = process_loop me its (map frame ps) s.
Proof.
  intros C U. apply (process_carries me its r (map frame ps) ps s C U).
  - destruct C as [_ F]. split; [reflexivity|exact F].
  - apply whole_unsplit.
Qed.

(** A payload cut in two is not read whole: the missing part is replaced by zeros and itself taken for the start of
    the next frame. *)
Theorem C54_split_refuted p1 p2 rest : p1 <> [] -> p2 <> [] -> zlen (p1 ++ p2) <= 2147483647 ->
  exists r', read_int_bytes [be 4 (zlen (p1 ++ p2)) ++ p1; p2 ++ rest] = Ret (p1 ++ repeat 0 (length p2)) None r' /\
    concat r' = p2 ++ rest.
Proof.
  intros N1 N2 Hz.
  unfold read_int_bytes, read_int32, read_fixed, read_full.
  assert (length (be 4 (zlen (p1 ++ p2))) = 4%nat) as Hl by apply be_length.
  set (hd := be 4 (zlen (p1 ++ p2))) in *.
  cbn [concat]. replace (4 <=? length ((hd ++ p1) ++ (p2 ++ rest) ++ []))%nat with true by (symmetry; apply Nat.leb_le; rewrite !app_length; lia).
  assert (firstn 4 ((hd ++ p1) ++ (p2 ++ rest) ++ []) = hd) as ->.
  { rewrite <- app_assoc, firstn_app, Hl, Nat.sub_diag, firstn_O, app_nil_r. apply firstn_all2. lia. }
  cbn [bind rd_drop]. replace (4 <=? length (hd ++ p1))%nat with true by (symmetry; apply Nat.leb_le; rewrite app_length; lia).
  assert (int32 (unbe hd) = zlen (p1 ++ p2)) as ->.
  { subst hd. rewrite unbe_be. pose proof (zlen_nonneg (p1 ++ p2)).
    rewrite Z.mod_small by (change (256 ^ Z.of_nat 4) with 4294967296; lia). apply int32_id. unfold in_int32. lia. }
  rewrite skipn_app, Hl, Nat.sub_diag, (skipn_all2 hd) by lia. cbn [skipn app].
  unfold read_bytes, read_n. pose proof (zlen_nonneg (p1 ++ p2)). replace (zlen (p1 ++ p2) <? 0) with false by lia.
  cbn [rd_read]. replace (zlen (p1 ++ p2) =? 0) with false by (destruct p1; [congruence|cbn [app]; rewrite zlen_cons; pose proof (zlen_nonneg (p1 ++ p2)); lia]).
  destruct p1 as [|c p1]; [congruence|]. unfold zlen. rewrite Nat2Z.id.
  rewrite firstn_all2 by (rewrite app_length; lia). rewrite skipn_all2 by (rewrite app_length; lia).
  eexists. split; [f_equal; rewrite app_length; f_equal; f_equal; lia|]. cbn. rewrite app_nil_r. reflexivity.
Qed.

(** In a session: the same KEEP_ALIVE bytes, whole and cut after their third payload byte. *)
Definition keep_alive : bytes := 10 :: of_string "KEEP_ALIVE" ++ [10; 0].
Theorem C54_refuted h s :
  concat [firstn 7 (frame keep_alive); skipn 7 (frame keep_alive)] = concat [frame keep_alive] /\
  let me := identity (c_conf (hs_conf s)) in
  process_loop me [([], h)] [frame keep_alive] s = (s, [[4]], None) /\
  process_loop me [([], h)] [firstn 7 (frame keep_alive); skipn 7 (frame keep_alive)] s = (s, [], Some EndPanic).
Proof.
  split; [reflexivity|]. cbv zeta.
  assert (forall i, identity_eqb i i = true) as Hi by (intros [[a b] c]; cbn; rewrite !Z.eqb_refl, beqb_refl; reflexivity).
  destruct s as [d a c f]. cbn [process_loop conf_run hs_conf set_conf]. rewrite Hi. split; reflexivity.
Qed.

(** ** C55: reconnect back-off *)

Lemma delays_eq os : forall w, delays_from w (start_tcp os) =
  match os with [] => [] | _ => (w + 1000) :: map (fun o => if failed o then 4000 else 1000) (removelast os) end.
Proof.
  induction os as [|o os IH]; intro w; [reflexivity|]. unfold start_tcp in *. cbn [flat_map].
  assert (delays_from w (tcp_iteration o ++ flat_map tcp_iteration os) =
    (w + 1000) :: delays_from (if failed o then 3000 else 0) (flat_map tcp_iteration os)) as -> by (destruct o; reflexivity).
  rewrite IH. destruct os as [|o2 os]; [reflexivity|]. cbn [removelast map].
  destruct (failed o); reflexivity.
Qed.

(** In every history the pause before each attempt is at most one minute; after a failed attempt it lies
    between 3 s and 60 s. *)
Theorem C55_bounded_partial os :
  length (delays (start_tcp os)) = length os /\ Forall (fun d => 1000 <= d <= 60000) (delays (start_tcp os)) /\
  (forall os1 o os2 o2, os = os1 ++ o :: o2 :: os2 -> failed o = true ->
     exists d, nth_error (delays (start_tcp os)) (S (length os1)) = Some d /\ 3000 <= d <= 60000).
Proof.
  unfold delays. rewrite delays_eq. destruct os as [|o os]; [split; [reflexivity|split; [constructor|]]; intros [|] ? ? ? F; discriminate|].
  split; [|split].
  - cbn [length]. rewrite map_length. f_equal. clear. revert o. induction os as [|a os IH]; intro o; [reflexivity|]. cbn [removelast length]. f_equal. apply IH.
  - constructor; [lia|]. apply Forall_forall. intros d I. apply in_map_iff in I as (o' & <- & _). destruct (failed o'); lia.
  - intros os1 o1 os2 o2 E Hf. rewrite E. cbn [nth_error].
    replace (os1 ++ o1 :: o2 :: os2) with ((os1 ++ [o1]) ++ o2 :: os2) by (rewrite <- app_assoc; reflexivity).
    rewrite removelast_app by discriminate. rewrite !map_app. cbn [map].
    exists 4000. split; [|lia]. rewrite <- app_assoc. rewrite nth_error_app2 by (rewrite map_length; lia).
    rewrite map_length, Nat.sub_diag. cbn [app nth_error]. rewrite Hf. reflexivity.
Qed.

(** It never grows: any number of consecutive failures are all 4 s apart ... *)
Theorem C55_no_doubling_refuted os : Forall (fun o => failed o = true) os ->
  delays (start_tcp os) = match os with [] => [] | _ => 1000 :: repeat 4000 (length os - 1) end.
Proof.
  intro H. unfold delays. rewrite delays_eq. destruct os as [|o os]; [reflexivity|]. f_equal.
  replace (length (o :: os) - 1)%nat with (length (removelast (o :: os))).
  2:{ clear. revert o. induction os as [|a os IH]; intro o; [reflexivity|]. cbn [removelast length] in *. rewrite IH. lia. }
  assert (Forall (fun o => failed o = true) (removelast (o :: os))) as F.
  { rewrite Forall_forall in *. intros x I. apply H.
    assert (removelast (o :: os) ++ [last (o :: os) o] = o :: os) as <- by (symmetry; apply app_removelast_last; discriminate).
    apply in_or_app. left. exact I. }
  clear H. induction F as [|x l Hx F IH]; [reflexivity|]. cbn [map length repeat]. rewrite Hx, IH. reflexivity.
Qed.

(** ... and after a connection that ended without error, or by a panic, the next attempt follows after 1 s. *)
Theorem C55_minimum_refuted os1 o os2 o2 : failed o = false ->
  nth_error (delays (start_tcp (os1 ++ o :: o2 :: os2))) (S (length os1)) = Some 1000.
Proof.
  intro Hf. unfold delays. rewrite delays_eq.
  destruct (os1 ++ o :: o2 :: os2) as [|a os] eqn:E; [destruct os1; discriminate|]. rewrite <- E. cbn [nth_error].
  replace (os1 ++ o :: o2 :: os2) with ((os1 ++ [o]) ++ o2 :: os2) by (rewrite <- app_assoc; reflexivity).
  rewrite removelast_app by discriminate. rewrite !map_app. cbn [map].
  rewrite <- app_assoc. rewrite nth_error_app2 by (rewrite map_length; lia).
  rewrite map_length, Nat.sub_diag. cbn [app nth_error]. rewrite Hf. reflexivity.
Qed.

Example C55_example : delays (start_tcp [DialFailed; DialFailed; SessionError; SessionPanic; SessionDone; DialFailed]) =
  [1000; 4000; 4000; 4000; 1000; 1000].
Proof. reflexivity. Qed.

(** A stream cut inside a length (not inside a payload) meets the hypotheses of [C54_unsplit_partial]. *)
Example C54_example : carries [[0; 0]; [0; 13] ++ keep_alive ++ [0]; [0; 0; 13] ++ keep_alive] [keep_alive; keep_alive] /\
  unsplit [[0; 0]; [0; 13] ++ keep_alive ++ [0]; [0; 0; 13] ++ keep_alive] [keep_alive; keep_alive].
Proof.
  split; [split; [reflexivity|repeat constructor; cbn; lia]|].
  intros ps1 p ps2 k E (r1 & r2 & Er & <-). cbv zeta.
  assert (length (concat r1) = 0 \/ length (concat r1) = 2 \/ length (concat r1) = 18 \/ length (concat r1) = 34)%nat as Hk.
  { destruct r1 as [|a [|b [|c [|d r1]]]]; cbn [app] in Er; [auto| | | |];
      injection Er as; subst; try discriminate; auto. }
  destruct ps1 as [|q1 [|q2 ps1]]; cbn [app] in E; injection E as; subst; try (destruct ps1; discriminate);
    cbn; cbn in Hk; lia.
Qed.

(** ** C56: the active-service response *)

Lemma rows_columns h l : forall c, fold_left (fun c x => add_row h x c) l c =
  mk_columns (c_id c ++ map (fun x => VDec (x_Goid x)) l)
    (c_elapsed c ++ map (fun x => VDec (millis_between (x_StartTime x) (h_now h))) l)
    (c_service c ++ map (fun x => VText (x_ServiceName x)) l)
    (c_name c ++ map (fun x => VText (goroutine_name (x_Goid x))) l)
    (c_txid c ++ map (fun x => VText (int_to_xlog_string32 (x_Txid x))) l)
    (c_ip c ++ map (fun x => VText (x_RemoteIp x)) l)
    (c_state c ++ map (fun _ => VText (of_string "n/a")) l)
    (c_cpu c ++ map (fun _ => VDec (-1)) l)
    (c_sql c ++ map (fun _ => VText (of_string "n/a")) l)
    (c_subcall c ++ map (fun _ => VText (of_string "n/a")) l).
Proof.
  induction l as [|x l IH]; intro c; cbn [fold_left map]; [rewrite !app_nil_r; destruct c; reflexivity|].
  rewrite IH. unfold add_row, list_add_int64, list_add_int32, list_add_string, list_add.
  cbn [c_id c_elapsed c_service c_name c_txid c_ip c_state c_cpu c_sql c_subcall]. rewrite <- !app_assoc. reflexivity.
Qed.

Lemma contexts_idx l : forall i (g : nat -> option tctx), (forall k x, nth_error l k = Some x -> g (i + k)%nat = Some x) ->
  flat_map (fun j => match g j with Some x => [x] | None => [] end) (open_idx i (map flag l)) = filter (fun x => negb (x_Closed x)) l.
Proof.
  induction l as [|x l IH]; intros i g Hg; [reflexivity|]. cbn [map open_idx flag filter].
  assert (forall k y, nth_error l k = Some y -> g (S i + k)%nat = Some y) as Hg' by (intros k y Ey; replace (S i + k)%nat with (i + S k)%nat by lia; apply Hg; exact Ey).
  specialize (IH (S i) g Hg'). pose proof (Hg O x eq_refl) as Hx. rewrite Nat.add_0_r in Hx.
  destruct (x_Closed x); cbn [app flat_map negb]; [exact IH|]. rewrite Hx. cbn [app]. rewrite IH. reflexivity.
Qed.

(** After any history (distinct transaction ids, never more than the table's 10000 services at once), the response to
    OBJECT_ACTIVE_SERVICE_LIST has one row per running service, each column in the same row order. *)
Theorem C56_active_list c ops h param s out : NoDup (txids (after c ops)) ->
  (forall p q, ops = p ++ q -> running_count (after c p) <= 10000) ->
  hs_agent s = after c ops -> Permutation (h_order h) (M_Cache.table (a_active (after c ops))) ->
  exists t rows,
    handle h (of_string "OBJECT_ACTIVE_SERVICE_LIST") param s out = (s, out, Some (PMap t)) /\
    Permutation rows (filter (fun x => negb (x_Closed x)) (a_ctx (after c ops))) /\
    let column (k : gostring) (f : tctx -> value) := get k t = Some (VList (map f rows)) in
    column (of_string "id") (fun x => VDec (x_Goid x)) /\
    column (of_string "elapsed") (fun x => VDec (millis_between (x_StartTime x) (h_now h))) /\
    column (of_string "service") (fun x => VText (x_ServiceName x)) /\
    column (of_string "name") (fun x => VText (of_string "[goroutine] " ++ format_int 10 (x_Goid x))) /\
    column (of_string "txid") (fun x => VText (int_to_xlog_string32 (x_Txid x))) /\
    column (of_string "ip") (fun x => VText (x_RemoteIp x)) /\
    column (of_string "stat") (fun _ => VText (of_string "n/a")) /\
    column (of_string "cpu") (fun _ => VDec (-1)) /\
    column (of_string "sql") (fun _ => VText (of_string "n/a")) /\
    column (of_string "subcall") (fun _ => VText (of_string "n/a")) /\
    get (of_string "complete") t = Some (VBool true).
Proof.
  intros Nd Hc Ea Ho.
  exists (get_active_list h (hs_agent s)), (active_contexts h (hs_agent s)). split; [reflexivity|]. split.
  - rewrite Ea. unfold active_contexts.
    assert (tabled (after c ops)) as T by exact (tabled_run ops _ (tabled_init c) Nd Hc).
    pose proof (handles_perm (after c ops) (h_order h) T Ho) as P.
    rewrite <- (contexts_idx (a_ctx (after c ops)) 0 (nth_error (a_ctx (after c ops)))); [|intros k x E; exact E].
    apply Permutation_flat_map. exact P.
  - cbv zeta. unfold get_active_list. rewrite rows_columns. cbn [c_id c_elapsed c_service c_name c_txid c_ip c_state c_cpu c_sql c_subcall app].
    repeat split.
Qed.

(** ** C61: saving the configuration *)

(** What SET_CONFIGURE_WAS answers: 'result' is the text "true" if the file was saved, the boolean false if not; if
    the reload after the save panics there is no answer at all. The text is in the file in both saved cases. *)
Theorem C61_answer h p s s' out res : handle h (of_string "SET_CONFIGURE_WAS") (Some (PMap p)) s out = (s', out, res) ->
  let text := get_string (of_string "setConfig") p in
  (h_save_ok h = false -> exists t, res = Some (PMap t) /\ get (of_string "result") t = Some (VBool false)) /\
  (h_save_ok h = true -> hs_file s' = Some text /\
     ((exists t c ch, res = Some (PMap t) /\ get (of_string "result") t = Some (VText (of_string "true")) /\
         refresh_conf (h_world h) (hs_conf s) = Some (c, ch) /\ hs_conf s' = c) \/
      (res = None /\ refresh_conf (h_world h) (hs_conf s) = None))).
Proof.
  intro H. cbv zeta. unfold handle in H. replace (get (of_string "SET_CONFIGURE_WAS") commands) with (Some SetConfigureWas) in H by reflexivity.
  unfold save_config in H. destruct (h_save_ok h).
  - split; [discriminate|]. intros _.
    destruct (refresh_conf (h_world h) (hs_conf (set_file _ s))) as [[c ch]|] eqn:Er; injection H as <- <-.
    + split; [reflexivity|]. left. eexists _, c, ch. repeat split. exact Er.
    + split; [reflexivity|]. right. split; [reflexivity|exact Er].
  - split; [|discriminate]. intros _. injection H as <- <-. eexists. split; reflexivity.
Qed.

(** So the boolean 'result' never says that the file was saved. *)
Theorem C61_refuted h p s s' out t : handle h (of_string "SET_CONFIGURE_WAS") (Some (PMap p)) s out = (s', out, Some (PMap t)) ->
  get_boolean (of_string "result") t = false.
Proof.
  intro H. destruct (C61_answer _ _ _ _ _ _ H) as [A B]. unfold get_boolean.
  destruct (h_save_ok h).
  - destruct (B eq_refl) as (_ & [(t' & c & ch & E & Et & _)|[E _]]); [|discriminate]. injection E as <-. rewrite Et. reflexivity.
  - destruct (A eq_refl) as (t' & E & Et). injection E as <-. rewrite Et. reflexivity.
Qed.

(** ** C67: the listing commands *)

Lemma keyed_puts (f : gostring * cdesc -> value) (any : gostring * cdesc -> goany) d :
  (forall e t, mappack_put (cd_Key (snd e)) (any e) t = put (cd_Key (snd e)) (f e) t) ->
  NoDup (map (fun e => cd_Key (snd e)) d) ->
  fold_left (fun t e => mappack_put (cd_Key (snd e)) (any e) t) d [] = map (fun e => (cd_Key (snd e), f e)) d.
Proof.
  intros Ha Nd.
  transitivity (fold_left (fun t (e : gostring * value) => put (fst e) (snd e) t) (map (fun e => (cd_Key (snd e), f e)) d) []).
  - clear Nd. generalize (@nil (gostring * value)). induction d as [|e d IH]; intro t; [reflexivity|]. cbn [fold_left map fst snd].
    rewrite Ha. apply IH.
  - rewrite put_all_fresh; [reflexivity|]. cbn [map app]. rewrite map_map. exact Nd.
Qed.

(** In any state, the three listing commands answer with one row (or key) per description, in the table's order. *)
Theorem C67_listing h param s out :
  let d := map snd (c_descs (hs_conf s)) in
  NoDup (map cd_Key d) ->
  (exists t, handle h (of_string "LIST_CONFIGURE_WAS") param s out = (s, out, Some (PMap t)) /\
     get (of_string "key") t = Some (VList (map (fun e => VText (cd_Key e)) d)) /\
     get (of_string "value") t = Some (VList (map (fun e => VText (cd_Value e)) d)) /\
     get (of_string "default") t = Some (VList (map (fun e => VText (cd_Default e)) d))) /\
  handle h (of_string "CONFIGURE_DESC") param s out = (s, out, Some (PMap (map (fun e => (cd_Key e, VText (cd_Desc e))) d))) /\
  handle h (of_string "CONFIGURE_VALUE_TYPE") param s out = (s, out, Some (PMap (map (fun e => (cd_Key e, VDec (int32 (cd_Type e)))) d))).
Proof.
  intros d Nd. subst d. rewrite map_map in Nd. split; [|split].
  - exists (list_config (c_descs (hs_conf s))). split; [reflexivity|]. unfold list_config.
    assert (forall l a b c, fold_left (fun (acc : list value * list value * list value) (e : gostring * cdesc) =>
      let '(k, v, df) := acc in
      (list_add_string (cd_Key (snd e)) k, list_add_string (cd_Value (snd e)) v, list_add_string (cd_Default (snd e)) df)) l (a, b, c) =
      (a ++ map (fun e => VText (cd_Key e)) (map snd l), b ++ map (fun e => VText (cd_Value e)) (map snd l), c ++ map (fun e => VText (cd_Default e)) (map snd l))) as F.
    { induction l as [|e l IH]; intros a b c; cbn [fold_left map]; [rewrite !app_nil_r; reflexivity|].
      rewrite IH. unfold list_add_string, list_add. rewrite <- !app_assoc. reflexivity. }
    rewrite F. cbn [app]. repeat split.
  - unfold handle. replace (get (of_string "CONFIGURE_DESC") commands) with (Some ConfigureDesc) by reflexivity.
    unfold list_config_description. rewrite (keyed_puts (fun e => VText (cd_Desc (snd e)))); [|reflexivity|exact Nd].
    rewrite map_map. reflexivity.
  - unfold handle. replace (get (of_string "CONFIGURE_VALUE_TYPE") commands) with (Some ConfigureValueType) by reflexivity.
    unfold list_config_value_type. rewrite (keyed_puts (fun e => VDec (int32 (cd_Type (snd e))))); [|reflexivity|exact Nd].
    rewrite map_map. reflexivity.
Qed.

(** ... whose hypothesis holds in every configuration state that refreshes reach. *)
Theorem C67_listing_keys_distinct ops c : conf_run ops initial_cstate = Some c -> NoDup (map cd_Key (map snd (c_descs c))).
Proof.
  intro H. destruct (c_descs c) as [|e d] eqn:E; [constructor|].
  destruct (C67_descriptions_match ops c H) as [K V]; [rewrite E; discriminate|].
  assert (map cd_Key (map snd (c_descs c)) = map fst (c_descs c)) as K2.
  { rewrite map_map. apply map_ext_in. intros [k v] I. cbn [fst snd].
    assert (In k (map st_key settings)) as Ik by (rewrite <- K; apply (in_map fst) in I; exact I).
    apply in_map_iff in Ik as (st & <- & Hst). destruct (V st Hst) as (e' & G & Ek & _).
    assert (get (st_key st) (c_descs c) = Some v) as G2.
    { assert (NoDup (map fst (c_descs c))) as ND by (rewrite K; apply settings_nodup). revert I ND. clear.
      induction (c_descs c) as [|[q w] l IH]; [intros []|]. intros [I|I] ND; cbn [get].
      - injection I as <- <-. rewrite beqb_refl. reflexivity.
      - cbn [map fst] in ND. inversion ND; subst. destruct (beqb_spec (st_key st) q) as [<-|_]; [|apply IH; assumption].
        exfalso. apply H1. apply (in_map fst) in I. exact I. }
    rewrite G in G2. injection G2 as <-. exact Ek. }
  rewrite E in K2 at 1. rewrite K2, K. apply settings_nodup.
Qed.

(** ** C68: the connection follows the configuration *)

Lemma identity_eqb_eq a b : identity_eqb a b = true <-> a = b.
Proof.
  destruct a as [[h1 i1] p1], b as [[h2 i2] p2]. cbn. rewrite !andb_true_iff, !Z.eqb_eq, beqb_eq. split; [intros [[-> ->] ->]; reflexivity|].
  intro E. injection E as -> -> ->. auto.
Qed.

Lemma process_app me its1 : forall its2 conn s s1 outs1, process_loop me its1 conn s = (s1, outs1, None) ->
  exists conn1, process_loop me (its1 ++ its2) conn s =
    (let '(s2, outs2, e) := process_loop me its2 conn1 s1 in (s2, outs1 ++ outs2, e)).
Proof.
  induction its1 as [|[ops h] its1 IH]; intros its2 conn s s1 outs1 H; cbn [process_loop app] in *.
  - injection H as <- <-. exists conn. destruct (process_loop me its2 conn s) as [[? ?] ?]. reflexivity.
  - destruct (conf_run ops (hs_conf s)) as [c|]; [|discriminate].
    destruct (identity_eqb me (identity (c_conf c))); [|discriminate].
    destruct (read_int_bytes conn) as [fr [e|] conn'| |]; try discriminate.
    destruct (handle_frame h fr (set_conf c s)) as [s' bs| |]; try discriminate.
    destruct (process_loop me its1 conn' s') as [[s2 outs] e] eqn:E. injection H as <- <- ->.
    destruct (IH its2 conn' s' s2 outs E) as (conn1 & ->). exists conn1.
    destruct (process_loop me its2 conn1 s2) as [[? ?] ?]. reflexivity.
Qed.

(** As soon as the object hash, the collector address or its port no longer are those of the session when a new command
    is to be awaited, the session ends and nothing more is answered; while they are, it does not end for that reason. *)
Theorem C68_session_ends_on_change me its ops h its2 conn s s1 outs1 c :
  process_loop me its conn s = (s1, outs1, None) -> conf_run ops (hs_conf s1) = Some c ->
  (identity (c_conf c) <> me -> process_loop me (its ++ (ops, h) :: its2) conn s = (set_conf c s1, outs1, Some EndChanged)) /\
  (identity (c_conf c) = me -> forall s2 outs2, process_loop me (its ++ [(ops, h)]) conn s <> (s2, outs2, Some EndChanged)).
Proof.
  intros H Hc. split.
  - intro N. destruct (process_app me its ((ops, h) :: its2) conn s s1 outs1 H) as (conn1 & ->).
    cbn [process_loop]. rewrite Hc. destruct (identity_eqb me (identity (c_conf c))) eqn:E; [apply identity_eqb_eq in E; congruence|].
    rewrite app_nil_r. reflexivity.
  - intros E s2 outs2. destruct (process_app me its [(ops, h)] conn s s1 outs1 H) as (conn1 & ->).
    cbn [process_loop]. rewrite Hc. replace (identity_eqb me (identity (c_conf c))) with true by (symmetry; apply identity_eqb_eq; congruence).
    destruct (read_int_bytes conn1) as [fr [e|] conn'| |]; try discriminate.
    destruct (handle_frame h fr (set_conf c s1)) as [s' bs| |]; discriminate.
Qed.

Definition world_ip (ip : gostring) (m : Z) : world := mk_world [] (StatTime m) (Loaded [(of_string "net_collector_ip", ip)]) (of_string "h").

(** Refutation: if the address changes between dialling and the start of the command loop, the agent stays connected
    to the old collector, and keeps answering it, for any number of commands. *)
Lemma keep_alive_loop me h n : forall s, identity (c_conf (hs_conf s)) = me ->
  process_loop me (repeat ([], h) n) (repeat (frame keep_alive) n) s = (s, repeat [4] n, None).
Proof.
  induction n as [|n IH]; intros s E; [reflexivity|]. cbn [repeat process_loop conf_run].
  replace (set_conf (hs_conf s) s) with s by (destruct s; reflexivity).
  rewrite E. replace (identity_eqb me me) with true by (symmetry; apply identity_eqb_eq; reflexivity).
  assert (forall l, read_int_bytes (frame keep_alive :: l) = Ret keep_alive None ([] :: l)) as R by (intro l; reflexivity).
  assert (forall l s, process_loop me (repeat ([], h) n) ([] :: l) s = process_loop me (repeat ([], h) n) l s) as Skip.
  { clear. intros l s. destruct n as [|n]; [reflexivity|]. cbn [repeat process_loop]. destruct (conf_run [] (hs_conf s)) as [c|]; [|reflexivity].
    destruct (identity_eqb me (identity (c_conf c))); [|reflexivity].
    assert (read_int_bytes ([] :: l) = read_int_bytes l) as ->; [|reflexivity].
    unfold read_int_bytes, read_int32, read_fixed, read_full. cbn [concat app].
    destruct (4 <=? length (concat l))%nat eqn:El; [|reflexivity]. cbn [rd_drop length Nat.leb Nat.sub]. reflexivity. }
  rewrite R. replace (handle_frame h keep_alive s) with (FReply s [4]) by reflexivity.
  rewrite Skip, IH by exact E. reflexivity.
Qed.

Theorem C68_address_refuted h a d f n :
  exists s s' between ip port out,
    hs_agent s = a /\ hs_fs s = d /\ hs_file s = f /\
    session s between (repeat ([], h) n) (repeat (frame keep_alive) n) = Some (ip, port, out, (s', repeat [4] n, None)) /\
    cf_NetCollectorIP (c_conf (hs_conf s')) <> ip.
Proof.
  assert (match conf_run [CRefresh (world_ip (of_string "10.0.0.1") 1)] initial_cstate with
          | Some c0 => match conf_run [CRefresh (world_ip (of_string "10.0.0.2") 2)] c0 with
                       | Some c1 => beqb (cf_NetCollectorIP (c_conf c0)) (of_string "10.0.0.1") && beqb (cf_NetCollectorIP (c_conf c1)) (of_string "10.0.0.2")
                                    && (cf_ObjHash (c_conf c0) =? cf_ObjHash (c_conf c1))
                       | None => false end
          | None => false end = true) as K by (vm_compute; reflexivity).
  destruct (conf_run _ initial_cstate) as [c0|]; [|discriminate].
  destruct (conf_run [CRefresh (world_ip (of_string "10.0.0.2") 2)] c0) as [c1|] eqn:E1; [|discriminate].
  apply andb_true_iff in K as [K K3]. apply andb_true_iff in K as [K1 K2].
  apply beqb_eq in K1, K2. apply Z.eqb_eq in K3.
  exists (mk_hstate d a c0 f), (mk_hstate d a c1 f), [CRefresh (world_ip (of_string "10.0.0.2") 2)],
    (cf_NetCollectorIP (c_conf c0)), (cf_NetCollectorTCPPort (c_conf c0)), (handshake (cf_ObjHash (c_conf c0))).
  split; [reflexivity|]. split; [reflexivity|]. split; [reflexivity|]. split.
  - unfold session. cbn [hs_conf]. rewrite E1. cbn [fst snd]. rewrite keep_alive_loop; [reflexivity|].
    cbn [hs_conf set_conf]. unfold identity. rewrite K3. reflexivity.
  - cbn [hs_conf]. rewrite K1, K2. discriminate.
Qed.

(** A session starts with the protocol number and the object hash as it was when the collector was dialled. *)
Theorem C68_handshake s between its conn ip port hs r rest :
  session s between its conn = Some (ip, port, hs, r) -> in_int32 (cf_ObjHash (c_conf (hs_conf s))) ->
  ip = cf_NetCollectorIP (c_conf (hs_conf s)) /\ port = cf_NetCollectorTCPPort (c_conf (hs_conf s)) /\
  (magic <- p_u32 ;; h <- p_i32 ;; pret (magic, h)) (hs ++ rest) = Some ((3405647874, cf_ObjHash (c_conf (hs_conf s))), rest).
Proof.
  unfold session. destruct (conf_run between (hs_conf s)) as [c|]; [|discriminate]. intros H Hi. injection H as <- <- <- _.
  split; [reflexivity|]. split; [reflexivity|].
  assert (handshake (cf_ObjHash (c_conf (hs_conf s))) = be 4 (int32 TCP_AGENT_V2) ++ be 4 (cf_ObjHash (c_conf (hs_conf s)))) as ->.
  { unfold handshake. apply (writes_buf (fun o => write_int32 _ (write_int32 _ o))).
    apply (writes_comp (write_int32 (int32 TCP_AGENT_V2))); apply writes_int32. }
  replace (be 4 (int32 TCP_AGENT_V2)) with [202; 254; 16; 2] by (vm_compute; reflexivity).
  rewrite <- app_assoc. unfold pbind at 1. 
  replace (p_u32 ([202; 254; 16; 2] ++ be 4 (cf_ObjHash (c_conf (hs_conf s))) ++ rest)) with (Some (3405647874, be 4 (cf_ObjHash (c_conf (hs_conf s))) ++ rest)) by reflexivity.
  unfold pbind. rewrite parses_i32 by exact Hi. reflexivity.
Qed.

(** ** C69: configuration text round trip *)

(** After a successful SET_CONFIGURE_WAS, GET_CONFIGURE_WAS answers with exactly the text that was sent, until it is set
    again; the collector sees it whole if it is at most 100000 bytes long (C11). *)
Theorem C69_config_text h h2 p s s' out res out2 param2 :
  handle h (of_string "SET_CONFIGURE_WAS") (Some (PMap p)) s out = (s', out, res) -> h_save_ok h = true ->
  exists t, handle h2 (of_string "GET_CONFIGURE_WAS") param2 s' out2 = (s', out2, Some (PMap t)) /\
    get (of_string "agentConfig") t = Some (VText (get_string (of_string "setConfig") p)) /\
    get (of_string "configKey") t = Some (VList (map (fun e => VText (cd_Key e)) (map snd (c_descs (hs_conf s'))))).
Proof.
  intros H Hs. destruct (C61_answer _ _ _ _ _ _ H) as [_ B]. destruct (B Hs) as [Hf _].
  exists (load_config s'). split; [reflexivity|]. unfold load_config. rewrite Hf. split; [reflexivity|].
  assert (forall l a, fold_left (fun l (e : gostring * cdesc) => list_add_string (cd_Key (snd e)) l) l a = a ++ map (fun e => VText (cd_Key e)) (map snd l)) as F.
  { induction l as [|e l IH]; intro a; cbn [fold_left map]; [rewrite app_nil_r; reflexivity|]. rewrite IH. unfold list_add_string, list_add. rewrite <- app_assoc. reflexivity. }
  rewrite F. reflexivity.
Qed.

(** No other command changes the configuration file or the settings. *)
Theorem C69_only_set_changes h cmd param s s' out out' res : handle h cmd param s out = (s', out', res) ->
  cmd <> of_string "SET_CONFIGURE_WAS" -> hs_file s' = hs_file s /\ hs_conf s' = hs_conf s.
Proof.
  intros H N. unfold handle in H. destruct (get cmd commands) as [k|] eqn:E; [|injection H as <- <- <-; auto].
  assert (k <> SetConfigureWas) as Nk.
  { intros ->. apply N. revert E. unfold commands. cbn [get].
    repeat match goal with |- context [beqb cmd ?x] => destruct (beqb_spec cmd x) as [->|?] end; try discriminate; try reflexivity. }
  destruct k; try congruence; try (match type of H with context [h_walk_ok h] => destruct (h_walk_ok h) end); try (injection H as <- <- <-; auto).
  - destruct (heavy_all_stack_trace _ _ _ _ _ _ _) as [t d]. injection H as <- <- <-. auto.
  - destruct param as [[p| | | | | | | |]|]; injection H as <- <- <-; auto.
  - destruct param as [[p| | | | | | | |]|]; injection H as <- <- <-; auto.
  - destruct param as [[p| | | | | | | |]|]; try (injection H as <- <- <-; auto).
    destruct (delete_binary_dump _ _ _ _ _) as [t d]. injection H as <- <- <-. auto.
Qed.

(** ** C70: thread detail *)

(** OBJECT_THREAD_DETAIL describes the running service with the given transaction id, if there is one, and says so if
    there is none. *)
Theorem C70_thread_detail c ops h p s out : NoDup (txids (after c ops)) ->
  (forall q r, ops = q ++ r -> running_count (after c q) <= 10000) -> hs_agent s = after c ops ->
  let txid := get_int64 (of_string "txid") p in
  exists t, handle h (of_string "OBJECT_THREAD_DETAIL") (Some (PMap p)) s out = (s, out, Some (PMap t)) /\
    (forall i x, nth_error (a_ctx (after c ops)) i = Some x -> x_Closed x = false -> x_Txid x = txid ->
       get_string (of_string "Service Txid") t = int_to_xlog_string32 txid /\
       get_string (of_string "Service Name") t = x_ServiceName x /\
       get (of_string "Service Elapsed") t = Some (VDec (millis_between (x_StartTime x) (h_now h))) /\
       get_string (of_string "Thread Name") t = of_string "[goroutine] " ++ format_int 10 (x_Goid x) /\
       get_string (of_string "Last trace method") t = x_LastMethod x) /\
    ((forall x, In x (a_ctx (after c ops)) -> x_Closed x = false -> x_Txid x <> txid) ->
       get_string (of_string "State") t = of_string "end" /\
       get_string (of_string "Stack Trace") t = of_string "[info] no traceContext. txid:" ++ int_to_xlog_string32 txid).
Proof.
  intros Nd Hc Ea. cbv zeta. set (txid := get_int64 (of_string "txid") p).
  exists (get_goroutine_detail h (Some (PMap p)) (hs_agent s)). split; [reflexivity|].
  pose proof (tabled_run ops _ (tabled_init c) Nd Hc) as T. fold (after c ops) in T.
  unfold get_goroutine_detail. rewrite Ea. fold txid. split.
  - intros i x E Cl Tx.
    assert (find_by_txid txid (after c ops) = Some i) as -> by (apply (tabled_find _ _ T Nd); exists x; auto).
    rewrite E, Tx. repeat split.
  - intro No.
    assert (find_by_txid txid (after c ops) = None) as ->.
    { destruct (find_by_txid txid (after c ops)) as [i|] eqn:F; [|reflexivity]. exfalso.
      apply (tabled_find _ _ T Nd) in F as (x & E & Tx & Cl). apply (No x); [eapply nth_error_In; exact E|exact Cl|exact Tx]. }
    split; reflexivity.
Qed.

(** ** C51: OBJECT_RESET_CACHE *)

(** The reset command clears the caches of sent texts (after which [C51_reset_resends] applies), changes nothing else and
    answers with the pack it was sent. *)
Theorem C51_reset_command h param s s' out out' res : handle h (of_string "OBJECT_RESET_CACHE") param s out = (s', out', res) ->
  (forall k hash, lra_contains (t_cache (a_text (hs_agent s')) k) hash = false) /\ a_text (hs_agent s') = reset_text_sent (a_text (hs_agent s)) /\ out' = out /\ res = param /\ a_ctx (hs_agent s') = a_ctx (hs_agent s) /\ a_active (hs_agent s') = a_active (hs_agent s) /\ a_log (hs_agent s') = a_log (hs_agent s) /\ hs_fs s' = hs_fs s /\ hs_conf s' = hs_conf s /\ hs_file s' = hs_file s.
Proof. intro H. injection H as <- <- <-. split; [intros [] hash; reflexivity|]. repeat split. Qed.

(** ** Concrete cases *)

Definition ex_henv : henv := mk_henv (of_string "/opt/scouter") [] (fun bs => [bs]) None (of_string "gone") (of_string "20200101_000000")
  5000000000 true [[1; 2; 3]] true [] true None (mk_world [] StatAbsent LoadAbsent (of_string "h")).
Definition ex_state (a : agent) : hstate :=
  mk_hstate [((true, [of_string "opt"; of_string "scouter"; of_string "binary_dump"; of_string "a.pprof"]), mk_file [7; 7; 7] 5)] a initial_cstate (Some (of_string "a=b")).

(** a download, a listing and an echo, each followed by other bytes *)
Example C53_example : let s := ex_state (a_init P_Trace.sconf0) in
  match handle ex_henv (of_string "OBJECT_DOWNLOAD_HEAP_DUMP") (Some (PMap [(of_string "fileName", VText (of_string "a.pprof"))])) s new_dout with
  | (_, out, res) => res = None /\ next_response p_blob (response out res ++ [9; 9]) = Some ([[7; 7; 7]], [9; 9])
  end /\
  match handle ex_henv (of_string "OBJECT_CALL_CPU_PROFILE") None s new_dout with
  | (_, out, Some q) => match next_response p_int_bytes (response out (Some q) ++ [9; 9]) with
                        | Some ([pl], [9; 9]) => p_pack false pl = Some (collector_pack q, []) | _ => False end
  | _ => False
  end.
Proof. vm_compute. auto. Qed.

(** after [demo_ops] one service has ended and one is running: the list shows the running one, the details of the
    running one are given and the ended one is not found *)
Example C56_example : let a := after sconf0 demo_ops in
  let h := mk_henv [] [] (fun bs => [bs]) None [] [] 7000000 true [] true (M_Cache.table (a_active a)) true None (mk_world [] StatAbsent LoadAbsent []) in
  match handle h (of_string "OBJECT_ACTIVE_SERVICE_LIST") None (ex_state a) new_dout with
  | (_, _, Some (PMap t)) =>
      match get (of_string "service") t, get (of_string "elapsed") t, get (of_string "ip") t with
      | Some (VList [VText n]), Some (VList [VDec e]), Some (VList [VText ip]) => beqb n (of_string "/b") && (e =? 5) && beqb ip (of_string "10.0.0.2")
      | _, _, _ => false
      end
  | _ => false
  end = true /\ txids a = [11; 12] /\ running_count a = 1.
Proof. split; [vm_compute; reflexivity|]. split; vm_compute; reflexivity. Qed.

Example C70_example : let a := after sconf0 demo_ops in
  let detail txid := match handle ex_henv (of_string "OBJECT_THREAD_DETAIL") (Some (PMap [(of_string "txid", VDec txid)])) (ex_state a) new_dout with
    | (_, _, Some (PMap t)) => (get_string (of_string "Service Name") t, get_string (of_string "State") t) | _ => ([], []) end in
  detail 12 = (of_string "/b", of_string "n/a") /\ detail 11 = ([], of_string "end").
Proof. split; vm_compute; reflexivity. Qed.

(** a successful save followed by a load *)
Example C69_example :
  match handle ex_henv (of_string "SET_CONFIGURE_WAS") (Some (PMap [(of_string "setConfig", VText (of_string "x=1"))])) (ex_state (a_init sconf0)) new_dout with
  | (s', _, Some (PMap r)) => match handle ex_henv (of_string "GET_CONFIGURE_WAS") None s' new_dout with
      | (_, _, Some (PMap t)) => beqb (get_string (of_string "agentConfig") t) (of_string "x=1") && beqb (get_string (of_string "result") r) (of_string "true")
      | _ => false end
  | _ => false
  end = true.
Proof. vm_compute. reflexivity. Qed.

Print Assumptions C53_framed.
Print Assumptions C53_payload_decodes.
Print Assumptions C53_unknown_command.
Print Assumptions C53_frame_response.
Print Assumptions C54_unsplit_partial.
Print Assumptions C54_split_refuted.
Print Assumptions C54_refuted.
Print Assumptions C55_bounded_partial.
Print Assumptions C55_no_doubling_refuted.
Print Assumptions C55_minimum_refuted.
Print Assumptions C56_active_list.
Print Assumptions C61_answer.
Print Assumptions C61_refuted.
Print Assumptions C67_listing.
Print Assumptions C67_listing_keys_distinct.
Print Assumptions C68_session_ends_on_change.
Print Assumptions C68_address_refuted.
Print Assumptions C68_handshake.
Print Assumptions C69_config_text.
Print Assumptions C69_only_set_changes.
Print Assumptions C70_thread_detail.
Print Assumptions C51_reset_command.
