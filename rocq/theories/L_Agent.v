(** Lemmas about the announcement of the agent. *)
From Verif Require Import GoInt M_OutX M_Value M_Packs M_Hash M_Cache M_Text S_Text L_Text P_Text M_Conf S_Conf L_Conf M_Udp S_Udp M_Net S_Net M_Agent S_Agent.
From Verif Require Import L_Codec L_Value S_Packs L_Packs L_Ledger5.
From Coq Require Import ZifyBool.

(** ** Packs the agent makes *)
Lemma hash_range s h : hash_string s = Some h -> in_int32 h.
Proof.
  unfold hash_string, hash. destruct (crc_loop (-1) s) as [z|] eqn:E; cbn [option_map]; [|discriminate]. intros X. injection X as <-.
  apply L_Hash.in_int32_lxor; [|unfold in_int32; lia]. eapply crc_loop_range; [|exact E]. unfold in_int32; lia.
Qed.

Lemma bytes_of_text p : zlen (bytes_of (PText p)) <= 200015.
Proof.
  unfold bytes_of, write_pack, write_pack_body, write_text_pack.
  assert (writes (fun o => wseq [write_string (tp_Xtype p); write_int32 (tp_Hash p); write_string (tp_Text p)] (write_uint8 (pack_type (PText p)) o))
            (be 1 (pack_type (PText p)) ++ concat [enc_string (tp_Xtype p); be 4 (tp_Hash p); enc_string (tp_Text p)])) as W.
  { apply (writes_comp (write_uint8 _) (wseq _)); [apply writes_uint8|]. apply writes_wseq. wfields. }
  rewrite (writes_buf _ _ W). rewrite zlen_app, be_zlen. cbn [concat]. rewrite !zlen_app, be_zlen, zlen_nil.
  pose proof (enc_string_len (tp_Xtype p)). pose proof (enc_string_len (tp_Text p)). lia.
Qed.
Lemma text_proper max k h name : 7 <= max -> in_int32 h -> proper max (PText (mk_text_pack (text_type k) h name)).
Proof.
  intros M H. split; [|split; [reflexivity|]].
  - change (is_i32 h = true). apply i32. exact H.
  - pose proof (bytes_of_text (mk_text_pack (text_type k) h name)). lia.
Qed.
Lemma object_proper max type h name : 7 <= max -> in_int32 h -> proper max (PObject (mk_object_pack type h name [] (of_string "0.0.0") true 0 [])).
Proof.
  intros M H. split; [|split; [reflexivity|]].
  - change (is_i32 h && is_i64 0 && is_map [] = true). rewrite i32 by exact H. reflexivity.
  - unfold bytes_of, write_pack, write_pack_body, write_object_pack.
    cbn [ob_ObjType ob_ObjHash ob_ObjName ob_Address ob_Version ob_Alive ob_Wakeup ob_Tags].
    match goal with |- zlen (buf (wseq ?l (write_uint8 ?t new_dout))) <= _ =>
      assert (exists bs, writes (fun o => wseq l (write_uint8 t o)) bs /\ zlen bs <= 200100) as (bs & W & L) end.
    { eexists. split.
      - apply (writes_comp (write_uint8 _) (wseq _)); [apply writes_uint8|]. apply writes_wseq.
        repeat (apply Forall2_cons || apply Forall2_nil); [apply writes_string|apply writes_decimal32; exact H|apply writes_string|apply writes_string|apply writes_string|apply writes_boolean
          |apply writes_decimal; unfold in_int64; lia|].
        apply writes_value. reflexivity.
      - rewrite zlen_app, be_zlen. cbn [concat]. rewrite !zlen_app.
        pose proof (enc_string_len type). pose proof (enc_string_len name). pose proof (enc_decimal_len h).
        change (zlen (enc_string [])) with 1. change (zlen (enc_string (of_string "0.0.0"))) with 6. change (zlen (enc_decimal 0)) with 1. change (zlen (enc_value (VMap []))) with 2. rewrite be_zlen, zlen_nil. lia. }
    rewrite (writes_buf _ _ W). lia.
Qed.

(** ** One text *)
Definition offered (k : kind) (name : gostring) (h : Z) (p p' : process) : Prop :=
  g_text p' = g_text p /\ g_net p' = g_net p /\ g_log p' = g_log p \/
  exists room, g_log p' = GText (EvOffer k (mk_text_pack (text_type k) h name) room) :: g_log p /\ t_log (g_text p') = EvOffer k (mk_text_pack (text_type k) h name) room :: t_log (g_text p).

Lemma text_send_sim qcap k name p p' h : proc_text_send qcap k name p = Some (p', h) ->
  exists room, text_send k name room (g_text p) = Some (g_text p', h) /\
    g_conf p' = g_conf p /\ g_observer p' = g_observer p /\ g_half p' = g_half p /\
    (g_log p' = g_log p /\ g_text p' = g_text p /\ g_net p' = g_net p \/
     name <> [] /\ hash_string name = Some h /\
     g_log p' = GText (EvOffer k (mk_text_pack (text_type k) h name) room) :: g_log p /\
     t_log (g_text p') = EvOffer k (mk_text_pack (text_type k) h name) room :: t_log (g_text p) /\
     g_net p' = net_add_pack qcap (PText (mk_text_pack (text_type k) h name)) (g_net p)).
Proof.
  unfold proc_text_send. intros E. exists (zlen (queue (x_u (g_net p))) <? qcap). unfold text_send.
  destruct name as [|b bs]; [injection E as <- <-; repeat split; left; auto|].
  destruct (hash_string (b :: bs)) as [x|] eqn:Eh; [|discriminate].
  destruct (lra_contains (t_cache (g_text p) k) x) eqn:C.
  - injection E as <- <-. repeat split. left. auto.
  - injection E as <- <-. repeat split. right. split; [discriminate|]. repeat split.
Qed.

Lemma text_send_hash k name room t t' h : text_send k name room t = Some (t', h) -> (name = [] /\ h = 0) \/ (name <> [] /\ hash_string name = Some h).
Proof.
  unfold text_send. destruct name as [|b bs]; [intros E; injection E as <- <-; left; auto|]. destruct (hash_string (b :: bs)) as [x|]; [|discriminate].
  destruct (lra_contains _ _); intros E; injection E as <- <-; right; split; congruence.
Qed.

(** ** The log *)
Lemma t_run_app a b t : t_run (a ++ b) t = match t_run a t with Some t' => t_run b t' | None => None end.
Proof. revert t. induction a as [|o a IH]; intros t; cbn [app t_run]; [reflexivity|]. destruct (t_step o t) as [[t' h]|]; [apply IH|reflexivity]. Qed.
Lemma t_run_send ops t k name room t' h : t_run ops t_init = Some t -> text_send k name room t = Some (t', h) -> exists ops', t_run ops' t_init = Some t'.
Proof. intros R E. exists (ops ++ [TSend k name room]). rewrite t_run_app, R. cbn [t_run t_step]. rewrite E. reflexivity. Qed.
Lemma t_run_reset ops t : t_run ops t_init = Some t -> exists ops', t_run ops' t_init = Some (reset_text_sent t).
Proof. intros R. exists (ops ++ [TReset]). rewrite t_run_app, R. reflexivity. Qed.
Lemma reset_log t : t_log (reset_text_sent t) = map EvClear (rev reset_order) ++ t_log t.
Proof. reflexivity. Qed.

Definition name_known (name : gostring) (h : Z) (log : list tevent) : Prop :=
  name <> [] -> exists p, In p (since_clear KObject log) /\ tp_Xtype p = of_string "object" /\ tp_Hash p = h /\ hash_string (tp_Text p) = Some h.
Definition name_hash (name : gostring) (h : Z) : Prop := (name = [] /\ h = 0) \/ (name <> [] /\ hash_string name = Some h).

(** [o] is what an announcement begun and completed as told by [log] must be *)
Definition described (o : object_pack) (log : list gevent) : Prop :=
  exists name h, name = fst (in_force (when_begun log)) /\ name_hash name h /\ name_known name h (texts (when_begun log)) /\
    o = mk_object_pack (snd (in_force log)) h name [] (of_string "0.0.0") true 0 [].

Record linv (p : process) : Prop := mkLinv {
  lv_run : exists ops, t_run ops t_init = Some (g_text p);
  lv_texts : texts (g_log p) = t_log (g_text p);
  lv_force : in_force (g_log p) = (cf_ObjName (c_conf (g_conf p)), cf_ObjType (c_conf (g_conf p)));
  lv_half : forall name h, g_half p = Some (name, h) -> name = fst (in_force (when_begun (g_log p))) /\ name_hash name h /\ name_known name h (texts (when_begun (g_log p)));
  lv_said : forall later older o, g_log p = later ++ GAnnounced o :: older -> described o older }.

Lemma said_more log e : (forall later older o, log = later ++ GAnnounced o :: older -> described o older) -> (forall o, e = GAnnounced o -> described o log) ->
  forall later older o, e :: log = later ++ GAnnounced o :: older -> described o older.
Proof.
  intros H N later older o E. destruct later as [|x later]; cbn [app] in E; injection E as E1 E2; subst.
  - apply N. reflexivity.
  - eapply H. reflexivity.
Qed.

Lemma texts_app a b : texts (a ++ b) = texts a ++ texts b. Proof. apply flat_map_app. Qed.

Lemma linv_text qcap k name p p' h : linv p -> proc_text_send qcap k name p = Some (p', h) -> linv p' /\ g_conf p' = g_conf p /\ g_half p' = g_half p /\ name_hash name h /\
  (k = KObject -> name_known name h (texts (g_log p'))) /\ in_force (g_log p') = in_force (g_log p).
Proof.
  intros I E. destruct (text_send_sim _ _ _ _ _ _ E) as (room & Es & Ec & Eo & Eh & Cases). destruct I as [(ops & R) T F H S].
  assert (texts (g_log p') = t_log (g_text p') /\ in_force (g_log p') = in_force (g_log p) /\ when_begun (g_log p') = when_begun (g_log p)) as (T' & F' & W').
  { destruct Cases as [(-> & -> & _)|(_ & _ & El & Et & _)]; [auto|]. rewrite El, Et. cbn [texts flat_map app in_force when_begun]. fold (texts (g_log p)). rewrite T. auto. }
  split.
  - constructor; [eapply t_run_send; eassumption|exact T'|rewrite F', F, Ec; reflexivity|rewrite Eh, W'; exact H|].
    destruct Cases as [(-> & _ & _)|(_ & _ & -> & _ & _)]; [exact S|]. apply said_more; [exact S|discriminate].
  - split; [exact Ec|]. split; [exact Eh|]. split; [eapply text_send_hash; exact Es|]. split; [|exact F'].
    intros -> Nn. rewrite T'. destruct (C51_sent_since_reset ops (g_text p) KObject name room (g_text p') h R Es Nn) as (q & A & B & C & D). exists q. auto.
Qed.

Lemma force_end log name type : in_force (GSettings name type :: log) = (name, type). Proof. reflexivity. Qed.

Lemma linv_refresh qcap w p p' : linv p -> proc_refresh qcap w p = Some p' -> linv p'.
Proof.
  intros I E. unfold proc_refresh in E. destruct (refresh_conf w (g_conf p)) as [[c ch]|]; [|discriminate]. cbv zeta in E.
  match type of E with context [mkProc c ?t ?n ?o ?hf ?l] => set (p1 := mkProc c t n o hf l) in E end.
  assert (linv p1) as I1.
  { destruct I as [R T F H S]. subst p1. constructor; cbn [g_text g_log g_conf g_half]; [exact R|exact T|reflexivity|exact H|].
    apply said_more; [exact S|discriminate]. }
  destruct (ch && g_observer p).
  - destruct (proc_text_send qcap KObject (cf_ObjName (c_conf c)) p1) as [[p2 h]|] eqn:Es; [|discriminate]. cbn [option_map fst] in E. injection E as <-.
    apply (linv_text _ _ _ _ _ _ I1 Es).
  - injection E as <-. exact I1.
Qed.

Lemma linv_begin qcap p p' : linv p -> proc_begin qcap p = Some p' -> linv p'.
Proof.
  intros I E. unfold proc_begin in E. destruct (g_half p) as [x|]; [injection E as <-; exact I|].
  destruct (proc_text_send qcap KObject (cf_ObjName (c_conf (g_conf p))) p) as [[p1 h]|] eqn:Es; [|discriminate]. injection E as <-.
  destruct (linv_text _ _ _ _ _ _ I Es) as (I1 & Ec & Eh & Nh & Nk & Fo). destruct I1 as [R T F H S]. destruct I as [_ _ F0 _ _].
  constructor; cbn [g_text g_log g_conf g_half]; [exact R|exact T|exact F| |apply said_more; [exact S|discriminate]].
  intros name h' X. injection X as <- <-. cbn [when_begun]. rewrite Fo, F0. auto.
Qed.

Lemma linv_end max pkid p p' : linv p -> proc_end max pkid p = Some p' -> linv p'.
Proof.
  intros I E. unfold proc_end in E. destruct (g_half p) as [[name h]|] eqn:Hf; [|injection E as <-; exact I]. destruct I as [R T F H S].
  destruct (cf_TraceObjSend _ && _); [discriminate|]. destruct (net_direct _ _ _ _) as [n|]; [|discriminate]. injection E as <-.
  constructor; cbn [g_text g_log g_conf g_half]; [exact R|exact T|exact F|discriminate|].
  apply said_more; [exact S|]. intros o X. injection X as <-. destruct (H name h Hf) as (A & B & C). exists name, h. rewrite F. cbn [snd]. auto.
Qed.

Lemma life_linv qcap max p : life qcap max p -> linv p.
Proof.
  induction 1 as [w conn p E|w p p' L IH E|p L IH|p p' L IH E|pkid p p' L IH E Hk N|k name p p' h L IH E|p L IH|pkid q p p' L IH Pp E Hk N|pkids n p L IH E Hk N|p L IH|i p L IH|conn p L IH|c p L IH].
  - eapply linv_refresh; [|exact E]. constructor; cbn [proc0 g_text g_log g_conf g_half]; [exists []; reflexivity|reflexivity|reflexivity|discriminate|].
    intros later older o X. destruct later; discriminate.
  - eapply linv_refresh; eassumption.
  - destruct IH as [R T F H S]. constructor; assumption.
  - eapply linv_begin; eassumption.
  - eapply linv_end; eassumption.
  - eapply linv_text; eassumption.
  - destruct IH as [(ops & R) T F H S]. constructor; cbn [proc_reset g_text g_log g_conf g_half].
    + eapply t_run_reset, R.
    + rewrite reset_log, texts_app, T. reflexivity.
    + exact F.
    + exact H.
    + cbn [map rev app reset_order]. repeat (apply said_more; [|discriminate]). exact S.
  - unfold proc_direct in E. destruct (net_direct _ _ _ _) as [n|]; [|discriminate]. injection E as <-. destruct IH as [R T F H S].
    constructor; cbn [g_text g_log g_conf g_half]; try assumption. apply said_more; [exact S|discriminate].
  - destruct IH as [R T F H S]. constructor; assumption.
  - destruct IH as [R T F H S]. constructor; assumption.
  - destruct IH as [R T F H S]. constructor; assumption.
  - destruct IH as [R T F H S]. constructor; assumption.
  - destruct IH as [R T F H S]. constructor; assumption.
Qed.

(** ** The sender *)
Lemma name_hash_range name h : name_hash name h -> in_int32 h.
Proof. intros [(_ & ->)|(_ & E)]; [unfold in_int32; lia|eapply hash_range, E]. Qed.

Lemma queued_cons e log : queued_packs (e :: log) = queued_packs log ++ match e with GText (EvOffer _ p _) => [PText p] | _ => [] end.
Proof. unfold queued_packs. cbn [rev]. rewrite flat_map_app. cbn [flat_map]. rewrite app_nil_r. reflexivity. Qed.
Lemma direct_cons e log : direct_packs (e :: log) = direct_packs log ++ match e with GAnnounced o => [PObject o] | GDirect p => [p] | _ => [] end.
Proof. unfold direct_packs. cbn [rev]. rewrite flat_map_app. cbn [flat_map]. rewrite app_nil_r. reflexivity. Qed.

Definition hist qcap max p := history qcap max (queued_packs (g_log p)) (direct_packs (g_log p)) (g_net p).

Lemma hist_text qcap max k name p p' h : 7 <= max -> hist qcap max p -> proc_text_send qcap k name p = Some (p', h) -> hist qcap max p'.
Proof.
  intros M H E. unfold hist in *. destruct (text_send_sim _ _ _ _ _ _ E) as (room & _ & _ & _ & _ & Cases).
  destruct Cases as [(-> & _ & ->)|(_ & Eh & -> & _ & ->)]; [exact H|].
  rewrite queued_cons, direct_cons, app_nil_r. apply hi_queue; [exact H|]. apply text_proper; [exact M|eapply hash_range, Eh].
Qed.
Lemma hist_refresh qcap max w p p' : 7 <= max -> hist qcap max p -> proc_refresh qcap w p = Some p' -> hist qcap max p'.
Proof.
  intros M H E. unfold proc_refresh in E. destruct (refresh_conf w (g_conf p)) as [[c ch]|]; [|discriminate]. cbv zeta in E.
  match type of E with context [mkProc c ?t ?n ?o ?hf ?l] => set (p1 := mkProc c t n o hf l) in E end.
  assert (hist qcap max p1) as H1 by (unfold hist, p1; cbn [g_log g_net]; rewrite queued_cons, direct_cons, !app_nil_r; exact H).
  destruct (ch && g_observer p).
  - destruct (proc_text_send qcap KObject (cf_ObjName (c_conf c)) p1) as [[p2 h]|] eqn:Es; [|discriminate]. cbn [option_map fst] in E. injection E as <-.
    eapply hist_text; eassumption.
  - injection E as <-. exact H1.
Qed.

Lemma life_history qcap max p : 7 <= max -> life qcap max p -> hist qcap max p.
Proof.
  intros M L. pose proof L as L0. revert L0.
  induction L as [w conn p E|w p p' L IH E|p L IH|p p' L IH E|pkid p p' L IH E Hk N|k name p p' h L IH E|p L IH|pkid q p p' L IH Pp E Hk N|pkids n p L IH E Hk N|p L IH|i p L IH|conn p L IH|c p L IH];
    intros L0; try (specialize (IH L)).
  - eapply hist_refresh; [exact M| |exact E]. unfold hist. apply hi_start.
  - eapply hist_refresh; eassumption.
  - exact IH.
  - unfold proc_begin in E. destruct (g_half p) as [x|]; [injection E as <-; exact IH|].
    destruct (proc_text_send qcap KObject (cf_ObjName (c_conf (g_conf p))) p) as [[p1 h]|] eqn:Es; [|discriminate]. injection E as <-.
    pose proof (hist_text _ _ _ _ _ _ _ M IH Es) as H1. unfold hist in *. cbn [g_log g_net]. rewrite queued_cons, direct_cons, !app_nil_r. exact H1.
  - pose proof (lv_half _ (life_linv _ _ _ L)) as Hh. unfold proc_end in E. destruct (g_half p) as [[name h]|] eqn:Hf; [|injection E as <-; exact IH].
    destruct (cf_TraceObjSend _ && _); [discriminate|]. destruct (net_direct _ _ _ _) as [n|] eqn:En; [|discriminate]. injection E as <-.
    unfold hist in *. cbn [g_log g_net] in *. rewrite queued_cons, direct_cons, app_nil_r. eapply hi_direct; [exact IH| |exact Hk|exact En|exact N].
    apply object_proper; [exact M|]. eapply name_hash_range. apply (Hh name h eq_refl).
  - eapply hist_text; eassumption.
  - unfold hist, proc_reset. cbn [g_log g_net map rev app reset_order]. rewrite !queued_cons, !direct_cons, !app_nil_r. exact IH.
  - unfold proc_direct in E. destruct (net_direct _ _ _ _) as [n|] eqn:En; [|discriminate]. injection E as <-.
    unfold hist in *. cbn [g_log g_net] in *. rewrite queued_cons, direct_cons, app_nil_r. eapply hi_direct; [exact IH|exact Pp|exact Hk|exact En|exact N].
  - eapply hi_sender; [exact IH|exact Hk|exact E|exact N].
  - apply hi_write_sender, IH.
  - apply hi_write_job, IH.
  - apply hi_reload, IH.
  - apply hi_close, IH.
Qed.
