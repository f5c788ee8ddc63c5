(** C80: conversations on the command connection. *)
From Verif Require Import GoInt M_OutX M_InX S_Wire M_Value M_Packs S_Packs L_Packs M_Conf M_Dump M_Tcp S_Tcp L_Tcp P_Codec P_Packs P_Tcp S_Session.

Lemma request_read h q s : request_ok q -> handle_frame h (request_bytes q) s =
  (let '(s', out, res) := handle h (rq_cmd q) (Some (PMap (rq_param q))) s new_dout in FReply s' (response out res)).
Proof.
  intros (Hc & Hg & Hr & _). unfold handle_frame, request_bytes. rewrite C03_string_roundtrip by (left; exact Hc).
  rewrite <- (app_nil_r (buf (write_pack _ _))). rewrite (C12_read_pack_inverts_partial (PMap (rq_param q)) [] Hg Hr). reflexivity.
Qed.
Lemma same_identity i : identity_eqb i i = true.
Proof. destruct i as [[a b] c]. cbn. rewrite !Z.eqb_refl, beqb_refl. reflexivity. Qed.
(** The agent obeys the requests one after the other, each in the state left by the one before, and answers each, as long as the segments of the TCP stream do not cut
    a payload (C54) and the configuration keeps its identity (C68). *)
Theorem C80_conversation me its reqs s s' answers : served me its reqs s s' answers -> Forall request_ok reqs ->
  forall r, carries r (map request_bytes reqs) -> unsplit r (map request_bytes reqs) ->
  process_loop me its r s = (s', map (fun a => response (fst a) (snd a)) answers, None).
Proof.
  intros H. induction H as [s|ops h its q reqs s c s1 out res s2 answers Ec Ei Eh Hs IH]; intros F r C U; cbn [process_loop map]; [reflexivity|].
  inversion F as [|? ? Fq Fr]; subst. rewrite Ec, same_identity. cbn [map] in C, U. destruct (carries_tail r _ _ C U) as (r' & -> & C' & U').
  rewrite (request_read _ _ _ Fq), Eh. rewrite (IH Fr r' C' U'). reflexivity.
Qed.

(** When the collector hangs up, the session ends with an error. *)
Theorem C80_hang_up me its reqs s s' answers ops h its' c : served me its reqs s s' answers -> Forall request_ok reqs -> conf_run ops (hs_conf s') = Some c -> identity (c_conf c) = me ->
  forall r, carries r (map request_bytes reqs) -> unsplit r (map request_bytes reqs) ->
  process_loop me (its ++ (ops, h) :: its') r s = (set_conf c s', map (fun a => response (fst a) (snd a)) answers, Some EndError).
Proof.
  intros H. induction H as [s|ops0 h0 its q reqs s c0 s1 out res s2 answers Ec Ei Eh Hs IH]; intros F Ec' Ei' r C U; cbn [process_loop map app].
  - rewrite Ec', Ei', same_identity. destruct C as (E & _). cbn in E. destruct (read_end r E) as (r' & -> & _). rewrite handle_frame_nil. reflexivity.
  - inversion F as [|? ? Fq Fr]; subst. rewrite Ec, same_identity. cbn [map] in C, U. destruct (carries_tail r _ _ C U) as (r' & -> & C' & U').
    rewrite (request_read _ _ _ Fq), Eh. rewrite (IH Fr Ec' Ei' r' C' U'). reflexivity.
Qed.

(** And the collector, reading the bytes it gets one response after the other, hears the answers in order. *)
Theorem C80_heard me its reqs s s' answers : served me its reqs s s' answers ->
  (forall out q, In (out, Some q) answers -> zlen (buf (write_pack q new_dout)) <= 2147483647) ->
  hears answers (concat (map (fun a => response (fst a) (snd a)) answers)).
Proof.
  intros H. induction H as [s|ops h its q reqs s c s1 out res s2 answers Ec Ei Eh Hs IH]; intros Hz; cbn [map concat]; [constructor|].
  assert (hears answers (concat (map (fun a => response (fst a) (snd a)) answers))) as K by (apply IH; intros o x I; eapply Hz; right; exact I).
  cbn [fst snd]. pose proof (C53_framed h (rq_cmd q) (Some (PMap (rq_param q))) _ s1 out res (concat (map (fun a => response (fst a) (snd a)) answers)) Eh) as Fr.
  destruct res as [x|].
  - eapply he_pack; [|exact K]. apply Fr. intros y Ey. injection Ey as <-. eapply Hz. left. reflexivity.
  - destruct Fr as (chunks & Fr); [discriminate|]. eapply he_chunks; [exact Fr|exact K].
Qed.

(** One conversation: a configuration is saved, asked for, and a file downloaded, in a stream cut between the frames and inside the second length. *)
Definition talk : list request := [mk_request (of_string "SET_CONFIGURE_WAS") [(of_string "setConfig", VText (of_string "x=1"))];
  mk_request (of_string "GET_CONFIGURE_WAS") []; mk_request (of_string "OBJECT_DOWNLOAD_HEAP_DUMP") [(of_string "fileName", VText (of_string "a.pprof"))]].
Fixpoint converse (me : Z * gostring * Z) (its : list (list cop * henv)) (reqs : list request) (s : hstate) : option (hstate * list (dout * option pack)) :=
  match its, reqs with
  | [], [] => Some (s, [])
  | (ops, h) :: its, q :: reqs =>
      match conf_run ops (hs_conf s) with
      | Some c => if identity_eqb (identity (c_conf c)) me then
                    let '(s1, out, res) := handle h (rq_cmd q) (Some (PMap (rq_param q))) (set_conf c s) new_dout in
                    match converse me its reqs s1 with Some (s2, answers) => Some (s2, (out, res) :: answers) | None => None end
                  else None
      | None => None
      end
  | _, _ => None
  end.
Lemma converse_served me its : forall reqs s s' answers, converse me its reqs s = Some (s', answers) -> served me its reqs s s' answers.
Proof.
  induction its as [|[ops h] its IH]; intros [|q reqs] s s' answers E; try discriminate; cbn [converse] in E; [injection E as <- <-; constructor|].
  destruct (conf_run ops (hs_conf s)) as [c|] eqn:Ec; [|discriminate]. destruct (identity_eqb (identity (c_conf c)) me) eqn:Ei; [|discriminate].
  destruct (handle h (rq_cmd q) (Some (PMap (rq_param q))) (set_conf c s) new_dout) as [[s1 out] res] eqn:Eh. destruct (converse me its reqs s1) as [[s2 l]|] eqn:El; [|discriminate].
  injection E as <- <-. eapply sv_one; [exact Ec|apply identity_eqb_eq, Ei|exact Eh|apply IH, El].
Qed.
Definition talking : option hstate := match conf_run [CRefresh (mk_world [] StatAbsent LoadAbsent (of_string "h"))] initial_cstate with
  | Some c => Some (set_conf c (ex_state (M_Trace.a_init P_Trace.sconf0))) | None => None end.
Example C80_case : Forall request_ok talk /\ carries (map frame (map request_bytes talk)) (map request_bytes talk) /\ unsplit (map frame (map request_bytes talk)) (map request_bytes talk) /\
  exists s s' o1 t1 o2 t2 out, talking = Some s /\ served (identity (c_conf (hs_conf s))) (repeat ([], ex_henv) 3) talk s s' [(o1, Some (PMap t1)); (o2, Some (PMap t2)); (out, None)] /\
    hs_file s' = Some (of_string "x=1") /\ get (of_string "agentConfig") t2 = Some (VText (of_string "x=1")) /\ response out None = [3; 3; 7; 7; 7; 4].
Proof.
  assert (Forall request_ok talk) as F.
  { assert (forallb (fun q => (zlen (rq_cmd q) <=? 32767) && go_pack (PMap (rq_param q)) && readable_map (rq_param q) && (zlen (request_bytes q) <=? 2147483647)) talk = true) as K by (vm_compute; reflexivity).
    apply Forall_forall. intros q I. rewrite forallb_forall in K. specialize (K q I). apply andb_prop in K as (K & K4). apply andb_prop in K as (K & K3). apply andb_prop in K as (K1 & K2).
    unfold request_ok. repeat split; try assumption; apply Z.leb_le; assumption. }
  split; [exact F|]. split.
  { split; [reflexivity|]. apply Forall_map. eapply Forall_impl; [|exact F]. intros q (_ & _ & _ & L). exact L. }
  split; [apply whole_unsplit|].
  assert (match talking with
          | Some s => match converse (identity (c_conf (hs_conf s))) (repeat ([], ex_henv) 3) talk s with
                      | Some (s', [(o1, Some (PMap t1)); (o2, Some (PMap t2)); (out, None)]) =>
                          match hs_file s', get (of_string "agentConfig") t2 with
                          | Some f, Some (VText t) => beqb f (of_string "x=1") && beqb t (of_string "x=1") && beqb (response out None) [3; 3; 7; 7; 7; 4]
                          | _, _ => false end
                      | _ => false end
          | None => false end = true) as K by (vm_compute; reflexivity).
  destruct talking as [s|] eqn:Et; [|discriminate]. destruct (converse _ _ _ s) as [[s' answers]|] eqn:Ec; [|discriminate].
  destruct answers as [|[o1 [[t1| | | | | | | |]|]] [|[o2 [[t2| | | | | | | |]|]] [|[out [r|]] [|? ?]]]]; try discriminate.
  destruct (hs_file s') as [f|] eqn:Ef; [|discriminate]. destruct (get (of_string "agentConfig") t2) as [v|] eqn:Ev; [|discriminate]. assert (exists t, v = VText t) as (t & ->) by (destruct v; try discriminate; eauto).
  apply andb_prop in K as (K & K3). apply andb_prop in K as (K1 & K2). destruct (beqb_spec f (of_string "x=1")) as [->|]; [|discriminate]. destruct (beqb_spec t (of_string "x=1")) as [->|]; [|discriminate].
  destruct (beqb_spec (response out None) [3; 3; 7; 7; 7; 4]) as [Er|]; [|discriminate].
  exists s, s', o1, t1, o2, t2, out. split; [reflexivity|]. split; [apply converse_served, Ec|]. split; [exact Ef|]. split; [exact Ev|exact Er].
Qed.

Print Assumptions C80_conversation.
Print Assumptions C80_hang_up.
Print Assumptions C80_heard.
