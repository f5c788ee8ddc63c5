(** C82: every number in an xlog or a profile that stands for a text was preceded by the text. *)
From Verif Require Import GoInt M_Hash M_Packs M_Steps M_Text S_Text L_Text M_Profile M_Sampler M_Trace L_Trace S_Trace L_TraceInv S_Resolve L_Resolve P_Trace.
Import M_Trace.

(** whatever the application does, every text number of every xlog was given to the sender as a text pack, of the kind under which it is looked up *)
Theorem C82_xlogs c ops h p : In (EvXlog h p) (a_log (after c ops)) -> Forall (told (after c ops)) (xlog_ids p).
Proof.
  intros H. destruct (ok_run false c ops ltac:(discriminate)) as (_ & _ & B). rewrite Forall_forall in B. exact (B _ H).
Qed.

(** the same for the header and the steps of every profile sent *)
Theorem C82_profiles c ops x p : Forall adds_plain_steps ops -> In x (a_ctx (after c ops)) -> In p (p_sent (x_Profile x)) ->
  told (after c ops) (KService, pp_Service p) /\
  exists steps, pp_Profile p = steps_to_bytes steps /\ forall st, In (Some st) steps -> Forall (told (after c ops)) (step_ids st).
Proof.
  intros F Hx Hp. destruct (ok_run true c ops (fun _ => F)) as (_ & B & _). rewrite Forall_forall in B. destruct (B _ Hx) as (_ & _ & Hs). rewrite Forall_forall in Hs.
  destruct (Hs _ Hp) as (A & l & El & Fl). split; [exact A|]. exists l. split; [exact El|]. intros st Hi. rewrite Forall_forall in Fl. exact (Fl _ Hi eq_refl).
Qed.

(** a profile sent by the call that ends a service names the transaction and the service of its xlog *)
Lemma sent_headers e b p p' : close e b p = Some p' -> exists new, p_sent p' = p_sent p ++ new /\
  Forall (fun k => pp_Txid k = e_txid e /\ pp_Service k = e_service e /\ pp_ObjHash k = e_obj e /\ pp_Time k = 0) new.
Proof.
  unfold close. destruct (p_buf p) as [|i l]; [intros [= <-]; exists []; rewrite app_nil_r; split; [reflexivity|constructor]|].
  destruct b; [|intros [= <-]; exists []; rewrite app_nil_r; split; [reflexivity|constructor]].
  unfold send_profile. destruct (send_groups (e_bulk e) (i :: l)) as [gs|]; [|discriminate]. intros [= <-]. revert p.
  induction gs as [|g gs IH]; intros p; [exists []; rewrite app_nil_r; split; [reflexivity|constructor]|]. cbn [fold_left].
  destruct (IH (send_profile0 e g p)) as (new & En & Fn). destruct g as [|j g]; [exists new; split; [exact En|exact Fn]|].
  cbn [send_profile0 p_sent] in En. rewrite <- app_assoc in En. eexists. split; [exact En|]. constructor; [|exact Fn]. repeat split.
Qed.
Theorem C82_profile_header n k h a x : is_end (CTrace h) k -> nth_error (a_ctx a) h = Some x -> x_Closed x = false -> cf_bulk (n_conf n) <> 0 ->
  exists y new, nth_error (a_ctx (fst (do_call n k a))) h = Some y /\ p_sent (x_Profile y) = p_sent (x_Profile x) ++ new /\
    Forall (fun pk => pp_Time pk = 0 /\ pp_Txid pk = x_Txid x /\ pp_ObjHash pk = cf_obj (n_conf n) /\
                      (x_ServiceName x = [] -> pp_Service pk = 0) /\ (x_ServiceName x <> [] -> hash_string (x_ServiceName x) = Some (pp_Service pk))) new.
Proof.
  intros Hk E C Hb. destruct (end_call_eq n k h a x Hk E C Hb) as (p & Ep & ->). cbn [fst]. set (y := with_status k x) in *.
  assert (x_Profile y = x_Profile x /\ x_Txid y = x_Txid x /\ x_ServiceName y = x_ServiceName x) as (Q1 & Q2 & Q3) by (unfold y, with_status; destruct k; try (repeat split); destruct status; repeat split).
  exists (set_Profile p (closed_ctx y)). destruct (sent_headers _ _ _ _ Ep) as (new & En & Fn). exists new. split; [apply list_set_same; apply nth_error_Some; congruence|].
  split; [rewrite <- Q1; exact En|]. eapply Forall_impl; [|exact Fn]. intros pk (F1 & F2 & F3 & F4). cbn in F1, F2, F3. rewrite Q2 in F1. rewrite Q3 in F2. split; [exact F4|]. split; [exact F1|]. split; [exact F3|]. split.
  - intros Z0. rewrite F2, Z0. reflexivity.
  - intros N. rewrite F2. unfold text_hash. destruct (x_ServiceName x) as [|b s]; [congruence|]. destruct (hash_total (b :: s)) as (z & ->). reflexivity.
Qed.

(** "since the collector last asked for the texts again" fails: the numbers of a running service are not sent again after OBJECT_RESET_CACHE *)
Definition late_ops : list (env * call) :=
  [(env0 11 1000000, KStartService CNil (of_string "/a") []);
   (env0 12 2000000, KMarkErrorForcibly (CTrace 0) (of_string "boom"));
   (env0 13 3000000, KResetText);
   (env0 14 4000000, KEndService (CTrace 0))].
Theorem C82_reset_refuted : exists h p, let a := after sconf0 late_ops in
  In (EvXlog h p) (a_log a) /\ In (KError, xl_Error p) (xlog_ids p) /\ ~ told_since_reset a (KError, xl_Error p).
Proof.
  assert (match a_log (after sconf0 late_ops) with [_; EvXlog _ p] => negb (xl_Error p =? 0) | _ => false end && (match since_clear KError (t_log (a_text (after sconf0 late_ops))) with [] => true | _ => false end) = true) as H by (vm_compute; reflexivity).
  cbv zeta. apply andb_prop in H as (H1 & H2). destruct (a_log (after sconf0 late_ops)) as [|e0 [|e1 [|]]]; try discriminate H1; [|destruct e1; discriminate H1]. destruct e1 as [h p| |]; try discriminate H1. exists h, p.
  split; [right; left; reflexivity|]. split; [right; left; reflexivity|]. unfold told_since_reset. cbn [fst]. destruct (since_clear _ _) as [|z]; [|discriminate H2]. intros [H|(t & _ & [])]. cbn in H. rewrite H in H1. discriminate H1.
Qed.

(** the collector has been told the service, the error and the thread of the xlog; and the service of the profile *)
Example C82_case : exists h p x pk, In (EvXlog h p) (a_log (after sconf0 late_ops)) /\ xl_Error p <> 0 /\ xl_Service p <> 0 /\ xl_ThreadNameHash p <> 0 /\
  Forall adds_plain_steps late_ops /\ In x (a_ctx (after sconf0 late_ops)) /\ In pk (p_sent (x_Profile x)) /\ pp_Service pk <> 0.
Proof.
  assert (match a_log (after sconf0 late_ops) with [_; EvXlog _ p] => negb (xl_Error p =? 0) && negb (xl_Service p =? 0) && negb (xl_ThreadNameHash p =? 0) | _ => false end = true) as H by (vm_compute; reflexivity).
  assert (match a_ctx (after sconf0 late_ops) with [x] => match p_sent (x_Profile x) with [pk] => negb (pp_Service pk =? 0) | _ => false end | _ => false end = true) as H' by (vm_compute; reflexivity).
  destruct (a_log (after sconf0 late_ops)) as [|e0 [|e1 [|]]]; try discriminate H; [|destruct e1; discriminate H]. destruct e1 as [h p| |]; try discriminate H. destruct (a_ctx (after sconf0 late_ops)) as [|x [|]]; try discriminate H'.
  destruct (p_sent (x_Profile x)) as [|pk [|]] eqn:Es; try discriminate H'. exists h, p, x, pk. split; [right; left; reflexivity|]. clear - H H' Es. repeat (split; [lia|]). split; [repeat constructor|]. split; [left; reflexivity|]. rewrite Es. split; [left; reflexivity|lia].
Qed.

Print Assumptions C82_xlogs.
Print Assumptions C82_profiles.
Print Assumptions C82_profile_header.
Print Assumptions C82_reset_refuted.
