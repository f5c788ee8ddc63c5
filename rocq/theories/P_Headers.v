(** Property C102: every profile pack, whenever it is sent, names the agent and the transaction it belongs to, and what was sent stays sent. *)
From Verif Require Import GoInt M_Util M_Hash M_Packs M_Steps M_Cache M_Text M_Profile M_Sampler M_Trace L_Trace S_Trace L_TraceRel L_TraceInv L_TraceStart L_TraceSafe
  L_TraceActive L_TraceHist P_Trace P_Trace2 P_Trace3 P_Counts L_Headers.
Import M_Trace.

(** One call: the packs sent before are still there, the new ones follow; they carry the object hash in force at the call and the transaction
    id of their service, also of a service begun by this call. *)
Theorem C102_one_call n k a h : let a' := fst (do_call n k a) in exists new,
  packs_of h a' = packs_of h a ++ new /\
  Forall (fun pk => pp_Time pk = 0 /\ pp_ObjHash pk = cf_obj (n_conf n) /\ txid_of a' h = Some (pp_Txid pk)) new.
Proof.
  cbv zeta. destruct (so_call n k a) as (H & _). destruct (H h) as (new & E & F). exists new. split; [exact E|].
  eapply Forall_impl; [|exact F]. cbv beta. intros pk ((A & B) & C). auto.
Qed.
(** A transaction keeps its id. *)
Theorem C102_id_stays n k a h t : txid_of a h = Some t -> txid_of (fst (do_call n k a)) h = Some t.
Proof. destruct (so_call n k a) as (_ & H). apply H. Qed.

Lemma run_packs ops : forall a h, exists new, packs_of h (fst (run ops a)) = packs_of h a ++ new /\
  Forall (fun pk => pp_Time pk = 0 /\ (exists n k, In (n, k) ops /\ pp_ObjHash pk = cf_obj (n_conf n)) /\ txid_of (fst (run ops a)) h = Some (pp_Txid pk)) new /\
  (forall t, txid_of a h = Some t -> txid_of (fst (run ops a)) h = Some t).
Proof.
  induction ops as [|[n k] ops IH]; intros a h; cbn [run].
  - exists []. cbn [fst]. rewrite app_nil_r. split; [reflexivity|]. split; [constructor|auto].
  - destruct (C102_one_call n k a h) as (n1 & E1 & F1). pose proof (C102_id_stays n k a h) as I1. destruct (do_call n k a) as [a1 [r|]] eqn:Ed; cbn [fst] in *.
    + destruct (IH a1 h) as (n2 & E2 & F2 & I2). destruct (run ops a1) as [a2 [rs|]]; cbn [fst] in *; (exists (n1 ++ n2); split; [rewrite E2, E1, app_assoc; reflexivity|split; [|auto]]);
        apply Forall_app; (split; [eapply Forall_impl; [|exact F1]; cbv beta; intros pk (A & B & C); split; [exact A|split; [exists n, k; split; [left; reflexivity|exact B]|exact (I2 _ C)]]|
          eapply Forall_impl; [|exact F2]; cbv beta; intros pk (A & (m & q & B & B2) & C); split; [exact A|split; [exists m, q; split; [right; exact B|exact B2]|exact C]]]).
    + exists n1. split; [exact E1|]. split; [|exact I1]. eapply Forall_impl; [|exact F1]. cbv beta. intros pk (A & B & C). split; [exact A|]. split; [exists n, k; split; [left; reflexivity|exact B]|exact C].
Qed.

(** All packs of a history. *)
Theorem C102_packs c ops h pk : In pk (packs_of h (after c ops)) ->
  pp_Time pk = 0 /\ (exists n k, In (n, k) ops /\ pp_ObjHash pk = cf_obj (n_conf n)) /\ txid_of (after c ops) h = Some (pp_Txid pk).
Proof.
  intros I. destruct (run_packs ops (a_init c) h) as (new & E & F & _). fold (after c ops) in E, F.
  assert (packs_of h (a_init c) = []) as P0 by (unfold packs_of; destruct h; reflexivity). rewrite P0 in E. cbn [app] in E. rewrite E in I. rewrite Forall_forall in F. exact (F pk I).
Qed.
(** Profile packs and the xlog of a service carry the same transaction id. *)
Theorem C102_same_transaction c ops h pk p : Forall (fun nk => cf_bulk (n_conf (fst nk)) <> 0) ops ->
  In pk (packs_of h (after c ops)) -> In (EvXlog h p) (a_log (after c ops)) -> pp_Txid pk = xl_Txid p.
Proof.
  intros F I X. destruct (C102_packs _ _ _ _ I) as (_ & _ & T). destruct (once_run c ops F) as [_ _ _ O]. destruct (O h p X) as (x & E & _ & ->).
  unfold txid_of in T. rewrite E in T. cbn [option_map] in T. congruence.
Qed.
(** Packs that were sent are never taken back or changed by what follows. *)
Theorem C102_sent_stays c ops more h : exists new, packs_of h (after c (ops ++ more)) = packs_of h (after c ops) ++ new.
Proof.
  unfold after. revert more. assert (forall ops more a h, exists new, packs_of h (fst (run (ops ++ more) a)) = packs_of h (fst (run ops a)) ++ new) as H.
  { clear. induction ops as [|[n k] ops IH]; intros more a h; cbn [app].
    - destruct (run_packs more a h) as (new & E & _). exists new. exact E.
    - cbn [run]. destruct (do_call n k a) as [a1 [r|]]; [|exists []; cbn [fst]; rewrite app_nil_r; reflexivity]. destruct (IH more a1 h) as (new & E). exists new.
      destruct (run (ops ++ more) a1) as [x [rx|]], (run ops a1) as [y [ry|]]; exact E. }
  intros more. apply H.
Qed.

(** a service whose packs are sent by three calls, in the middle and at the end *)
Example C102_case : let a := after sconf0 (count_ops ++ [(env_keep 2 100 15 9000000, KEndService (CTrace 0))]) in
  match packs_of 0 a, a_log a with
  | [p; q; r], [_; EvXlog O x] => (pp_Txid p =? 11) && (pp_Txid q =? 11) && (pp_Txid r =? 11) && (xl_Txid x =? 11) && (pp_ObjHash p =? 77) && (pp_ObjHash r =? 77)
  | _, _ => false end = true /\
  Forall (fun nk => cf_bulk (n_conf (fst nk)) <> 0) (count_ops ++ [(env_keep 2 100 15 9000000, KEndService (CTrace 0))]).
Proof. cbv zeta. split; [vm_compute; reflexivity|]. unfold count_ops. cbn [app]. repeat (constructor; [discriminate|]). constructor. Qed.

Print Assumptions C102_one_call.
Print Assumptions C102_id_stays.
Print Assumptions C102_packs.
Print Assumptions C102_same_transaction.
Print Assumptions C102_sent_stays.
