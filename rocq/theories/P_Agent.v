(** C78: the agent announces itself to the collector. *)
From Verif Require Import GoInt M_OutX M_Value M_Packs S_Packs M_Hash S_Hash L_Hash M_Cache M_Text S_Text M_Conf S_Conf L_Conf P_Conf M_Udp S_Udp M_Net S_Net P_Net M_Agent S_Agent L_Agent.
From Coq Require Import Permutation ZifyBool.

(** What an announcement says, in every life: the name in force when it was begun, that name's CRC-32 (0 for no name), the type in force when it was completed, and
    the constants. *)
Theorem C78_contents qcap max p later older o : life qcap max p -> g_log p = later ++ GAnnounced o :: older ->
  exists h, o = mk_object_pack (snd (in_force older)) h (fst (in_force (when_begun older))) [] (of_string "0.0.0") true 0 [] /\
    (ob_ObjName o = [] -> h = 0) /\ (ob_ObjName o <> [] -> Forall is_byte (ob_ObjName o) -> h = as_int32 (crc32 (ob_ObjName o))).
Proof.
  intros L E. destruct (lv_said _ (life_linv _ _ _ L) _ _ _ E) as (name & h & -> & Nh & _ & ->). exists h. split; [reflexivity|]. cbn [ob_ObjName]. destruct Nh as [(En & Eh)|(En & Eh)].
  - split; [auto|contradiction].
  - split; [contradiction|]. intros _ B. rewrite (hash_is_crc32 _ B) in Eh. congruence.
Qed.

(** The log's account of what is in force is the configuration's, and the object hash with which the other packs are stamped is the announced one: that of the name. *)
Theorem C78_settings qcap max p : life qcap max p ->
  in_force (g_log p) = (cf_ObjName (c_conf (g_conf p)), cf_ObjType (c_conf (g_conf p))) /\
  (cf_ObjName (c_conf (g_conf p)) = [] -> cf_ObjHash (c_conf (g_conf p)) = 0) /\
  (cf_ObjName (c_conf (g_conf p)) <> [] -> Forall is_byte (cf_ObjName (c_conf (g_conf p))) -> cf_ObjHash (c_conf (g_conf p)) = as_int32 (crc32 (cf_ObjName (c_conf (g_conf p))))).
Proof.
  intros L. split; [apply (lv_force _ (life_linv _ _ _ L))|].
  set (ok := fun c : configure => (cf_ObjName c = [] -> cf_ObjHash c = 0) /\ (cf_ObjName c <> [] -> Forall is_byte (cf_ObjName c) -> cf_ObjHash c = as_int32 (crc32 (cf_ObjName c)))).
  change (ok (c_conf (g_conf p))).
  assert (forall w s s' ch, refresh_conf w s = Some (s', ch) -> ok (c_conf s) -> ok (c_conf s')) as R.
  { intros w s s' ch H K. destruct (refresh_cases w s s' ch H) as [(-> & _)|(fp & q & m & Rl & _)]; [exact K|].
    destruct (C59_object_name _ _ _ _ _ H Rl) as (A & B & _). split; [intros E; rewrite E in A; discriminate|intros _; exact B]. }
  assert (forall k name p p' h, proc_text_send qcap k name p = Some (p', h) -> g_conf p' = g_conf p) as T.
  { intros k name p0 p' h E. destruct (text_send_sim _ _ _ _ _ _ E) as (room & _ & C & _). exact C. }
  assert (forall w p p', proc_refresh qcap w p = Some p' -> ok (c_conf (g_conf p)) -> ok (c_conf (g_conf p'))) as RR.
  { intros w p0 p' E K. unfold proc_refresh in E. destruct (refresh_conf w (g_conf p0)) as [[c ch]|] eqn:Er; [|discriminate]. cbv zeta in E.
    pose proof (R _ _ _ _ Er K) as K'. destruct (ch && g_observer p0); [|injection E as <-; exact K'].
    destruct (proc_text_send _ _ _ _) as [[p2 h]|] eqn:Es in E; [|discriminate]. injection E as <-. rewrite (T _ _ _ _ _ Es). exact K'. }
  induction L as [w conn p E|w p p' L IH E|p L IH|p p' L IH E|pkid p p' L IH E Hk N|k name p p' h L IH E|p L IH|pkid q p p' L IH Pp E Hk N|pkids n p L IH E Hk N|p L IH|i p L IH|conn p L IH|c p L IH];
    try exact IH.
  - eapply RR; [exact E|]. split; [reflexivity|intros F; destruct F; reflexivity].
  - eapply RR; eassumption.
  - unfold proc_begin in E. destruct (g_half p); [injection E as <-; exact IH|]. destruct (proc_text_send _ _ _ _) as [[p1 h]|] eqn:Es in E; [|discriminate].
    injection E as <-. cbn [g_conf]. rewrite (T _ _ _ _ _ Es). exact IH.
  - unfold proc_end in E. destruct (g_half p) as [[name h]|]; [|injection E as <-; exact IH]. destruct (cf_TraceObjSend _ && _); [discriminate|].
    destruct (net_direct _ _ _ _) as [n|]; [|discriminate]. injection E as <-. exact IH.
  - rewrite (T _ _ _ _ _ E). exact IH.
  - unfold proc_direct in E. destruct (net_direct _ _ _ _) as [n|]; [|discriminate]. injection E as <-. exact IH.
Qed.

(** With no refresh in between, name and type are of the same settings; so the announced name, hash and type are those in force. *)
Theorem C78_consistent_partial qcap max p later older o : life qcap max p -> g_log p = later ++ GAnnounced o :: older -> undisturbed older = true ->
  (ob_ObjName o, ob_ObjType o) = in_force older.
Proof.
  intros L E U. destruct (C78_contents _ _ _ _ _ _ L E) as (h & -> & _). cbn [ob_ObjName ob_ObjType].
  assert (in_force (when_begun older) = in_force older) as ->; [|destruct (in_force older); reflexivity].
  clear - U. induction older as [|e older IH]; [discriminate|]. destruct e; cbn [undisturbed when_begun in_force] in *; try discriminate; try (apply IH; exact U). reflexivity.
Qed.

(** The collector can resolve the announced hash: before the announcement was begun, and since the last time the collector had the caches cleared, the text of an
    object with this hash was given to the queue. *)
Theorem C78_name_text qcap max p later older o : life qcap max p -> g_log p = later ++ GAnnounced o :: older -> ob_ObjName o <> [] ->
  exists t, In t (since_clear KObject (texts (when_begun older))) /\ tp_Xtype t = of_string "object" /\ tp_Hash t = ob_ObjHash o /\ hash_string (tp_Text t) = Some (ob_ObjHash o).
Proof.
  intros L E Nn. destruct (lv_said _ (life_linv _ _ _ L) _ _ _ E) as (name & h & -> & Nh & Nk & ->). exact (Nk Nn).
Qed.

(** A new name is told at once, by the refresh that brings it. *)
Theorem C78_rename qcap max w p p' : life qcap max p -> g_observer p = true -> proc_refresh qcap w p = Some p' ->
  cf_ObjName (c_conf (g_conf p')) <> cf_ObjName (c_conf (g_conf p)) -> Forall is_byte (cf_ObjName (c_conf (g_conf p'))) ->
  exists t, In t (since_clear KObject (texts (g_log p'))) /\ tp_Xtype t = of_string "object" /\ tp_Hash t = cf_ObjHash (c_conf (g_conf p')) /\ hash_string (tp_Text t) = Some (tp_Hash t).
Proof.
  intros L Ob E Ne By. pose proof (li_refresh qcap max w p p' L E) as L'. destruct (C78_settings _ _ _ L') as (_ & _ & Hs).
  unfold proc_refresh in E. destruct (refresh_conf w (g_conf p)) as [[c ch]|] eqn:Er; [|discriminate]. cbv zeta in E.
  assert (c_conf (g_conf p') = c_conf c) as Ec.
  { destruct (ch && g_observer p); [|injection E as <-; reflexivity]. destruct (proc_text_send _ _ _ _) as [[p2 h]|] eqn:Es in E; [|discriminate]. injection E as <-.
    destruct (text_send_sim _ _ _ _ _ _ Es) as (room & _ & X & _). cbn [g_conf] in X. rewrite X. reflexivity. }
  destruct (refresh_cases w (g_conf p) c ch Er) as [(-> & _)|(fp & q & m & Rl & _)]; [rewrite Ec in Ne; contradiction|].
  destruct (C59_object_name _ _ _ _ _ Er Rl) as (A & B & C). rewrite Ec in *. assert (ch = true) as -> by (apply C; exact Ne). rewrite Ob in E. cbn [andb] in E.
  destruct (proc_text_send _ _ _ _) as [[p2 h]|] eqn:Es in E; [|discriminate]. injection E as <-.
  assert (cf_ObjName (c_conf c) <> []) as Nn by (rewrite A; discriminate).
  destruct (lv_run _ (life_linv _ _ _ L)) as (ops & R). destruct (text_send_sim _ _ _ _ _ _ Es) as (room & Ts & _). cbn [g_text] in Ts.
  destruct (P_Text.C51_sent_since_reset ops _ _ _ _ _ _ R Ts Nn) as (t & T1 & T2 & T3 & T4).
  exists t. rewrite (lv_texts _ (life_linv _ _ _ L')). split; [exact T1|]. split; [exact T2|]. rewrite T3. split; [|exact T4].
  rewrite (Hs Nn By). destruct (text_send_hash _ _ _ _ _ _ Ts) as [(F & _)|(_ & Hh)]; [contradiction|]. rewrite (hash_is_crc32 _ By) in Hh. congruence.
Qed.

Lemma queued_in log k t : In t (since_clear k (texts log)) -> In (PText t) (queued_packs log).
Proof.
  intros H. unfold queued_packs. apply in_flat_map.
  assert (exists r, In (EvOffer k t r) (texts log)) as (r & I).
  { revert H. generalize (texts log). clear. intros l. induction l as [|e l IH]; cbn [since_clear]; [intros []|]. destruct e as [k' q r|k'].
    - destruct (L_Text.kind_eqb_spec k k') as [E|E].
      + subst k'. intros [<-|H]; [exists r; left; reflexivity|]. destruct (IH H) as (r' & I). exists r'. right. exact I.
      + intros H. destruct (IH H) as (r' & I). exists r'. right. exact I.
    - destruct (kind_eqb k k'); [intros []|]. intros H. destruct (IH H) as (r' & I). exists r'. right. exact I. }
  exists (GText (EvOffer k t r)). split; [|left; reflexivity]. rewrite <- in_rev. unfold texts in I. apply in_flat_map in I as (e & Ie & X). destruct e; cbn [In] in X; try contradiction.
  destruct X as [->|[]]. exact Ie.
Qed.
Lemma begun_part log : exists a, log = a ++ when_begun log.
Proof.
  induction log as [|e log (a & E)]; [exists []; reflexivity|]. destruct e; cbn [when_begun]; try (exists (GText e :: a); cbn [app]; congruence);
  match goal with |- exists a0, ?x :: log = a0 ++ when_begun log => exists (x :: a); cbn [app]; congruence | |- exists a0, ?x :: log = a0 ++ log => exists [x]; reflexivity end.
Qed.
Lemma queued_incl a log : incl (queued_packs log) (queued_packs (a ++ log)).
Proof. intros x H. unfold queued_packs in *. rewrite rev_app_distr, flat_map_app. apply in_or_app. left. exact H. Qed.

(** End to end: when everything is written and nothing was dropped or lost, the collector has every announcement, and with it the text of an object with the announced
    hash. *)
Theorem C78_heard qcap max p received o : 7 <= max <= 2147483647 -> qcap <= 32767 -> life qcap max p -> at_rest (g_net p) -> dropped (x_u (g_net p)) = [] -> x_lost (g_net p) = [] ->
  Permutation received (map snd (x_sent (g_net p))) -> In (GAnnounced o) (g_log p) ->
  In (collector_pack (PObject o)) (collector received) /\
  (ob_ObjName o <> [] -> exists t, In (collector_pack (PText t)) (collector received) /\ tp_Xtype t = of_string "object" /\ tp_Hash t = ob_ObjHash o /\ hash_string (tp_Text t) = Some (ob_ObjHash o)).
Proof.
  intros M Q L Re D0 L0 Pr I. pose proof (life_history qcap max p ltac:(lia) L) as H. unfold hist in H.
  pose proof (C77_nothing_missing qcap max _ _ _ received ltac:(lia) Q H Re D0 L0 Pr) as C.
  assert (forall x, In x (queued_packs (g_log p) ++ direct_packs (g_log p)) -> In (collector_pack x) (collector received)) as G.
  { intros x X. eapply Permutation_in; [symmetry; exact C|]. apply in_map, X. }
  split.
  - apply G, in_or_app. right. unfold direct_packs. apply in_flat_map. exists (GAnnounced o). rewrite <- in_rev. split; [exact I|left; reflexivity].
  - intros Nn. apply in_split in I as (later & older & E). destruct (C78_name_text _ _ _ _ _ _ L E Nn) as (t & T1 & T2 & T3 & T4). exists t. split; [|auto].
    apply G, in_or_app. left. apply queued_in in T1. rewrite E. destruct (begun_part older) as (a & Ea).
    replace (later ++ GAnnounced o :: older) with ((later ++ [GAnnounced o] ++ a) ++ when_begun older) by (rewrite Ea at 2; rewrite <- !app_assoc; reflexivity).
    apply queued_incl. exact T1.
Qed.

(** ** Start-up *)
(** Unless trace_obj_send is set and there is no socket, the start succeeds with one announcement, of the settings just read, and with the observer registered. *)
Theorem C78_start_up_partial qcap max pkid w conn p0 : 7 <= max -> in_int64 pkid -> proc_refresh qcap w (proc0 conn) = Some p0 ->
  Forall is_byte (cf_ObjName (c_conf (g_conf p0))) -> cf_TraceObjSend (c_conf (g_conf p0)) = false \/ conn = true ->
  exists p o, start_up qcap max pkid w conn = Some p /\ life qcap max p /\ g_observer p = true /\ hd_error (g_log p) = Some (GAnnounced o) /\
    (ob_ObjName o, ob_ObjType o) = in_force (g_log p0).
Proof.
  intros M K E By Ok. unfold start_up. rewrite E. pose proof (li_start qcap max w conn p0 E) as L0.
  assert (g_half p0 = None /\ x_clients (g_net p0) = [mkClient conn true] /\ x_made (g_net p0) = []) as (H0 & Cl & Md).
  { unfold proc_refresh in E. destruct (refresh_conf w (g_conf (proc0 conn))) as [[c ch]|]; [|discriminate]. cbv zeta in E. cbn [proc0 g_observer] in E. rewrite andb_false_r in E.
    injection E as <-. auto. }
  unfold proc_begin. rewrite H0.
  destruct (proc_text_send qcap KObject (cf_ObjName (c_conf (g_conf p0))) p0) as [[p1 h]|] eqn:Es.
  2:{ unfold proc_text_send in Es. destruct (cf_ObjName (c_conf (g_conf p0))) as [|b bs] eqn:En; [discriminate|]. rewrite (hash_is_crc32 _ By) in Es. destruct (lra_contains _ _); discriminate. }
  set (p2 := mkProc (g_conf p1) (g_text p1) (g_net p1) (g_observer p1) (Some (cf_ObjName (c_conf (g_conf p0)), h)) (GBegan :: g_log p1)).
  assert (life qcap max p2) as L2 by (apply (li_begin qcap max p0 p2 L0); unfold proc_begin; rewrite H0, Es; reflexivity).
  destruct (text_send_sim _ _ _ _ _ _ Es) as (room & _ & C1 & _ & _ & Cases).
  assert (x_clients (g_net p1) = [mkClient conn true] /\ x_made (g_net p1) = []) as (Cl1 & Md1).
  { destruct Cases as [(_ & _ & ->)|(_ & _ & _ & _ & ->)]; auto. }
  unfold proc_end. cbn [p2 g_half g_conf g_net]. rewrite C1. unfold current. rewrite Cl1. cbn [length pred nth_error cl_conn].
  replace (cf_TraceObjSend (c_conf (g_conf p0)) && negb conn) with false by (destruct Ok as [-> | ->]; [reflexivity|cbn [negb]; rewrite andb_false_r; reflexivity]).
  set (o := mk_object_pack (cf_ObjType (c_conf (g_conf p0))) h (cf_ObjName (c_conf (g_conf p0))) [] (of_string "0.0.0") true 0 []).
  destruct (C77_direct_never_refused max pkid (PObject o) (g_net p1) ltac:(lia)) as (n & En & _). rewrite En. cbn [option_map].
  eexists _, o. split; [reflexivity|]. split; [|split; [reflexivity|split; [reflexivity|]]].
  - apply li_observe. eapply (li_end qcap max pkid p2); [exact L2| |exact K|].
    + unfold proc_end. cbn [p2 g_half g_conf g_net]. rewrite C1. unfold current. rewrite Cl1. cbn [length pred nth_error cl_conn].
      replace (cf_TraceObjSend (c_conf (g_conf p0)) && negb conn) with false by (destruct Ok as [-> | ->]; [reflexivity|cbn [negb]; rewrite andb_false_r; reflexivity]).
      fold o. rewrite En. reflexivity.
    + cbn [g_net p2]. intros k _ F. rewrite Md1 in F. exact F.
  - rewrite (lv_force _ (life_linv _ _ _ L0)). reflexivity.
Qed.

(** In that case the program that uses the agent does not start at all: Init runs in the package's init function (agent.go:23-25). *)
Theorem C78_start_up_refuted qcap max pkid w p0 : proc_refresh qcap w (proc0 false) = Some p0 -> cf_TraceObjSend (c_conf (g_conf p0)) = true -> start_up qcap max pkid w false = None.
Proof.
  intros E T. unfold start_up. rewrite E.
  assert (g_half p0 = None /\ x_clients (g_net p0) = [mkClient false true]) as (H0 & Cl).
  { unfold proc_refresh in E. destruct (refresh_conf w (g_conf (proc0 false))) as [[c ch]|]; [|discriminate]. cbv zeta in E. cbn [proc0 g_observer] in E. rewrite andb_false_r in E.
    injection E as <-. auto. }
  unfold proc_begin. rewrite H0. destruct (proc_text_send qcap KObject (cf_ObjName (c_conf (g_conf p0))) p0) as [[p1 h]|] eqn:Es; [|reflexivity].
  destruct (text_send_sim _ _ _ _ _ _ Es) as (room & _ & C1 & _ & _ & Cases).
  assert (x_clients (g_net p1) = [mkClient false true]) as Cl1 by (destruct Cases as [(_ & _ & ->)|(_ & _ & _ & _ & ->)]; exact Cl).
  unfold proc_end. cbn [g_half g_conf g_net]. rewrite C1. unfold current. rewrite Cl1. cbn [length pred nth_error cl_conn negb]. rewrite T. reflexivity.
Qed.
Definition trace_world : world := mk_world [of_string "trace_obj_send=true"] StatAbsent LoadAbsent (of_string "h").
Example C78_start_up_refuted_case : exists p0, proc_refresh 8 trace_world (proc0 false) = Some p0 /\ cf_TraceObjSend (c_conf (g_conf p0)) = true /\ Forall is_byte (cf_ObjName (c_conf (g_conf p0))).
Proof.
  assert (match proc_refresh 8 trace_world (proc0 false) with Some p => cf_TraceObjSend (c_conf (g_conf p)) && beqb (cf_ObjName (c_conf (g_conf p))) (of_string "/h/go1") | None => false end = true) as K by (vm_compute; reflexivity).
  destruct (proc_refresh 8 trace_world (proc0 false)) as [p|]; [|discriminate]. exists p. apply andb_true_iff in K as (K1 & K2). split; [reflexivity|]. split; [exact K1|].
  destruct (beqb_spec (cf_ObjName (c_conf (g_conf p))) (of_string "/h/go1")) as [->|]; [|discriminate]. repeat constructor; unfold is_byte; vm_compute; intuition discriminate.
Qed.

(** An agent whose configuration file cannot be examined (no permission, say) has no name: it announces an object without name and type. *)
Theorem C78_nameless_refuted qcap max pkid w conn : 7 <= max -> in_int64 pkid -> w_stat w = StatError ->
  exists p, start_up qcap max pkid w conn = Some p /\ life qcap max p /\ hd_error (g_log p) = Some (GAnnounced (mk_object_pack [] 0 [] [] (of_string "0.0.0") true 0 [])).
Proof.
  intros M K Ws.
  assert (proc_refresh qcap w (proc0 conn) = Some (mkProc initial_cstate t_init (net0 conn) false None [GSettings [] []])) as E by (unfold proc_refresh, refresh_conf; rewrite Ws; reflexivity).
  destruct (C78_start_up_partial qcap max pkid w conn _ M K E) as (p & o & S & L & _ & H & F); [constructor|left; reflexivity|].
  exists p. split; [exact S|]. split; [exact L|]. cbn [g_log in_force] in F. rewrite H.
  destruct (g_log p) as [|e l] eqn:Lg; [discriminate|]. cbn [hd_error] in H. injection H as ->.
  destruct (C78_contents qcap max p [] l o L Lg) as (h & Eo & Z0 & _). injection F as F1 F2. rewrite (Z0 F1) in Eo. rewrite Eo in F1, F2 |- *. cbn [ob_ObjName ob_ObjType] in F1, F2. rewrite F1, F2. reflexivity.
Qed.

(** ** Name and type of different settings *)
Inductive act := ARefresh (w : world) | ABegin | AEnd (pkid : Z) | AReset | ASender (pkid : Z) | AWriteSender | AWrite (i : nat).
Definition act_step (qcap max : Z) (a : act) (p : process) : option process :=
  match a with
  | ARefresh w => proc_refresh qcap w p
  | ABegin => proc_begin qcap p
  | AEnd k => match proc_end max k p with Some p' => if in64 k && new_keys_b (g_net p) (g_net p') then Some p' else None | None => None end
  | AReset => Some (proc_reset p)
  | ASender k => match net_sender max (fun _ => k) (g_net p) with Some n => if in64 k && new_keys_b (g_net p) n then Some (proc_net n p) else None | None => None end
  | AWriteSender => Some (proc_net (net_write_sender (g_net p)) p)
  | AWrite i => Some (proc_net (net_write_job i (g_net p)) p)
  end.
Fixpoint acts (qcap max : Z) (l : list act) (p : process) : option process :=
  match l with [] => Some p | a :: l' => match act_step qcap max a p with Some p' => acts qcap max l' p' | None => None end end.
Lemma acts_life qcap max l : forall p p', life qcap max p -> acts qcap max l p = Some p' -> life qcap max p'.
Proof.
  induction l as [|a l IH]; intros p p' L E; cbn [acts] in E; [injection E as <-; exact L|].
  destruct (act_step qcap max a p) as [p1|] eqn:Ea; [|discriminate]. apply (IH p1 p'); [|exact E]. clear IH E. destruct a; cbn [act_step] in Ea.
  - eapply li_refresh; eassumption.
  - eapply li_begin; eassumption.
  - destruct (proc_end max pkid p) as [q|] eqn:X; [|discriminate]. destruct (in64 pkid) eqn:I; [|discriminate]. destruct (new_keys_b (g_net p) (g_net q)) eqn:N; [|discriminate]. injection Ea as <-.
    eapply li_end; [exact L|exact X|apply in64_ok, I|apply new_keys_ok, N].
  - injection Ea as <-. apply li_reset, L.
  - destruct (net_sender max (fun _ => pkid) (g_net p)) as [n|] eqn:X; [|discriminate]. destruct (in64 pkid) eqn:I; [|discriminate]. destruct (new_keys_b (g_net p) n) eqn:N; [|discriminate]. injection Ea as <-.
    eapply li_sender; [exact L|exact X|intros i; apply in64_ok, I|apply new_keys_ok, N].
  - injection Ea as <-. apply li_write_sender, L.
  - injection Ea as <-. apply li_write_job, L.
Qed.

Definition first_world : world := mk_world [] (StatTime 5) (Loaded [(of_string "obj_name", of_string "shop"); (of_string "obj_type", of_string "t1")]) (of_string "h").
Definition second_world : world := mk_world [] (StatTime 6) (Loaded [(of_string "obj_name", of_string "bank"); (of_string "obj_type", of_string "t2")]) (of_string "h").
(** A refresh between the two readings: the old name with the new type, a combination that was never configured. *)
Theorem C78_consistent_refuted : exists qcap max p later older o, life qcap max p /\ g_log p = later ++ GAnnounced o :: older /\
  forall name type, In (GSettings name type) (g_log p) -> (ob_ObjName o, ob_ObjType o) <> (name, type).
Proof.
  assert (match proc_refresh 8 first_world (proc0 true) with
          | Some p0 => match acts 8 60000 [ABegin; ARefresh second_world; AEnd 1] p0 with
                       | Some p => match g_log p with
                                   | GAnnounced o :: older => beqb (ob_ObjName o) (of_string "/h/shop") && beqb (ob_ObjType o) (of_string "t2") &&
                                       forallb (fun e => match e with GSettings n t => negb (beqb n (ob_ObjName o) && beqb t (ob_ObjType o)) | _ => true end) older
                                   | _ => false end
                       | None => false end
          | None => false end = true) as K by (vm_compute; reflexivity).
  destruct (proc_refresh 8 first_world (proc0 true)) as [p0|] eqn:E0; [|discriminate].
  destruct (acts 8 60000 _ p0) as [p|] eqn:E1; [|discriminate]. pose proof (acts_life _ _ _ _ _ (li_start 8 60000 _ _ _ E0) E1) as L. clear E0 E1.
  destruct (g_log p) as [|e older] eqn:El; [discriminate|]. destruct e as [| | |o|]; try discriminate.
  exists 8, 60000, p, [], older, o. split; [exact L|]. split; [exact El|]. apply andb_true_iff in K as (_ & K). rewrite forallb_forall in K.
  intros name type I F. rewrite El in I. destruct I as [X|I]; [discriminate|]. specialize (K _ I). cbn beta iota in K. injection F as F1 F2. rewrite <- F1, <- F2 in K.
  rewrite !beqb_refl in K. discriminate.
Qed.

(** A whole life: start, a new name, a cleared cache, three announcements; all written, and heard by the collector. *)
Definition whole_life : list act := [ABegin; AEnd 1; ARefresh second_world; ABegin; AEnd 2; AReset; ABegin; AEnd 3; AWrite 2; AWrite 0; AWrite 1; ASender 4; ASender 5; ASender 6; ASender 7; ASender 8; AWriteSender; ASender 9; AWriteSender].
Example C78_case : exists p, life 8 60000 p /\ at_rest (g_net p) /\ dropped (x_u (g_net p)) = [] /\ x_lost (g_net p) = [] /\
  map ob_ObjName (flat_map (fun e => match e with GAnnounced o => [o] | _ => [] end) (g_log p)) = [of_string "/h/bank"; of_string "/h/bank"; of_string "/h/shop"] /\
  length (collector (map snd (x_sent (g_net p)))) = 6%nat.
Proof.
  assert (match proc_refresh 8 first_world (proc0 true) with
          | Some p0 => match acts 8 60000 whole_life p0 with
                       | Some p => (length (queue (x_u (g_net p))), match snd_state (x_u (g_net p)) with Idle => true | _ => false end, length (x_uout (g_net p)), length (concat (x_jobs (g_net p))),
                            length (dropped (x_u (g_net p))), length (x_lost (g_net p)), map ob_ObjName (flat_map (fun e => match e with GAnnounced o => [o] | _ => [] end) (g_log p)),
                            length (collector (map snd (x_sent (g_net p)))))
                       | None => (0, false, 0, 0, 0, 0, [], 0)%nat end
          | None => (0, false, 0, 0, 0, 0, [], 0)%nat end = (0, true, 0, 0, 0, 0, [of_string "/h/bank"; of_string "/h/bank"; of_string "/h/shop"], 6)%nat) as K by (vm_compute; reflexivity).
  destruct (proc_refresh 8 first_world (proc0 true)) as [p0|] eqn:E0; [|discriminate].
  destruct (acts 8 60000 whole_life p0) as [p|] eqn:E1; [|discriminate]. pose proof (acts_life _ _ _ _ _ (li_start 8 60000 _ _ _ E0) E1) as L. clear E0 E1.
  injection K as K1 K2 K3 K4 K5 K6 K7 K8. apply length_zero_iff_nil in K1, K3, K4, K5, K6. exists p. split; [exact L|]. split; [|repeat split; assumption].
  repeat split; try assumption. destruct (snd_state (x_u (g_net p))); [reflexivity|discriminate].
Qed.

Print Assumptions C78_contents.
Print Assumptions C78_settings.
Print Assumptions C78_consistent_partial.
Print Assumptions C78_name_text.
Print Assumptions C78_rename.
Print Assumptions C78_heard.
Print Assumptions C78_start_up_partial.
Print Assumptions C78_start_up_refuted.
Print Assumptions C78_nameless_refuted.
Print Assumptions C78_consistent_refuted.
