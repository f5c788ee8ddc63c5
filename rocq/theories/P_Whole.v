(** C91: the agent does not end the process it lives in. *)
From Verif Require Import GoInt M_OutX M_Value M_Packs S_Packs M_Access M_Cache M_Text M_Hash M_Conf M_Udp M_Net M_NetLimit M_Redirect M_Agent M_Trace M_Meter M_Tasks M_Whole
  L_Meter L_Trace L_TraceSafe L_Net L_Conf S_Conf P_Conf S_Trace P_Trace S_Tasks L_Tasks P_Tasks S_Whole L_Whole.
From Coq Require Import Permutation ZifyBool.

Definition sound (s : whole) : Prop := fits s /\ tasks_ok (h_tasks s).
Lemma start_sound w conn c t0 t1 s : 0 <= t0 -> 0 <= t1 -> whole_start w conn c t0 t1 = Some s -> sound s /\ h_max s = [cf_UDPMaxBytes (settings_of s)] /\ h_vars s = target_of (settings_of s) /\
  clients (h_proc s) = [mkClient conn true] /\ h_tasks s = world0 c t0 t1 /\ 0 <= cf_SendQueueSize (settings_of s) /\ proc_refresh 0 w (proc0 conn) = Some (h_proc s).
Proof.
  intros H0 H1. unfold whole_start. destruct (proc_refresh 0 w (proc0 conn)) as [p|] eqn:E; [|discriminate]. cbv zeta.
  destruct (cf_SendQueueSize (c_conf (g_conf p)) <? 0) eqn:Q; [discriminate|]. intros [= <-]. pose proof (refresh_clients _ _ _ _ E) as C. change (clients (proc0 conn)) with [mkClient conn true] in C.
  unfold sound, fits, settings_of. cbn [h_proc h_max h_vars h_tasks]. rewrite C.
  repeat (split; [first [reflexivity|discriminate|apply tasks_ok0; assumption|split; [split; [discriminate|reflexivity]|apply tasks_ok0; assumption]]|]).
  split; [lia|reflexivity].
Qed.
Lemma step_tasks m s s' : whole_step m s = Some s' ->
  match m with HTask _ t => exists ps, task_step t (h_tasks s) = Some (ps, h_tasks s') | _ => h_tasks s' = h_tasks s end.
Proof.
  intros E. destruct m; cbn [whole_step] in E; try (injection E as <-; reflexivity);
    try (match type of E with option_map _ ?x = _ => destruct x; [|discriminate E] end; injection E as <-; reflexivity).
  destruct (task_step t (h_tasks s)) as [[ps w]|]; [|discriminate]. destruct (send_all _ _ _ _); [|discriminate]. injection E as <-. exists ps. reflexivity.
Qed.
Lemma early_dec m : {early m} + {~ early m}.
Proof. destruct m; try (right; exact (fun F => F)). apply Z_lt_dec. Qed.
Lemma step_sound m s s' : whole_step m s = Some s' -> sound s -> possible s m -> ~ early m -> sound s'.
Proof.
  intros E (F & T) Ps Ne. split.
  - pose proof (step_aims (fun _ => True) m s s' E) as A. destruct A as (A & _); [|exact I|exact A]. split; [exact F|]. split; [exact I|]. apply Forall_forall. intros ? _. exact I.
  - pose proof (step_tasks _ _ _ E) as St. destruct m; try (rewrite St; exact T). destruct St as (ps & St).
    destruct (task_goes t (h_tasks s) T) as (ps' & w' & E' & T' & _); [exact Ps|unfold early in Ne; lia|]. rewrite St in E'. injection E' as _ ->. exact T'.
Qed.
Lemma step_dies m s : sound s -> possible s m -> ~ early m -> whole_step m s = None -> fatal m s.
Proof.
  intros (F & T) Ps Ne E. destruct m; cbn [whole_step] in E; try discriminate E; cbn [fatal].
  - destruct (calm_dec w) as [C|C]; [|exact C]. exfalso. apply (proc_refresh_some (h_qcap s) w (h_proc s) C). destruct (proc_refresh _ _ _); [discriminate|reflexivity].
  - exfalso. destruct (proc_begin (h_qcap s) (h_proc s)) eqn:Eb; [discriminate|]. unfold proc_begin in Eb. destruct (g_half (h_proc s)); [discriminate|]. cbv zeta in Eb.
    destruct (proc_text_send (h_qcap s) KObject (cf_ObjName (c_conf (g_conf (h_proc s)))) (h_proc s)) as [[? ?]|] eqn:Et; [discriminate|]. exact (text_total _ _ _ _ Et).
  - destruct (proc_end (limit_in_use s) pkid (h_proc s)) eqn:Eb; [discriminate|]. unfold proc_end in Eb. destruct (g_half (h_proc s)) as [[nm h]|]; [|discriminate]. cbv zeta in Eb.
    destruct (last_client s F) as (k & cl & K1 & K2 & K3). unfold clients in *. rewrite K3, K2 in Eb. fold (settings_of s) in Eb.
    destruct (cf_TraceObjSend (settings_of s)) eqn:Tr, (cl_conn cl) eqn:C; cbn [andb negb] in Eb.
    2: { left. split; [reflexivity|]. intros (k' & cl' & A & B & D). assert (k' = k) as -> by lia. congruence. }
    all: right; apply (limit_zero s F); destruct (net_direct _ _ _ _) eqn:En in Eb; [discriminate|]; eapply direct_none; exact En.
  - exfalso. destruct (proc_text_send (h_qcap s) k name (h_proc s)) as [[? ?]|] eqn:Et; [discriminate|]. exact (text_total _ _ _ _ Et).
  - apply (limit_zero s F). destruct (proc_direct (limit_in_use s) pkid p (h_proc s)) eqn:Ed; [discriminate|]. unfold proc_direct in Ed.
    destruct (net_direct _ _ _ _) eqn:En in Ed; [discriminate|]. eapply direct_none; exact En.
  - apply (limit_zero s F). destruct (l_sender _ _ _) as [l|] eqn:El in E; [discriminate|]. apply sender_none in El. unfold cur_max in El. cbn [l_net l_max] in El.
    destruct (last_client s F) as (k & cl & K1 & K2 & K3). unfold clients in *. rewrite K3 in El.
    rewrite (nth_indep _ 0 (limit_in_use s)) in El by (rewrite map_length; lia). rewrite (map_nth (fun _ : client => limit_in_use s) _ cl) in El. exact El.
  - destruct (task_goes t (h_tasks s) T) as (ps' & w' & E' & T' & L); [exact Ps|unfold early in Ne; lia|]. rewrite E' in E.
    destruct (send_all (limit_in_use s) pkid ps' (h_proc s)) eqn:Ea; [discriminate|]. apply all_none in Ea as (A1 & A2). split; [apply (limit_zero s F), A1|].
    rewrite <- L. destruct ps'; [congruence|discriminate].
Qed.
Lemma run_app a b : forall s, whole_run (a ++ b) s = match whole_run a s with Some s1 => whole_run b s1 | None => None end.
Proof. induction a as [|m a IH]; intros s; [reflexivity|]. cbn [app whole_run]. destruct (whole_step m s); [apply IH|reflexivity]. Qed.
Lemma possible_tail m ms s s1 : all_possible (m :: ms) s -> whole_step m s = Some s1 -> possible s m /\ all_possible ms s1.
Proof.
  intros H E. split; [apply (H [] m ms s eq_refl eq_refl)|]. intros b m' a s' Eq R. apply (H (m :: b) m' a s'); [rewrite Eq; reflexivity|]. cbn [whole_run]. rewrite E. exact R.
Qed.
Lemma run_sound ms : forall s s' rest, whole_run ms s = Some s' -> sound s -> all_possible (ms ++ rest) s -> Forall (fun m => ~ early m) ms -> sound s' /\ all_possible rest s'.
Proof.
  induction ms as [|m ms IH]; intros s s' rest R S P F; cbn [whole_run app] in *; [injection R as <-; auto|].
  destruct (whole_step m s) as [s1|] eqn:E; [|discriminate]. destruct (possible_tail _ _ _ _ P E) as (P1 & P2). inversion F as [|? ? Nm F']; subst.
  apply (IH s1 s' rest R); [eapply step_sound; eassumption|exact P2|exact F'].
Qed.

(** Nothing else ends the process: if it ends at a move, in any history, then for one of the reasons listed, or the clock has read a time before 1970. *)
Theorem C91_only_ways w conn c t0 t1 s0 ms s m : 0 <= t0 -> 0 <= t1 -> whole_start w conn c t0 t1 = Some s0 -> all_possible (ms ++ [m]) s0 ->
  whole_run ms s0 = Some s -> whole_step m s = None -> fatal m s \/ Exists early (ms ++ [m]).
Proof.
  intros H0 H1 St P R E. destruct (Exists_dec early (ms ++ [m]) early_dec) as [X|X]; [right; exact X|left]. apply Forall_Exists_neg in X. apply Forall_app in X as (X & Xm).
  inversion Xm as [|? ? Nm _]; subst. destruct (start_sound _ _ _ _ _ _ H0 H1 St) as (S & _). destruct (run_sound ms s0 s [m] R S P X) as (S' & P').
  apply step_dies; [exact S'|apply (P' [] m [] s eq_refl eq_refl)|exact Nm|exact E].
Qed.
(** and at the start: an environment entry without '=', or a negative queue size *)
Theorem C91_start_only_ways w conn c t0 t1 : whole_start w conn c t0 t1 = None ->
  (exists e, In e (w_env w) /\ ~ In 61 e) \/ exists cs ch, refresh_conf w initial_cstate = Some (cs, ch) /\ cf_SendQueueSize (c_conf cs) < 0.
Proof.
  unfold whole_start. destruct (calm_dec w) as [C|C]; [|left; exact C]. pose proof (proc_refresh_some 0 w (proc0 conn) C) as N.
  destruct (proc_refresh 0 w (proc0 conn)) as [p|] eqn:E; [|congruence]. cbv zeta. destruct (cf_SendQueueSize (c_conf (g_conf p)) <? 0) eqn:Q; [|discriminate].
  intros _. right. unfold proc_refresh in E. cbn [proc0 g_conf g_observer] in E. destruct (refresh_conf w initial_cstate) as [[cs ch]|]; [|discriminate]. rewrite andb_false_r in E. cbv zeta in E.
  injection E as <-. exists cs, ch. split; [reflexivity|]. cbn [g_conf] in Q. lia.
Qed.

(** The settings decide: while every setting reached is calm, the process lives. *)
Theorem C91_survives w conn c t0 t1 s0 ms : 0 <= t0 -> 0 <= t1 -> whole_start w conn c t0 t1 = Some s0 -> all_possible ms s0 ->
  (forall m, In m ms -> ~ early m /\ match m with HRefresh w' => calm_world w' | _ => True end) ->
  (forall before after s, ms = before ++ after -> whole_run before s0 = Some s -> calm s) ->
  exists s, whole_run ms s0 = Some s.
Proof.
  intros H0 H1 St P Hm Hc. destruct (start_sound _ _ _ _ _ _ H0 H1 St) as (S & Mx & Vr & _).
  assert (aims_ok (fun z => z <> 0) s0) as A.
  { destruct (Hc [] ms s0 eq_refl eq_refl) as (C1 & _). split; [apply S|]. rewrite Mx, Vr. split; [exact C1|]. constructor; [exact C1|constructor]. }
  clear H0 H1 St Mx Vr. revert s0 P Hc S A. induction ms as [|m ms IH]; intros s0 P Hc S A; [exists s0; reflexivity|]. cbn [whole_run].
  destruct (Hm m (or_introl eq_refl)) as (Nm & Cm). pose proof (P [] m ms s0 eq_refl eq_refl) as P0. destruct (Hc [] (m :: ms) s0 eq_refl eq_refl) as (C1 & C2).
  destruct (whole_step m s0) as [s1|] eqn:E.
  - destruct (possible_tail _ _ _ _ P E) as (_ & P1). apply (IH (fun x I => Hm x (or_intror I)) s1 P1).
    + intros b a s Eq R. apply (Hc (m :: b) a s); [rewrite Eq; reflexivity|]. cbn [whole_run]. rewrite E. exact R.
    + eapply step_sound; eassumption.
    + eapply step_aims; eassumption.
  - exfalso. pose proof (step_dies m s0 S P0 Nm E) as D.
    assert (~ cannot_divide s0) as Nd. { intros (k & cl & _ & _ & _ & Z). destruct A as (_ & _ & M). apply nth_error_In in Z. rewrite Forall_forall in M. exact (M _ Z eq_refl). }
    destruct m; cbn [fatal] in D; try contradiction.
    + destruct D as (e & I & Nn). exact (Nn (Cm e I)).
    + destruct D as [(D1 & D2)|D]; [exact (D2 (C2 D1))|exact (Nd D)].
    + exact (Nd (proj1 D)).
Qed.

(** ** A configuration that is silent about the three settings *)
Lemma silent_setting w s s' ch st : silent_world w -> refresh_conf w s = Some (s', ch) -> In st settings -> In (st_key st) keys_that_matter ->
  s' = s \/ st_read st (c_conf s') = default_of (st_kind st).
Proof.
  intros (Es & Nd & K) H I M. destruct (refresh_cases w s s' ch H) as [(-> & _)|(fp & p & m & R & Ep & _)]; [left; reflexivity|right].
  destruct (K _ M) as (K1 & K2). rewrite (reload_conf w s s' ch fp p H R Ep).
  assert (NoDup (map fst fp) /\ M_Value.get (st_key st) fp = None) as (Nf & Gf).
  { destruct R as (_ & [L|(_ & ->)]); [split; [exact (Nd _ L)|apply get_None, (K2 _ L)]|split; [constructor|reflexivity]]. }
  pose proof (settings_taken (loaded_props p fp) (w_host w) (c_conf s) (c_descs s)) as T. rewrite Forall_forall in T. specialize (T st (or_intror I)).
  rewrite loaded_value in T; [|exact Nf|eapply env_props_keys; [exact Ep|constructor]]. rewrite Gf in T.
  destruct (env_props_spec (w_env w) Es []) as (p' & Ep' & Hp). rewrite Ep in Ep'. injection Ep' as <-. rewrite (proj2 (Hp (st_key st)) K1) in T. cbn [M_Value.get given] in T.
  destruct (st_kind st); exact T.
Qed.
Definition quiet_conf (c : configure) : Prop := cf_UDPMaxBytes c = 60000 /\ cf_TraceObjSend c = false /\ cf_SendQueueSize c = 3000.
Definition st_max : setting := mk_setting (of_string "udp_max_bytes") (KInt 60000) (fun c => SInt (cf_UDPMaxBytes c)) [].
Definition st_trace : setting := mk_setting (of_string "trace_obj_send") (KBool false) (fun c => SBool (cf_TraceObjSend c)) [].
Definition st_queue : setting := mk_setting (of_string "send_queue_size") (KInt 3000) (fun c => SInt (cf_SendQueueSize c)) [].
Lemma st_in : In st_max settings /\ In st_trace settings /\ In st_queue settings.
Proof. unfold settings. repeat split; [do 9 right; left; reflexivity|do 2 right; left; reflexivity|do 3 right; left; reflexivity]. Qed.
Lemma silent_quiet w s s' ch : silent_world w -> refresh_conf w s = Some (s', ch) -> quiet_conf (c_conf s) -> quiet_conf (c_conf s').
Proof.
  intros S H Q. destruct st_in as (I1 & I2 & I3).
  destruct (silent_setting w s s' ch st_max S H I1) as [->|E1]; [left; reflexivity|exact Q|].
  destruct (silent_setting w s s' ch st_trace S H I2) as [->|E2]; [right; left; reflexivity|exact Q|].
  destruct (silent_setting w s s' ch st_queue S H I3) as [->|E3]; [right; right; left; reflexivity|exact Q|].
  cbn [st_max st_trace st_queue st_read st_kind default_of] in E1, E2, E3. split; [|split]; congruence.
Qed.
Lemma silent_calm w : silent_world w -> calm_world w.
Proof. intros (E & _) e I. rewrite Forall_forall in E. destruct (E e I) as (k & v & -> & _). apply in_or_app. right. left. reflexivity. Qed.
Lemma refresh_quiet qcap w p p' : silent_world w -> proc_refresh qcap w p = Some p' -> quiet_conf (c_conf (g_conf p)) -> quiet_conf (c_conf (g_conf p')).
Proof.
  intros S E Q. unfold proc_refresh in E. destruct (refresh_conf w (g_conf p)) as [[c ch]|] eqn:Er; [|discriminate]. cbv zeta in E. pose proof (silent_quiet _ _ _ _ S Er Q) as Q'.
  destruct (ch && g_observer p); [|injection E as <-; exact Q']. destruct (proc_text_send _ _ _ _) as [[p2 h]|] eqn:Es in E; [|discriminate]. injection E as <-.
  destruct (text_clients _ _ _ _ _ _ Es) as (_ & ->). exact Q'.
Qed.
Lemma step_quiet m s s' : whole_step m s = Some s' -> silent m -> quiet_conf (settings_of s) -> quiet_conf (settings_of s').
Proof.
  intros E S Q. destruct m; cbn [whole_step] in E; unfold settings_of in *.
  - destruct (proc_refresh _ _ _) as [p|] eqn:Ep; [|discriminate]. injection E as <-. eapply refresh_quiet; eassumption.
  - injection E as <-. exact Q.
  - injection E as <-. exact Q.
  - destruct (proc_begin _ _) as [p|] eqn:Ep; [|discriminate]. injection E as <-. cbn. destruct (begin_clients _ _ _ Ep) as (_ & ->). exact Q.
  - destruct (proc_end _ _ _) as [p|] eqn:Ep; [|discriminate]. injection E as <-. cbn. destruct (end_clients _ _ _ _ Ep) as (_ & ->). exact Q.
  - destruct (proc_text_send _ _ _ _) as [[p h]|] eqn:Ep; [|discriminate]. injection E as <-. cbn. destruct (text_clients _ _ _ _ _ _ Ep) as (_ & ->). exact Q.
  - injection E as <-. exact Q.
  - injection E as <-. exact Q.
  - destruct (proc_direct _ _ _ _) as [q|] eqn:Ep; [|discriminate]. injection E as <-. cbn. destruct (direct_clients _ _ _ _ _ Ep) as (_ & ->). exact Q.
  - destruct (l_sender _ _ _) as [l|]; [|discriminate]. injection E as <-. exact Q.
  - injection E as <-. exact Q.
  - injection E as <-. exact Q.
  - destruct (task_step t (h_tasks s)) as [[ps w]|]; [|discriminate]. destruct (send_all _ _ _ _) as [p|] eqn:Ep; [|discriminate]. injection E as <-. cbn.
    destruct (all_clients _ _ _ _ _ Ep) as (_ & ->). exact Q.
Qed.

(** An agent whose configuration never mentions the three settings starts and, as long as no clock reads a time before 1970, never ends its process: whatever the
    other settings, the schedule, the calls, the packs and texts, the state of the network. *)
Theorem C91_default_settings_survive w conn c t0 t1 : 0 <= t0 -> 0 <= t1 -> silent_world w ->
  exists s0, whole_start w conn c t0 t1 = Some s0 /\
    forall ms, all_possible ms s0 -> Forall silent ms -> Forall (fun m => ~ early m) ms -> exists s, whole_run ms s0 = Some s.
Proof.
  intros H0 H1 W. pose proof (proc_refresh_some 0 w (proc0 conn) (silent_calm _ W)) as N. destruct (proc_refresh 0 w (proc0 conn)) as [p|] eqn:Ep; [|congruence].
  assert (quiet_conf (c_conf (g_conf p))) as Q by (eapply refresh_quiet; [exact W|exact Ep|repeat split]).
  assert (exists s0, whole_start w conn c t0 t1 = Some s0 /\ quiet_conf (settings_of s0)) as (s0 & St & Q0).
  { unfold whole_start. rewrite Ep. cbv zeta. replace (cf_SendQueueSize (c_conf (g_conf p)) <? 0) with false by (destruct Q as (_ & _ & ->); reflexivity).
    eexists. split; [reflexivity|]. exact Q. }
  exists s0. split; [exact St|]. intros ms P Si Ne. rewrite Forall_forall in Si, Ne.
  apply (C91_survives w conn c t0 t1 s0 ms H0 H1 St P).
  - intros m I. split; [apply Ne, I|]. specialize (Si m I). destruct m; try exact I0; try exact Logic.I. apply silent_calm, Si.
  - intros b a s Eq R.
    assert (quiet_conf (settings_of s)) as Qs.
    { assert (forall m, In m b -> silent m) as Sb by (intros m I; apply Si; rewrite Eq; apply in_or_app; left; exact I). clear - Q0 R Sb. revert s0 Q0 R.
      induction b as [|m b IH]; intros s0 Q0 R; cbn [whole_run] in R; [injection R as <-; exact Q0|]. destruct (whole_step m s0) as [s1|] eqn:E; [|discriminate].
      apply (IH (fun x I => Sb x (or_intror I)) s1); [|exact R]. eapply step_quiet; [exact E|apply Sb; left; reflexivity|exact Q0]. }
    destruct Qs as (Q1 & Q2 & _). split; [rewrite Q1; discriminate|rewrite Q2; discriminate].
Qed.

(** ** Each of the ways is real *)
Theorem C91_environment_refuted w conn c t0 t1 e : In e (w_env w) -> ~ In 61 e -> w_stat w = StatAbsent \/ (exists m, w_stat w = StatTime m) -> whole_start w conn c t0 t1 = None.
Proof.
  intros I N Ws. unfold whole_start, proc_refresh. cbn [proc0 g_conf]. rewrite (C62_refuted_panic w initial_cstate e I N); [reflexivity|].
  destruct Ws as [Ws|(m & Ws)]; [left; exact Ws|right; exists m; split; [exact Ws|discriminate]].
Qed.
Lemma begun s : fits s -> g_half (h_proc s) = None -> exists s1 name h, whole_step HBegin s = Some s1 /\ fits s1 /\ g_half (h_proc s1) = Some (name, h) /\ settings_of s1 = settings_of s /\
  clients (h_proc s1) = clients (h_proc s) /\ h_max s1 = h_max s.
Proof.
  intros F G. cbn [whole_step]. unfold proc_begin. rewrite G. cbv zeta. pose proof (text_total (h_qcap s) KObject (cf_ObjName (c_conf (g_conf (h_proc s)))) (h_proc s)) as T.
  destruct (proc_text_send _ _ _ _) as [[p1 h]|] eqn:E; [|congruence]. destruct (text_clients _ _ _ _ _ _ E) as (C1 & C2). cbn [option_map].
  eexists _, _, _. split; [reflexivity|]. unfold fits, settings_of, with_proc. cbn [h_proc h_max g_half g_conf]. unfold clients in *. cbn [g_net]. rewrite C1, C2. split; [exact F|]. repeat split.
Qed.
Lemma start_half w conn c t0 t1 s : whole_start w conn c t0 t1 = Some s -> g_half (h_proc s) = None.
Proof.
  unfold whole_start, proc_refresh. cbn [proc0 g_conf g_observer]. destruct (refresh_conf w initial_cstate) as [[cs ch]|]; [|discriminate]. rewrite andb_false_r. cbv zeta.
  destruct (_ <? 0); [discriminate|]. intros [= <-]. reflexivity.
Qed.
Theorem C91_trace_obj_send_refuted w c t0 t1 s0 pkid : 0 <= t0 -> 0 <= t1 -> whole_start w false c t0 t1 = Some s0 -> cf_TraceObjSend (settings_of s0) = true ->
  whole_run [HBegin; HEnd pkid] s0 = None.
Proof.
  intros H0 H1 St Tr. destruct (start_sound _ _ _ _ _ _ H0 H1 St) as ((F & _) & _ & _ & Cl & _). destruct (begun s0 F (start_half _ _ _ _ _ _ St)) as (s1 & nm & h & E & F1 & G & Se & C1 & _).
  cbn [whole_run]. rewrite E. cbn [whole_step]. unfold proc_end. rewrite G. cbv zeta. rewrite Cl in C1. unfold clients in C1. unfold current. rewrite C1. unfold settings_of in Se, Tr. rewrite Se, Tr. reflexivity.
Qed.
Definition grows (w : dout -> dout) : Prop := forall o, (length (buf o) <= length (buf (w o)))%nat.
Lemma grows_emit n bs : grows (M_OutX.emit n bs).
Proof. intros o. cbn. rewrite app_length. lia. Qed.
Lemma grows_seq ws : Forall grows ws -> grows (wseq ws).
Proof. unfold wseq. induction 1 as [|w ws H F IH]; intros o; cbn [fold_left]; [lia|]. specialize (H o). specialize (IH (w o)). lia. Qed.
Lemma grows_blob b : grows (write_blob b).
Proof.
  intros o. unfold write_blob. repeat match goal with |- context [if ?x then _ else _] => destruct x | |- context [match ?x with [] => _ | _ :: _ => _ end] => destruct x end;
    cbn; rewrite ?app_length; lia.
Qed.
Lemma grows_decimal z : grows (write_decimal z).
Proof. intros o. unfold write_decimal. repeat match goal with |- context [if ?x then _ else _] => destruct x end; cbn; rewrite ?app_length; lia. Qed.
Lemma grows_decimal32 z : grows (write_decimal32 z).
Proof. intros o. unfold write_decimal32. repeat match goal with |- context [if ?x then _ else _] => destruct x end; cbn; rewrite ?app_length; lia. Qed.
Lemma object_bytes o : ob_Tags o = [] -> bytes_of (PObject o) <> [].
Proof.
  intros T. unfold bytes_of, write_pack, write_pack_body, write_object_pack. rewrite T.
  assert (grows (wseq [write_string (ob_ObjType o); write_decimal32 (ob_ObjHash o); write_string (ob_ObjName o); write_string (ob_Address o); write_string (ob_Version o);
    write_boolean (ob_Alive o); write_decimal (ob_Wakeup o); write_value (VMap [])])) as G.
  { assert (forall t, grows (write_string t)) as Gs. { intros t d. unfold write_string. cbv zeta. destruct (zlen t =? 0); [apply grows_emit|]. destruct (zlen t >? 100000); apply grows_blob. }
    assert (grows (write_value (VMap []))) as Gm by (intros d; cbn; rewrite ?app_length; lia).
    apply grows_seq. repeat (constructor; [first [apply Gs|apply grows_decimal32|apply grows_decimal|apply grows_emit|exact Gm|intros d; unfold write_boolean; destruct (ob_Alive o); apply grows_emit]|]). constructor. }
  specialize (G (write_uint8 (pack_type (PObject o)) new_dout)). intros E. rewrite E in G. cbn in G. lia.
Qed.
Theorem C91_zero_size_refuted w c t0 t1 s0 pkid : 0 <= t0 -> 0 <= t1 -> whole_start w true c t0 t1 = Some s0 -> cf_UDPMaxBytes (settings_of s0) = 0 ->
  whole_run [HBegin; HEnd pkid] s0 = None.
Proof.
  intros H0 H1 St Zr. destruct (start_sound _ _ _ _ _ _ H0 H1 St) as ((F & _) & Mx & _ & Cl & _). destruct (begun s0 F (start_half _ _ _ _ _ _ St)) as (s1 & nm & h & E & F1 & G & Se & C1 & Mx1).
  cbn [whole_run]. rewrite E. cbn [whole_step]. unfold proc_end. rewrite G. cbv zeta. rewrite Cl in C1. unfold limit_in_use, has_socket, cur_max, view, clients in *. cbn [rd_net l_net l_max]. unfold current. rewrite C1, Mx1, Mx, Zr.
  cbn [length pred nth_error nth cl_conn negb]. rewrite andb_false_r. unfold net_direct, write_buffer.
  match goal with |- context [0 <? zlen ?b] => replace (0 <? zlen b) with true; [reflexivity|] end.
  match goal with |- context [bytes_of (PObject ?o)] => pose proof (object_bytes o eq_refl) as B; destruct (bytes_of (PObject o)) end; [congruence|]. unfold zlen. cbn [length]. lia.
Qed.
Theorem C91_before_1970_refuted w conn c t0 t1 s0 pkid n obj : 0 <= t0 -> 0 <= t1 -> -301 < second n < 0 -> whole_start w conn c t0 t1 = Some s0 ->
  whole_run [HTask pkid (TFive n obj)] s0 = None.
Proof.
  intros H0 H1 Hn St. destruct (start_sound _ _ _ _ _ _ H0 H1 St) as (_ & _ & _ & _ & T & _). cbn [whole_run whole_step task_step]. rewrite T.
  pose proof (C88_before_1970_refuted c t0 t1 n obj H0 H1 Hn) as D. cbn [tasks] in D. destruct (do_task (TFive n obj) (world0 c t0 t1)) as [[ps w1]|]; [discriminate|reflexivity].
Qed.
Theorem C91_negative_queue_refuted w conn c t0 t1 cs ch : refresh_conf w initial_cstate = Some (cs, ch) -> cf_SendQueueSize (c_conf cs) < 0 -> whole_start w conn c t0 t1 = None.
Proof.
  intros R Q. unfold whole_start, proc_refresh. cbn [proc0 g_conf g_observer]. rewrite R, andb_false_r. cbv zeta. cbn [g_conf]. replace (_ <? 0) with true by lia. reflexivity.
Qed.
(** so the claim itself is false *)
Definition plain_world (es : list gostring) : M_Conf.world := mk_world es StatAbsent LoadAbsent (of_string "h").
Theorem C91_refuted : exists w c s0, whole_start w true c 0 0 = Some s0 /\ whole_run [HBegin; HEnd 1] s0 = None.
Proof.
  assert (match whole_start (plain_world [of_string "udp_max_bytes=0"]) true sconf0 0 0 with Some s => cf_UDPMaxBytes (settings_of s) =? 0 | None => false end = true) as K by (vm_compute; reflexivity).
  exists (plain_world [of_string "udp_max_bytes=0"]), sconf0. destruct (whole_start _ _ _ _ _) as [s|] eqn:E in K |- *; [|discriminate]. exists s. split; [reflexivity|].
  apply (C91_zero_size_refuted _ _ 0 0 _ 1 ltac:(lia) ltac:(lia) E). lia.
Qed.

(** ** A history that meets the hypotheses *)
Fixpoint tasks_in (ms : list hmove) : list task := match ms with [] => [] | HTask _ t :: ms' => t :: tasks_in ms' | _ :: ms' => tasks_in ms' end.
Lemma task_agent t w ps w' : task_step t w = Some (ps, w') -> w_agent w' = fst (run (op_of t) (w_agent w)) /\ exists r, snd (run (op_of t) (w_agent w)) = Some r.
Proof.
  destruct t as [n k|n r obj|n obj]; cbn [task_step do_task op_of run].
  - destruct (do_call n k (w_agent w)) as [b [r|]] eqn:E; cbn [snd]; [|discriminate]. unfold w_call. rewrite E. cbn [fst]. destruct (add_samples _ _ _); [|discriminate]. intros [= _ <-]. split; [reflexivity|eexists; reflexivity].
  - rewrite active_do. unfold real_tick. destruct (get_active_count n (w_agent w)) as [b [[[a0 a1] a2]|]]; cbn [fst snd option_map]; [|discriminate].
    destruct (all_counters _ _ _ _) as [[t s]|]; [|discriminate]. destruct (add_samples _ _ _); [|discriminate]. intros [= _ <-]. split; [reflexivity|eexists; reflexivity].
  - unfold five_tick. destruct (five_min_counters _ _) as [[t s]|]; [|discriminate]. intros [= _ <-]. split; [reflexivity|eexists; reflexivity].
Qed.
Lemma agent_run ms : forall s s', whole_run ms s = Some s' -> w_agent (h_tasks s') = fst (run (ops_of (tasks_in ms)) (w_agent (h_tasks s))).
Proof.
  assert (forall a b x, (exists r, snd (run a x) = Some r) -> fst (run (a ++ b) x) = fst (run b (fst (run a x)))) as Ra.
  { induction a as [|[n k] a IH]; intros b x (r & Hr); [reflexivity|]. cbn [run app] in *. destruct (do_call n k x) as [y [z|]]; [|discriminate].
    destruct (run a y) as [y2 [zs|]] eqn:Ey; cbn [fst snd] in *; [|discriminate]. specialize (IH b y). rewrite Ey in IH. cbn [fst snd] in IH. rewrite <- (IH (ex_intro _ _ eq_refl)).
    destruct (run (a ++ b) y) as [q [qs|]]; reflexivity. }
  induction ms as [|m ms IH]; intros s s' R; cbn [whole_run] in R; [injection R as <-; reflexivity|]. destruct (whole_step m s) as [s1|] eqn:E; [|discriminate].
  rewrite (IH _ _ R). pose proof (step_tasks _ _ _ E) as T. destruct m; cbn [tasks_in]; try (rewrite T; reflexivity). destruct T as (ps & T). destruct (task_agent _ _ _ _ T) as (A1 & A2).
  cbn [ops_of flat_map]. rewrite A1, Ra by exact A2. reflexivity.
Qed.
Definition demo_world : M_Conf.world := plain_world [of_string "HOME=/root"; of_string "LS_COLORS=di=01;34"; of_string "net_collector_ip=10.0.0.9"].
Definition demo_whole : list hmove :=
  [HBegin; HEnd 1; HObserve; HReload true; HText KService (of_string "/a"); HSender (fun _ => 2); HWriteSender] ++ map (HTask 3) case_calls ++
  [HTask 4 case_real; HWriteJob 0; HRefresh demo_world; HReset; HTask 5 case_five; HDirect 6 (PMap [])].
Lemma demo_silent : silent_world demo_world.
Proof.
  split; [|split; [discriminate|]].
  - constructor; [|constructor; [|constructor; [|constructor]]].
    + exists (of_string "HOME"), (of_string "/root"). split; [reflexivity|]. split; [discriminate|]. vm_compute. intuition discriminate.
    + exists (of_string "LS_COLORS"), (of_string "di=01;34"). split; [reflexivity|]. split; [discriminate|]. vm_compute. intuition discriminate.
    + exists (of_string "net_collector_ip"), (of_string "10.0.0.9"). split; [reflexivity|]. split; [discriminate|]. vm_compute. intuition discriminate.
  - intros key I. split; [|discriminate]. intros e t J (E & _ & _).
    assert (forallb (fun e => forallb (fun k => negb (beqb (firstn (length k) e) k)) keys_that_matter) (w_env demo_world) = true) as T by (vm_compute; reflexivity).
    rewrite forallb_forall in T. specialize (T e J). rewrite forallb_forall in T. specialize (T key I). rewrite E, firstn_app, Nat.sub_diag, firstn_all in T. cbn [firstn] in T. rewrite app_nil_r in T.
    destruct (beqb_spec key key); [discriminate T|congruence].
Qed.
Example C91_case : exists s0 s, whole_start demo_world true sconf0 90 90 = Some s0 /\ all_possible demo_whole s0 /\ Forall silent demo_whole /\ Forall (fun m => ~ early m) demo_whole /\ whole_run demo_whole s0 = Some s.
Proof.
  destruct (C91_default_settings_survive demo_world true sconf0 90 90 ltac:(lia) ltac:(lia) demo_silent) as (s0 & St & Sv).
  destruct (start_sound demo_world true sconf0 90 90 s0 ltac:(lia) ltac:(lia) St) as (_ & _ & _ & _ & T & _).
  assert (all_possible demo_whole s0) as P.
  { intros b m a s E R. apply agent_run in R. rewrite T in R. change (w_agent (world0 sconf0 90 90)) with (a_init sconf0) in R. unfold possible.
    assert (m = HTask 4 case_real /\ tasks_in b = case_calls \/ match m with HTask _ (TReal _ _ _) | HTask _ (TCall _ KActiveCount) | HTask _ (TCall _ (KGoBegin _)) => False | _ => True end) as [(-> & Tb)|G].
    { unfold demo_whole in E. cbn [app map case_calls] in E.
      repeat (destruct b as [|x b]; [cbn [app] in E; injection E as <- _; first [left; split; reflexivity|right; exact I]|cbn [app] in E; injection E as <- E]). destruct b; discriminate E. }
    - rewrite Tb in R. cbn [case_real]. assert (table (a_active (fst (run (ops_of case_calls) (a_init sconf0)))) = [(12, 1)]) as Et by (vm_compute; reflexivity).
      rewrite R, Et. apply Permutation_refl.
    - destruct m as [| | | | | | | | | | | |pk t]; try exact I. destruct t as [n k|n r o|n o]; [destruct k; try exact I; contradiction|contradiction|exact I]. }
  assert (Forall silent demo_whole) as Si.
  { repeat (constructor; [first [exact I|exact demo_silent]|]). constructor. }
  assert (Forall (fun m => ~ early m) demo_whole) as Ne.
  { repeat (constructor; [first [exact (fun F => F)|cbn [early]; vm_compute; discriminate]|]). constructor. }
  destruct (Sv demo_whole P Si Ne) as (s & R). exists s0, s. auto.
Qed.

Print Assumptions C91_only_ways.
Print Assumptions C91_start_only_ways.
Print Assumptions C91_survives.
Print Assumptions C91_default_settings_survive.
Print Assumptions C91_environment_refuted.
Print Assumptions C91_trace_obj_send_refuted.
Print Assumptions C91_zero_size_refuted.
Print Assumptions C91_before_1970_refuted.
Print Assumptions C91_negative_queue_refuted.
Print Assumptions C91_refuted.
