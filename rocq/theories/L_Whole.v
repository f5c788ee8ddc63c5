(** Lemmas for P_Whole.v. *)
From Verif Require Import GoInt M_Util L_Util M_Float M_OutX M_Packs M_Access M_Cache M_Text M_Hash M_Conf M_Udp M_Net M_NetLimit M_Redirect M_Agent M_Trace M_Meter M_Tasks M_Whole
  S_Meter L_Meter L_Trace L_TraceRel L_TraceSafe P_Trace3 L_Redirect L_Agent L_Conf P_Conf S_Tasks L_Tasks S_Whole.
From Coq Require Import Permutation ZifyBool.

(** ** Datagrams *)
Lemma mtu_none pk b ps : write_mtu pk b ps = None -> ps = 0.
Proof. unfold write_mtu. destruct (Z.eqb_spec ps 0); [auto|discriminate]. Qed.
Lemma buffer_none max pk b : write_buffer max pk b = None -> max = 0.
Proof. unfold write_buffer. destruct (max <? zlen b); [apply mtu_none|discriminate]. Qed.
Lemma loop_none max bs : forall pks out c, buffer_loop max pks bs out c = None -> max = 0.
Proof.
  induction bs as [|b bs IH]; intros pks out c; cbn [buffer_loop]; [discriminate|]. destruct (max <? zlen b).
  - destruct (write_mtu _ _ _) eqn:E; [|intros _; eapply mtu_none; exact E]. destruct (buffer_loop max _ bs out c) as [[[? ?] ?]|] eqn:E2; [discriminate|intros _; eapply IH; exact E2].
  - destruct (max <? _); [|apply IH]. destruct (buffer_loop max pks bs _ 1) as [[[? ?] ?]|] eqn:E2; [discriminate|intros _; eapply IH; exact E2].
Qed.
Lemma list_none max pks bs : write_buffer_list max pks bs = None -> max = 0.
Proof. unfold write_buffer_list. destruct (buffer_loop _ _ _ _ _) as [[[? ?] ?]|] eqn:E; [discriminate|intros _; eapply loop_none; exact E]. Qed.
Lemma send_none max pks bs : send_list max pks bs = None -> max = 0.
Proof. unfold send_list. destruct bs as [|b [|b' bs]]; [discriminate|apply buffer_none|apply list_none]. Qed.
Lemma step_none thr max pks u : sender_step2 thr max pks u = None -> max = 0.
Proof.
  unfold sender_step2. destruct (snd_state u) as [|[|n] held size].
  - destruct (queue u) as [|b [|b' q]]; [discriminate| |discriminate]. destruct (write_buffer _ _ _) eqn:E; [discriminate|intros _; eapply buffer_none; exact E].
  - destruct (write_buffer_list _ _ _) eqn:E; [discriminate|intros _; eapply list_none; exact E].
  - destruct (queue u); [discriminate|]. destruct (thr <=? _); [|discriminate]. destruct (send_list _ _ _) eqn:E; [discriminate|intros _; eapply send_none; exact E].
Qed.
Lemma direct_none max pk p n : net_direct max pk p n = None -> max = 0.
Proof. unfold net_direct. destruct (write_buffer _ _ _) eqn:E; [discriminate|intros _; eapply buffer_none; exact E]. Qed.
Lemma sender_none thr pks l : l_sender thr pks l = None -> cur_max l = 0.
Proof.
  unfold l_sender. cbv zeta. destruct (x_uout (l_net l)); [|discriminate]. destruct (sender_step2 _ _ _ _) eqn:E; [discriminate|intros _; eapply step_none; exact E].
Qed.

(** ** Clients are exchanged only by reloadUdpSender *)
Definition clients (p : process) : list client := x_clients (g_net p).
Lemma direct_clients max pk q p p' : proc_direct max pk q p = Some p' -> clients p' = clients p /\ g_conf p' = g_conf p.
Proof.
  unfold proc_direct, net_direct, clients. destruct (write_buffer _ _ _); [|discriminate]. intros [= <-]. split; reflexivity.
Qed.
Lemma text_clients qcap k name p p' h : proc_text_send qcap k name p = Some (p', h) -> clients p' = clients p /\ g_conf p' = g_conf p.
Proof.
  unfold proc_text_send, clients. destruct name; [intros [= <- <-]; auto|]. destruct (hash_string _); [|discriminate]. destruct (lra_contains _ _); intros [= <- <-]; auto.
Qed.
Lemma text_total qcap k name p : proc_text_send qcap k name p <> None.
Proof.
  unfold proc_text_send. destruct name as [|x l]; [discriminate|]. destruct (L_Trace.hash_total (x :: l)) as (h & ->). destruct (lra_contains _ _); discriminate.
Qed.
Lemma refresh_clients qcap w p p' : proc_refresh qcap w p = Some p' -> clients p' = clients p.
Proof.
  unfold proc_refresh. destruct (refresh_conf w (g_conf p)) as [[c ch]|]; [|discriminate]. cbv zeta. destruct (ch && g_observer p); [|intros [= <-]; reflexivity].
  destruct (proc_text_send _ _ _ _) as [[p2 h]|] eqn:E; [|discriminate]. intros [= <-]. apply text_clients in E as (-> & _). reflexivity.
Qed.
Lemma begin_clients qcap p p' : proc_begin qcap p = Some p' -> clients p' = clients p /\ g_conf p' = g_conf p.
Proof.
  unfold proc_begin. destruct (g_half p); [intros [= <-]; auto|]. destruct (proc_text_send _ _ _ _) as [[p2 h]|] eqn:E; [|discriminate]. intros [= <-]. apply text_clients in E. exact E.
Qed.
Lemma end_clients max pk p p' : proc_end max pk p = Some p' -> clients p' = clients p /\ g_conf p' = g_conf p.
Proof.
  unfold proc_end. destruct (g_half p) as [[nm h]|]; [|intros [= <-]; auto]. cbv zeta. destruct (_ && _); [discriminate|]. unfold net_direct. destruct (write_buffer _ _ _); [|discriminate].
  intros [= <-]. auto.
Qed.
Lemma all_clients max pk ps : forall p p', send_all max pk ps p = Some p' -> clients p' = clients p /\ g_conf p' = g_conf p.
Proof.
  induction ps as [|q ps IH]; intros p p'; cbn [send_all]; [intros [= <-]; auto|]. destruct (proc_direct _ _ _ _) as [p1|] eqn:E; [|discriminate]. intros R.
  apply direct_clients in E as (E1 & E2). apply IH in R as (R1 & R2). split; congruence.
Qed.
Lemma all_none max pk ps : forall p, send_all max pk ps p = None -> max = 0 /\ ps <> [].
Proof.
  induction ps as [|q ps IH]; intros p; cbn [send_all]; [discriminate|]. destruct (proc_direct max pk q p) as [p1|] eqn:E; [intros R; split; [apply (IH _ R)|discriminate]|].
  intros _. split; [|discriminate]. unfold proc_direct in E. destruct (net_direct _ _ _ _) eqn:E2; [discriminate|]. eapply direct_none; exact E2.
Qed.

(** the limits belong to the clients *)
Definition fits (s : whole) : Prop := clients (h_proc s) <> [] /\ length (h_max s) = length (clients (h_proc s)).
Definition aim (s : whole) : target * list Z * rpc * list client := (h_vars s, h_max s, h_pc s, clients (h_proc s)).
Lemma step_aim m s s' : whole_step m s = Some s' -> (forall conn, m <> HReload conn) -> aim s' = aim s.
Proof.
  intros E N. destruct m; cbn [whole_step] in E; unfold aim.
  - destruct (proc_refresh _ _ _) as [p|] eqn:Ep; [|discriminate]. injection E as <-. cbn. rewrite (refresh_clients _ _ _ _ Ep). reflexivity.
  - destruct (N _ eq_refl).
  - injection E as <-. reflexivity.
  - destruct (proc_begin _ _) as [p|] eqn:Ep; [|discriminate]. injection E as <-. cbn. destruct (begin_clients _ _ _ Ep) as (-> & _). reflexivity.
  - destruct (proc_end _ _ _) as [p|] eqn:Ep; [|discriminate]. injection E as <-. cbn. destruct (end_clients _ _ _ _ Ep) as (-> & _). reflexivity.
  - destruct (proc_text_send _ _ _ _) as [[p h]|] eqn:Ep; [|discriminate]. injection E as <-. cbn. destruct (text_clients _ _ _ _ _ _ Ep) as (-> & _). reflexivity.
  - injection E as <-. reflexivity.
  - injection E as <-. reflexivity.
  - destruct (proc_direct _ _ _ _) as [q|] eqn:Ep; [|discriminate]. injection E as <-. cbn. destruct (direct_clients _ _ _ _ _ Ep) as (-> & _). reflexivity.
  - destruct (l_sender _ _ _) as [l|] eqn:El; [|discriminate]. injection E as <-. cbn. apply sender_same in El as (A & _). unfold clients. cbn in *. rewrite A. reflexivity.
  - injection E as <-. cbn. unfold clients. cbn. rewrite ws_clients. reflexivity.
  - injection E as <-. cbn. unfold clients. cbn. rewrite wj_clients. reflexivity.
  - destruct (task_step t (h_tasks s)) as [[ps w]|]; [|discriminate]. destruct (send_all _ _ _ _) as [p|] eqn:Ep; [|discriminate]. injection E as <-. cbn.
    destruct (all_clients _ _ _ _ _ Ep) as (-> & _). reflexivity.
Qed.

(** ** Where the limits come from *)
Definition aims_ok (P : Z -> Prop) (s : whole) : Prop := fits s /\ P (to_max (h_vars s)) /\ Forall P (h_max s).
Lemma reload_aims P conn s : aims_ok P s -> P (cf_UDPMaxBytes (settings_of s)) -> aims_ok P (put_view (reload_step conn (view s)) s).
Proof.
  intros ((F1 & F2) & V & M) H. unfold aims_ok, fits, clients in *. unfold reload_step, view, put_view, settings_of in *. cbv zeta. cbn [rd_pc rd_vars rd_set rd_net rd_addr].
  destruct (h_pc s) eqn:Ep; cbn [rd_pc rd_vars rd_set rd_net rd_addr l_net l_max h_proc h_vars h_max proc_net g_net to_max target_of]; try (repeat split; assumption).
  - cbn [l_reload l_net l_max net_reload x_clients]. split; [|split; [exact V|apply Forall_app; split; [exact M|constructor; [exact V|constructor]]]].
    split; [destruct (x_clients _); discriminate|]. rewrite !app_length, F2. reflexivity.
  - destruct (nth_error (x_clients (g_net (h_proc s))) prev) as [cl|] eqn:E; [|repeat split; assumption]. destruct (cl_conn cl); [|repeat split; assumption].
    cbn [l_move l_net l_max]. split; [|split; assumption]. rewrite close_clients, E. destruct (prev <? current (g_net (h_proc s)))%nat; [|split; assumption].
    split; [destruct (firstn prev _); discriminate|]. rewrite len_put by (apply nth_error_Some; congruence). exact F2.
Qed.
Lemma step_aims P m s s' : whole_step m s = Some s' -> aims_ok P s -> P (cf_UDPMaxBytes (settings_of s)) -> aims_ok P s'.
Proof.
  intros E A H.
  destruct m; lazymatch goal with |- context [h_max] => idtac | _ => idtac end;
    try (match type of E with whole_step (HReload ?c) _ = _ => cbn [whole_step] in E; injection E as <-; apply reload_aims; assumption end);
    (match type of E with whole_step ?m _ = _ => assert (aim s' = aim s) as Ea by (apply (step_aim m); [exact E|discriminate]) end);
    unfold aim in Ea; injection Ea as E1 E2 E3 E4; unfold aims_ok, fits in *; rewrite E1, E2, E4; exact A.
Qed.

(** ** The counter loops *)
Definition meters_ok (s : ct_state) : Prop := shape (ct_service s) /\ shape (ct_active s).
Lemma samples_ok n es m : 0 <= second n -> shape m -> exists m', add_samples (unix n) es m = Some m' /\ shape m'.
Proof.
  intros Hn Sh. rewrite add_samples_run. apply sm_run_shape; [exact Sh|]. pose proof (meter_ops_at (unix n) es) as At. eapply Forall_impl; [|exact At]. cbn. intros e ->. exact Hn.
Qed.
Lemma ends_len N z a b : ends N z a b -> length (a_ctx b) = length (a_ctx a).
Proof.
  induction 1 as [a|a b c _ IH H|a b c _ IH H]; [reflexivity|rewrite (mn_len _ _ _ H); exact IH|].
  destruct H as [(h & x & x' & _ & _ & Ec & _)]. rewrite Ec, list_set_length. exact IH.
Qed.
Lemma stuck_some n h a : exists b, end_stuck n h a = (b, Some tt) /\ length (a_ctx b) = length (a_ctx a).
Proof.
  pose proof (ends_len _ _ _ _ (rel_end_stuck 0 n h a)) as L. destruct (end_stuck n h a) as [b [[]|]] eqn:E; [exists b; split; [reflexivity|exact L]|].
  exfalso. unfold end_stuck, recovered in E. match type of E with match ?m a with _ => _ end = _ => destruct (m a) as [b' [r|]]; discriminate end.
Qed.
Lemma loop_some n vs : forall count c0 c1 c2 a, Forall (fun h => (h < length (a_ctx a))%nat) vs -> snd (active_loop n count vs c0 c1 c2 a) <> None.
Proof.
  induction vs as [|h vs IH]; intros count c0 c1 c2 a F; cbn [active_loop]; [discriminate|]. destruct (2000 <? count + 1); [discriminate|].
  inversion F as [|? ? Hh F']; subst. destruct (nth_lt _ _ Hh) as (x & Ex). unfold bind at 1. unfold read at 1. rewrite Ex. cbn match beta.
  set (el := Z.quot _ _). clearbody el. destruct (if el <=? cf_yellow (n_conf n) then (c0 + 1, c1, c2) else if el <=? cf_red (n_conf n) then (c0, c1 + 1, c2) else (c0, c1, c2 + 1)) as [[d0 d1] d2].
  unfold bind at 1. destruct (cf_stuck_ms (n_conf n) <? el); [|apply IH; exact F'].
  unfold bind at 1. destruct (stuck_some n h a) as (b & -> & L). unfold emit. cbn match beta. apply IH. cbn [add_log a_ctx]. rewrite L. exact F'.
Qed.
Lemma count_some n a : valid_table a -> Permutation (n_order n) (table (a_active a)) -> snd (get_active_count n a) <> None.
Proof. intros V Pm. unfold get_active_count. apply loop_some, valid_handles; assumption. Qed.
Lemma call_some n k a : valid_table a -> (k = KActiveCount -> Permutation (n_order n) (table (a_active a))) -> (forall h, k = KGoBegin (CTrace h) -> (h < length (a_ctx a))%nat) ->
  snd (do_call n k a) <> None.
Proof.
  intros V H1 H2. assert ((exists c, k = KGoBegin c) \/ k = KActiveCount \/ ((forall c, k <> KGoBegin c) /\ k <> KActiveCount)) as [(c & ->)|[->|(N1 & N2)]].
  { destruct k; try (right; right; split; [intros ?|]; discriminate); [left; eexists; reflexivity|right; left; reflexivity]. }
  - cbn [do_call]. unfold fmap, bind, go_begin. destruct c; try discriminate. destruct (nth_lt _ _ (H2 _ eq_refl)) as (x & Ex). rewrite (modify_eq _ _ _ _ Ex). discriminate.
  - rewrite active_do. cbn [snd]. pose proof (count_some n a V (H1 eq_refl)). destruct (snd (get_active_count n a)); [discriminate|congruence].
  - apply C64_panics_are_contained; assumption.
Qed.
Lemma valid_call n k a : valid_table a -> valid_table (fst (do_call n k a)).
Proof. intros V. eapply valid_effect; [apply (call_effect (length (a_ctx a)) n k a); apply le_n|exact V]. Qed.
Lemma valid_count n a : valid_table a -> valid_table (fst (get_active_count n a)).
Proof. intros V. pose proof (valid_call n KActiveCount a V) as H. rewrite active_do in H. exact H. Qed.

Definition tasks_ok (w : M_Tasks.world) : Prop := valid_table (w_agent w) /\ meters_ok (w_ct w).
Lemma tasks_ok0 c t0 t1 : 0 <= t0 -> 0 <= t1 -> tasks_ok (world0 c t0 t1).
Proof. intros H0 H1. split; [apply valid_init|]. split; apply shape_new; assumption. Qed.
Definition task_possible (w : M_Tasks.world) (t : task) : Prop :=
  match t with
  | TCall n KActiveCount | TReal n _ _ => Permutation (n_order n) (table (a_active (w_agent w)))
  | TCall _ (KGoBegin (CTrace h)) => (h < length (a_ctx (w_agent w)))%nat
  | _ => True
  end.
Lemma task_goes t w : tasks_ok w -> task_possible w t -> 0 <= second (task_env t) ->
  exists ps w', task_step t w = Some (ps, w') /\ tasks_ok w' /\ map label ps = due t.
Proof.
  intros (V & Sh & Vh) Ps Hn. destruct t as [n k|n r obj|n obj]; cbn [task_env] in Hn; cbn [task_step do_task].
  - assert (snd (do_call n k (w_agent w)) <> None) as Hk.
    { apply call_some; [exact V| |]; [intros ->; exact Ps|intros h ->; exact Ps]. }
    destruct (snd (do_call n k (w_agent w))); [|congruence]. unfold w_call. destruct (samples_ok n (new_events (w_agent w) (fst (do_call n k (w_agent w)))) _ Hn Sh) as (m & -> & Sm).
    eexists _, _. split; [reflexivity|]. split; [|reflexivity]. split; [apply valid_call, V|split; [exact Sm|exact Vh]].
  - unfold real_tick. pose proof (count_some n (w_agent w) V Ps) as Hc. pose proof (valid_count n (w_agent w) V) as Vc.
    destruct (get_active_count n (w_agent w)) as [b [[[a0 a1] a2]|]]; cbn [fst snd] in *; [|congruence]. unfold all_counters. change (unix n) with (second n).
    destruct (sm_run_shape [(second n, SmGet 30)] _ Sh) as (m1 & Em1 & Sh1). { constructor; [exact Hn|constructor]. }
    cbn [sm_run sm_step] in Em1. destruct (service_counters (second n) 30 (ct_service (w_ct w))) as [[sc m1']|]; [|discriminate]. injection Em1 as ->.
    set (v := f64_of_int (int64 (a0 + a1 + a2))).
    destruct (vm_run_shape [(second n, VmAdd v); (second n, VmGet 30)] _ Vh) as (m2 & Em2 & Sh2). { constructor; [exact Hn|constructor; [exact Hn|constructor]]. }
    cbn [vm_run vm_step] in Em2. destruct (value_add (second n) v (ct_active (w_ct w))) as [mv|]; [|discriminate].
    destruct (value_counters (second n) 30 mv) as [[vc mv']|]; [|discriminate]. injection Em2 as ->. cbn [ct_service].
    destruct (samples_ok n (new_events (w_agent w) b) _ Hn Sh1) as (m & Em & Sm). change (unix n) with (second n) in Em. rewrite Em.
    eexists _, _. split; [reflexivity|]. split; [|reflexivity]. split; [exact Vc|split; [exact Sm|exact Sh2]].
  - unfold five_tick, five_min_counters. change (unix n) with (second n).
    destruct (sm_run_shape [(second n, SmGet 300)] _ Sh) as (m1 & Em1 & Sh1). { constructor; [exact Hn|constructor]. }
    cbn [sm_run sm_step] in Em1. destruct (service_counters (second n) 300 (ct_service (w_ct w))) as [[sc m1']|]; [|discriminate]. injection Em1 as ->.
    destruct (vm_run_shape [(second n, VmGet 300)] _ Vh) as (m2 & Em2 & Sh2). { constructor; [exact Hn|constructor]. }
    cbn [vm_run vm_step] in Em2. destruct (value_counters (second n) 300 (ct_active (w_ct w))) as [[vc mv']|]; [|discriminate]. injection Em2 as ->.
    eexists _, _. split; [reflexivity|]. split; [|reflexivity]. split; [exact V|split; [exact Sh1|exact Sh2]].
Qed.

(** ** A refresh *)
Lemma env_some es : (forall e, In e es -> In 61 e) -> forall p, env_props es p <> None.
Proof.
  assert (forall l acc, In 61 l -> exists k v r, split_go 61 acc l = k :: v :: r) as S.
  { clear. induction l as [|x l IH]; intros acc I; [destruct I|]. cbn [split_go]. destruct (Z.eqb_spec x 61) as [->|N].
    - pose proof (split_go_nonnil 61 [] l) as Nn. destruct (split_go 61 [] l) as [|v r]; [congruence|]. eexists _, _, _. reflexivity.
    - apply IH. destruct I as [->|I]; [congruence|exact I]. }
  induction es as [|e es IH]; intros H p; cbn [env_props]; [discriminate|].
  destruct (S e [] (H e (or_introl eq_refl))) as (k & v & r & E). unfold split_byte. rewrite E. apply IH. intros e' I. apply H. right. exact I.
Qed.
Lemma refresh_some w c : calm_world w -> refresh_conf w c <> None.
Proof.
  intros H. unfold refresh_conf. cbv zeta. pose proof (env_some (w_env w) H []) as Es.
  assert (forall mt, match env_props (w_env w) [] with
    | Some p => match w_load w with
                | LoadError => Some (c, false)
                | LoadAbsent => let '(cf, d, changed) := add_to_conf (non_empty p) (w_host w) (c_conf c) (c_descs c) in
                    Some (notify (mk_cstate cf (match mt with Some m => Some m | None => c_last c end) d (c_sampler c)), changed)
                | Loaded fp => let '(cf, d, changed) := add_to_conf (non_empty (merge p fp)) (w_host w) (c_conf c) (c_descs c) in
                    Some (notify (mk_cstate cf (match mt with Some m => Some m | None => c_last c end) d (c_sampler c)), changed)
                end
    | None => None end <> None) as K.
  { intros mt. destruct (env_props (w_env w) []); [|congruence]. destruct (w_load w); [| |discriminate]; (match goal with |- context [add_to_conf ?a ?b ?x ?y] => destruct (add_to_conf a b x y) as [[? ?] ?] end; discriminate). }
  destruct (w_stat w) as [m| |]; [|apply (K None)|discriminate]. destruct (M_Conf.after m (c_last c)); [apply (K (Some m))|discriminate].
Qed.
Lemma proc_refresh_some qcap w p : calm_world w -> proc_refresh qcap w p <> None.
Proof.
  intros H. unfold proc_refresh. pose proof (refresh_some w (g_conf p) H) as R. destruct (refresh_conf w (g_conf p)) as [[c ch]|]; [|congruence]. cbv zeta.
  destruct (ch && g_observer p); [|discriminate]. pose proof (text_total qcap KObject (cf_ObjName (c_conf c))) as T.
  match goal with |- context [proc_text_send _ _ _ ?q] => specialize (T q); destruct (proc_text_send qcap KObject (cf_ObjName (c_conf c)) q) as [[? ?]|]; [discriminate|congruence] end.
Qed.
Lemma calm_dec w : calm_world w \/ exists e, In e (w_env w) /\ ~ In 61 e.
Proof.
  unfold calm_world. induction (w_env w) as [|e es IH]; [left; intros e []|]. destruct (in_dec Z.eq_dec 61 e) as [I|N]; [|right; exists e; split; [left; reflexivity|exact N]].
  destruct IH as [C|(e' & I' & N')]; [left; intros e' [<-|J]; [exact I|apply C, J]|right; exists e'; split; [right; exact I'|exact N']].
Qed.

(** ** What is in use *)
Lemma last_client s : fits s -> exists k cl, S k = length (clients (h_proc s)) /\ nth_error (clients (h_proc s)) k = Some cl /\ current (g_net (h_proc s)) = k.
Proof.
  intros (N & _). exists (pred (length (clients (h_proc s)))). destruct (nth_error (clients (h_proc s)) (pred (length (clients (h_proc s))))) as [cl|] eqn:E.
  - exists cl. split; [|split; [reflexivity|reflexivity]]. destruct (clients (h_proc s)); [congruence|reflexivity].
  - exfalso. apply nth_error_None in E. destruct (clients (h_proc s)); [congruence|cbn in E; lia].
Qed.
Lemma limit_zero s : fits s -> limit_in_use s = 0 -> cannot_divide s.
Proof.
  intros F H. destruct (last_client s F) as (k & cl & K1 & K2 & K3). unfold limit_in_use, has_socket in H. rewrite K3 in H. unfold clients in *. rewrite K2 in H.
  destruct (cl_conn cl) eqn:C; [|discriminate]. exists k, cl. split; [exact K1|]. split; [exact K2|]. split; [exact C|].
  unfold cur_max, view in H. cbn [rd_net l_net l_max] in H. rewrite K3 in H. destruct F as (_ & F). unfold clients in F.
  rewrite (nth_error_nth' (h_max s) 0) by lia. rewrite H. reflexivity.
Qed.
Lemma limit_ok s : aims_ok (fun z => z <> 0) s -> limit_in_use s <> 0.
Proof.
  intros (F & _ & M) H. destruct (limit_zero s F H) as (k & cl & _ & _ & _ & E). apply nth_error_In in E. rewrite Forall_forall in M. exact (M _ E eq_refl).
Qed.
