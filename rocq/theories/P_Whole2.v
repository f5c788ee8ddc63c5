(** Property C90 in the whole agent: every move of the agent is made of moves of the sender, of the goroutine that follows the settings and of
    assignments of settings (M_Redirect.v); so what C90 says holds for the agent with all its goroutines. *)
From Verif Require Import GoInt M_OutX M_Value M_Packs M_Cache M_Text M_Hash M_Conf M_Udp M_Net M_NetLimit M_Redirect M_Agent M_Trace M_Tasks M_Whole
  S_NetLimit S_Redirect L_Redirect P_NetLimit P_Redirect P_Trace S_Whole L_Whole P_Whole.
From Coq Require Import ZifyBool.

Definition target_now (s : whole) : target := target_of (settings_of s).
(** the moves of the goroutine that follows the settings *)
Fixpoint follower_moves (ms : list hmove) : nat := match ms with [] => 0 | HReload _ :: ms' => S (follower_moves ms') | _ :: ms' => follower_moves ms' end.
(** the states on the way *)
Definition passes (ms : list hmove) (s s1 : whole) : Prop := exists b a, ms = b ++ a /\ whole_run b s = Some s1.

Lemma target_dec (a b : target) : {a = b} + {a <> b}.
Proof. decide equality; try apply Z.eq_dec. apply list_eq_dec, Z.eq_dec. Qed.

Lemma text_net qcap k name p p' h : proc_text_send qcap k name p = Some (p', h) ->
  g_conf p' = g_conf p /\ (g_net p' = g_net p \/ exists q, g_net p' = net_add_pack qcap q (g_net p)).
Proof.
  unfold proc_text_send. destruct name as [|b name]; [intros [= <- _]; auto|]. destruct (hash_string _) as [z|]; [|discriminate].
  destruct (lra_contains _ _); intros [= <- _]; cbn [g_conf g_net]; eauto.
Qed.

Definition same_net (qcap : Z) (n n' : netsys) : Prop := n' = n \/ exists q, n' = net_add_pack qcap q n.
Lemma queue_moves qcap n n' t v a l pc : same_net qcap n n' ->
  exists rms, redir_run qcap rms (mkRd t v a (mkL n l) pc) = Some (mkRd t v a (mkL n' l) pc) /\ reloads rms = O /\ unchanged rms.
Proof.
  intros [-> | (q & ->)].
  - exists []. repeat split. constructor.
  - exists [Queue q]. repeat split. constructor; [exact I|constructor].
Qed.
Lemma sender_eq thr pk n l l' r : cur_max (mkL n l) = cur_max (mkL n l') -> l_sender thr pk (mkL n l) = Some r -> l_sender thr pk (mkL n l') = Some (mkL (l_net r) l').
Proof.
  intros E. unfold l_sender. cbn [l_net l_max]. rewrite <- E. destruct (x_uout n); [|intros [= <-]; reflexivity].
  destruct (sender_step2 _ _ _ _); [|discriminate]. intros [= <-]. reflexivity.
Qed.
Lemma direct_moves qcap max pk ps t v a l pc : forall p p', send_all max pk ps p = Some p' -> cur_max (mkL (g_net p) l) = max ->
  redir_run qcap (map (Direct pk) ps) (mkRd t v a (mkL (g_net p) l) pc) = Some (mkRd t v a (mkL (g_net p') l) pc) /\ g_conf p' = g_conf p.
Proof.
  induction ps as [|q ps IH]; intros p p' E M; cbn [send_all map redir_run] in *; [injection E as <-; auto|].
  unfold proc_direct in E. destruct (net_direct max pk q (g_net p)) as [n|] eqn:D; [|discriminate]. cbn [redir_move rd_net]. unfold l_direct. cbn [l_net l_max]. rewrite M, D. cbn [option_map with_net rd_set rd_vars rd_addr rd_pc].
  apply (IH _ _ E). cbn [g_net]. rewrite <- M. unfold net_direct in D. destruct (write_buffer _ _ _); [|discriminate]. injection D as <-. reflexivity.
Qed.
Lemma direct_reloads pk ps : reloads (map (Direct pk) ps) = O /\ unchanged (map (Direct pk) ps).
Proof. split; [induction ps; auto|]. apply Forall_map, Forall_forall. intros ? _. exact I. Qed.

(** the assignments among the moves take their values from targets of [T] *)
Definition drawn (T : target -> Prop) (m : rmove) : Prop :=
  match m with
  | Assign (SetIp x) => exists t, T t /\ to_ip t = x | Assign (SetPort x) => exists t, T t /\ to_port t = x | Assign (SetMax x) => exists t, T t /\ to_max t = x
  | _ => True
  end.
Lemma unchanged_drawn T ms : unchanged ms -> Forall (drawn T) ms.
Proof. apply Forall_impl. intros [[]| | | | | |]; cbn; tauto. Qed.

Lemma socket_limit s : has_socket s = true -> limit_in_use s = cur_max (mkL (g_net (h_proc s)) (h_max s)).
Proof. intros H. unfold limit_in_use. rewrite H. reflexivity. Qed.

Lemma step_moves m s s' : fits s -> has_socket s = true -> whole_step m s = Some s' ->
  h_qcap s' = h_qcap s /\ exists rms, redir_run (h_qcap s) rms (view s) = Some (view s') /\
    reloads rms = (match m with HReload _ => 1 | _ => 0 end)%nat /\ (target_now s' = target_now s -> unchanged rms) /\ Forall (drawn (fun t => t = target_now s')) rms.
Proof.
  intros F Hs E. pose proof (socket_limit s Hs) as Lm.
  assert (forall p', same_net (h_qcap s) (g_net (h_proc s)) (g_net p') -> g_conf p' = g_conf (h_proc s) -> s' = with_proc p' s ->
    h_qcap s' = h_qcap s /\ exists rms, redir_run (h_qcap s) rms (view s) = Some (view s') /\ reloads rms = O /\ (target_now s' = target_now s -> unchanged rms) /\ Forall (drawn (fun t => t = target_now s')) rms) as Quiet.
  { intros p' N C ->. split; [reflexivity|]. destruct (queue_moves (h_qcap s) _ _ (target_now s) (h_vars s) (h_addr s) (h_max s) (h_pc s) N) as (rms & R & Z & U).
    exists rms. split; [|split; [exact Z|split; [intros _; exact U|apply unchanged_drawn, U]]]. unfold view at 1. fold (target_now s). rewrite R. unfold view, with_proc, settings_of. cbn [h_proc h_vars h_addr h_max h_pc]. rewrite C. reflexivity. }
  assert (forall rms p', redir_run (h_qcap s) rms (view s) = Some (mkRd (target_now s) (h_vars s) (h_addr s) (mkL (g_net p') (h_max s)) (h_pc s)) -> reloads rms = O -> unchanged rms -> g_conf p' = g_conf (h_proc s) -> s' = with_proc p' s ->
    h_qcap s' = h_qcap s /\ exists rms, redir_run (h_qcap s) rms (view s) = Some (view s') /\ reloads rms = O /\ (target_now s' = target_now s -> unchanged rms) /\ Forall (drawn (fun t => t = target_now s')) rms) as Moves.
  { intros rms p' R Z U C ->. split; [reflexivity|]. exists rms. split; [|split; [exact Z|split; [intros _; exact U|apply unchanged_drawn, U]]].
    rewrite R. unfold view, with_proc, settings_of, target_now, settings_of. cbn [h_proc h_vars h_addr h_max h_pc]. rewrite C. reflexivity. }
  destruct m; cbn [whole_step] in E.
  - (* refresh *)
    destruct (proc_refresh (h_qcap s) w (h_proc s)) as [p'|] eqn:Ep; [|discriminate]. injection E as <-. split; [reflexivity|].
    assert (same_net (h_qcap s) (g_net (h_proc s)) (g_net p')) as N.
    { unfold proc_refresh in Ep. destruct (refresh_conf w (g_conf (h_proc s))) as [[c ch]|]; [|discriminate]. cbv zeta in Ep. destruct (ch && g_observer (h_proc s)).
      - destruct (proc_text_send _ _ _ _) as [[p2 h]|] eqn:Et; [|discriminate]. injection Ep as <-. apply text_net in Et as (_ & Et). exact Et.
      - injection Ep as <-. left. reflexivity. }
    set (t' := target_now (with_proc p' s)). destruct (queue_moves (h_qcap s) _ _ t' (h_vars s) (h_addr s) (h_max s) (h_pc s) N) as (rms & R & Z & U).
    destruct (target_dec t' (target_now s)) as [Et|Nt].
    + exists rms. split; [|split; [exact Z|split; [intros _; exact U|apply unchanged_drawn, U]]]. unfold view at 1. fold (target_now s). rewrite <- Et, R. reflexivity.
    + exists ([Assign (SetIp (to_ip t')); Assign (SetPort (to_port t')); Assign (SetMax (to_max t'))] ++ rms). split; [|split; [exact Z|split; [intros Q; contradiction|]]].
      * rewrite L_Redirect.run_app. cbn [redir_run redir_move assign rd_set rd_vars rd_addr rd_net rd_pc view to_ip to_port to_max]. replace (mkTarget (to_ip t') (to_port t') (to_max t')) with t' by (destruct t'; reflexivity). exact R.
      * apply Forall_app. split; [|apply unchanged_drawn, U]. repeat constructor; exists t'; split; reflexivity.
  - (* reload *)
    injection E as <-. split; [reflexivity|]. exists [Reload conn].
    assert (rd_set (reload_step conn (view s)) = target_now s) as Rs by (unfold reload_step; cbv zeta; destruct (rd_pc (view s)); reflexivity).
    split; [|split; [reflexivity|split; [intros _; repeat constructor|repeat constructor]]].
    cbn [redir_run redir_move]. f_equal. destruct (reload_step conn (view s)) as [t v a [n l] pc]. cbn [rd_set] in Rs. subst t. reflexivity.
  - apply (Quiet (proc_observe (h_proc s))); [left; reflexivity|reflexivity|congruence].
  - destruct (proc_begin (h_qcap s) (h_proc s)) as [p'|] eqn:Ep; [|discriminate]. injection E as <-. unfold proc_begin in Ep. destruct (g_half (h_proc s)).
    + injection Ep as <-. apply (Quiet (h_proc s)); [left; reflexivity|reflexivity|reflexivity].
    + cbv zeta in Ep. destruct (proc_text_send _ _ _ _) as [[p1 h]|] eqn:Et; [|discriminate]. injection Ep as <-. apply text_net in Et as (C & N). refine (Quiet _ _ _ eq_refl); [exact N|exact C].
  - destruct (proc_end (limit_in_use s) pkid (h_proc s)) as [p'|] eqn:Ep; [|discriminate]. injection E as <-. unfold proc_end in Ep. destruct (g_half (h_proc s)) as [[nm h]|].
    + cbv zeta in Ep. destruct (_ && _); [discriminate|]. destruct (net_direct _ _ _ _) as [n|] eqn:D; [|discriminate]. injection Ep as <-.
      refine (Moves [Direct pkid _] _ _ _ _ _ eq_refl); [|reflexivity|repeat constructor|reflexivity].
      cbn [redir_run redir_move view rd_net]. unfold l_direct. cbn [l_net l_max]. rewrite <- Lm, D. reflexivity.
    + injection Ep as <-. apply (Quiet (h_proc s)); [left; reflexivity|reflexivity|reflexivity].
  - destruct (proc_text_send (h_qcap s) k name (h_proc s)) as [[p' h]|] eqn:Et; [|discriminate]. injection E as <-. apply text_net in Et as (C & N). refine (Quiet _ _ _ eq_refl); [exact N|exact C].
  - apply (Quiet (proc_reset (h_proc s))); [left; reflexivity|reflexivity|congruence].
  - injection E as <-. refine (Quiet _ _ _ eq_refl); [right; exists p; reflexivity|reflexivity].
  - destruct (proc_direct (limit_in_use s) pkid p (h_proc s)) as [p'|] eqn:Ep; [|discriminate]. injection E as <-.
    assert (send_all (limit_in_use s) pkid [p] (h_proc s) = Some p') as Sa by (cbn [send_all]; rewrite Ep; reflexivity).
    destruct (direct_moves (h_qcap s) _ _ _ (target_now s) (h_vars s) (h_addr s) (h_max s) (h_pc s) _ _ Sa (eq_sym Lm)) as (R & C). destruct (direct_reloads pkid [p]) as (Z & U).
    refine (Moves _ _ _ _ _ _ eq_refl); [exact R|exact Z|exact U|exact C].
  - destruct (l_sender _ _ _) as [l|] eqn:El in E; [|discriminate]. injection E as <-.
    assert (cur_max (mkL (g_net (h_proc s)) (map (fun _ : client => limit_in_use s) (x_clients (g_net (h_proc s))))) = cur_max (mkL (g_net (h_proc s)) (h_max s))) as Cm.
    { rewrite <- Lm. unfold cur_max. cbn [l_net l_max]. destruct (last_client s F) as (k & cl & K1 & K2 & K3). unfold clients in *. rewrite K3.
      rewrite (nth_indep _ 0 (limit_in_use s)) by (rewrite map_length; lia). apply (map_nth (fun _ : client => limit_in_use s) _ cl). }
    pose proof (sender_eq _ _ _ _ _ _ Cm El) as Es. refine (Moves [Sender pkids] _ _ _ _ _ eq_refl); [|reflexivity|repeat constructor|reflexivity].
    cbn [redir_run redir_move view rd_net rd_set]. change (to_max (target_of (settings_of s))) with (cf_UDPMaxBytes (settings_of s)). rewrite Es. reflexivity.
  - injection E as <-. refine (Moves [WriteSender] _ _ _ _ _ eq_refl); [reflexivity|reflexivity|repeat constructor|reflexivity].
  - injection E as <-. refine (Moves [WriteJob i] _ _ _ _ _ eq_refl); [reflexivity|reflexivity|repeat constructor|reflexivity].
  - destruct (task_step t (h_tasks s)) as [[ps w]|]; [|discriminate]. destruct (send_all _ _ _ _) as [p'|] eqn:Sa; [|discriminate]. injection E as <-.
    destruct (direct_moves (h_qcap s) _ _ _ (target_now s) (h_vars s) (h_addr s) (h_max s) (h_pc s) _ _ Sa (eq_sym Lm)) as (R & C). destruct (direct_reloads pkid ps) as (Z & U).
    split; [reflexivity|]. eexists. split; [|split; [exact Z|split; [intros _; exact U|apply unchanged_drawn, U]]].
    unfold view at 1. fold (target_now s). rewrite R. unfold view, settings_of, target_now, settings_of. cbn [h_proc h_vars h_addr h_max h_pc]. rewrite C. reflexivity.
Qed.

Lemma step_fits m s s' : whole_step m s = Some s' -> fits s -> fits s'.
Proof.
  intros E F. pose proof (step_aims (fun _ => True) m s s' E) as A. destruct A as (A & _); [|exact I|exact A]. split; [exact F|]. split; [exact I|]. apply Forall_forall. intros ? _. exact I.
Qed.

(** at every moment of the history the client in use has a socket *)
Definition connected (ms : list hmove) (s : whole) : Prop := forall s1, passes ms s s1 -> has_socket s1 = true.
(** the settings the sender reads do not change during the history *)
Definition unchanged_target (ms : list hmove) (s : whole) : Prop := forall s1, passes ms s s1 -> target_now s1 = target_now s.

Lemma passes_here ms s : passes ms s s.
Proof. exists [], ms. auto. Qed.
Lemma passes_later m ms s s1 s2 : whole_step m s = Some s1 -> passes ms s1 s2 -> passes (m :: ms) s s2.
Proof. intros E (b & a & -> & R). exists (m :: b), a. split; [reflexivity|]. cbn [whole_run]. rewrite E. exact R. Qed.
Lemma drawn_more (T U : target -> Prop) ms : (forall t, T t -> U t) -> Forall (drawn T) ms -> Forall (drawn U) ms.
Proof. intros H. apply Forall_impl. intros [[x|x|x]| | | | | |]; cbn; auto; intros (t & A & B); eauto. Qed.

Lemma run_moves ms : forall s s', fits s -> whole_run ms s = Some s' -> connected ms s ->
  h_qcap s' = h_qcap s /\ fits s' /\ exists rms, redir_run (h_qcap s) rms (view s) = Some (view s') /\ reloads rms = follower_moves ms /\
    (unchanged_target ms s -> unchanged rms) /\ Forall (drawn (fun t => exists s1, passes ms s s1 /\ t = target_now s1)) rms.
Proof.
  induction ms as [|m ms IH]; intros s s' F R C; cbn [whole_run] in R.
  - injection R as <-. split; [reflexivity|]. split; [exact F|]. exists []. repeat split; constructor.
  - destruct (whole_step m s) as [s1|] eqn:E; [|discriminate]. destruct (step_moves m s s1 F (C s (passes_here _ _)) E) as (Q & r1 & R1 & Z1 & U1 & D1).
    destruct (IH s1 s' (step_fits _ _ _ E F) R) as (Q2 & F2 & r2 & R2 & Z2 & U2 & D2). { intros s2 H. apply C. eapply passes_later; eassumption. }
    split; [congruence|]. split; [exact F2|]. exists (r1 ++ r2). split; [rewrite L_Redirect.run_app, R1, <- Q; exact R2|]. split; [|split].
    + assert (reloads (r1 ++ r2) = reloads r1 + reloads r2)%nat as -> by (clear; induction r1 as [|x r1 IH]; [reflexivity|destruct x; cbn [app reloads]; lia]).
      rewrite Z1, Z2. destruct m; reflexivity.
    + intros U. apply Forall_app. assert (target_now s1 = target_now s) as T1 by (apply U; eapply passes_later; [exact E|apply passes_here]).
      split; [apply U1, T1|apply U2]. intros s2 H. rewrite T1. apply U. eapply passes_later; eassumption.
    + apply Forall_app. split; (eapply drawn_more; [|eassumption]); cbn beta.
      * intros t ->. exists s1. split; [eapply passes_later; [exact E|apply passes_here]|reflexivity].
      * intros t (s2 & H & ->). exists s2. split; [eapply passes_later; eassumption|reflexivity].
Qed.
Lemma start_view w conn c t0 t1 s : whole_start w conn c t0 t1 = Some s -> view s = redir0 conn (target_now s) /\ fits s.
Proof.
  unfold whole_start. destruct (proc_refresh 0 w (proc0 conn)) as [p|] eqn:E; [|discriminate]. cbv zeta. destruct (_ <? 0); [discriminate|]. intros [= <-].
  assert (g_net p = net0 conn) as N.
  { unfold proc_refresh in E. cbn [proc0 g_conf g_observer] in E. destruct (refresh_conf w initial_cstate) as [[cs ch]|]; [|discriminate]. rewrite andb_false_r in E. cbv zeta in E. injection E as <-. reflexivity. }
  unfold view, fits, clients, redir0, lnet0. cbn [h_proc h_vars h_addr h_max h_pc]. rewrite N. split; [reflexivity|]. split; [discriminate|reflexivity].
Qed.

(** The whole agent does, with the collector's address and with datagrams, only what the model of the two goroutines that follow the address may do: for every history
    there is a history of that model, with as many rounds of the goroutine that rereads the address, which ends with the same clients, addresses, limits, queue and datagrams sent. *)
Theorem C90_whole_agent_refines w conn c t0 t1 s0 ms s : whole_start w conn c t0 t1 = Some s0 -> whole_run ms s0 = Some s -> connected ms s0 ->
  exists rms, redir_run (h_qcap s0) rms (redir0 conn (target_now s0)) = Some (view s) /\ reloads rms = follower_moves ms.
Proof.
  intros St R C. destruct (start_view _ _ _ _ _ _ St) as (V & F). destruct (run_moves ms s0 s F R C) as (_ & _ & rms & R1 & Z1 & _).
  rewrite V in R1. exists rms. auto.
Qed.

(** Every datagram was given to the network for an address and a port that were each in force at some moment. *)
Theorem C90_whole_agent_only_configured w conn c t0 t1 s0 ms s k d : whole_start w conn c t0 t1 = Some s0 -> whole_run ms s0 = Some s -> connected ms s0 ->
  In (k, d) (x_sent (g_net (h_proc s))) -> exists ip port, nth_error (h_addr s) k = Some (ip, port) /\
    (exists s1, passes ms s0 s1 /\ cf_NetCollectorIP (settings_of s1) = ip) /\ (exists s2, passes ms s0 s2 /\ cf_NetCollectorUDPPort (settings_of s2) = port).
Proof.
  intros St R C Hin. destruct (start_view _ _ _ _ _ _ St) as (V & F). destruct (run_moves ms s0 s F R C) as (Q & _ & rms & R1 & _ & _ & D).
  rewrite V in R1. destruct (run0_provenance _ _ _ _ _ R1) as [_ _ A _ (_ & _ & Pl)]. rewrite Forall_forall in D, A, Pl.
  assert (forall ip, In ip (ips (target_now s0) rms) -> exists s1, passes ms s0 s1 /\ cf_NetCollectorIP (settings_of s1) = ip) as Hi.
  { intros ip [<-|H]; [exists s0; split; [apply passes_here|reflexivity]|]. apply in_flat_map in H as (m & Hm & H). specialize (D m Hm). destruct m as [[x|x|x]| | | | | |]; cbn in H; try contradiction.
    destruct H as [<-|[]]. destruct D as (t & (s1 & H1 & ->) & <-). exists s1. auto. }
  assert (forall port, In port (ports (target_now s0) rms) -> exists s1, passes ms s0 s1 /\ cf_NetCollectorUDPPort (settings_of s1) = port) as Hp.
  { intros port [<-|H]; [exists s0; split; [apply passes_here|reflexivity]|]. apply in_flat_map in H as (m & Hm & H). specialize (D m Hm). destruct m as [[x|x|x]| | | | | |]; cbn in H; try contradiction.
    destruct H as [<-|[]]. destruct D as (t & (s1 & H1 & ->) & <-). exists s1. auto. }
  specialize (Pl (k, d) Hin). cbn [fst] in Pl. change (rd_addr (view s)) with (h_addr s) in *. destruct (nth_error (h_addr s) k) as [[ip port]|] eqn:E.
  - destruct (A _ (nth_error_In _ _ E)) as (I1 & I2). exists ip, port. split; [reflexivity|]. split; [apply Hi, I1|apply Hp, I2].
  - apply nth_error_None in E. lia.
Qed.

(** ** A history that meets the hypotheses: the collector moves while the agent runs *)
Fixpoint along (P : whole -> bool) (ms : list hmove) (s : whole) : bool :=
  P s && match ms with [] => true | m :: ms' => match whole_step m s with Some s' => along P ms' s' | None => true end end.
Lemma along_passes P ms : forall s s1, along P ms s = true -> passes ms s s1 -> P s1 = true.
Proof.
  induction ms as [|m ms IH]; intros s s1 A (b & a & E & R).
  - destruct b; [|discriminate E]. injection R as <-. apply andb_prop in A. apply A.
  - cbn [along] in A. apply andb_prop in A as (A1 & A2). destruct b as [|m' b]; [injection R as <-; exact A1|]. cbn [app] in E. injection E as <- ->. cbn [whole_run] in R.
    destruct (whole_step m s) as [s2|]; [|discriminate]. apply (IH s2 s1 A2). exists b, a. auto.
Qed.
Definition target_eqb (a b : target) : bool := beqb (to_ip a) (to_ip b) && (to_port a =? to_port b) && (to_max a =? to_max b).
Lemma target_eqb_eq a b : target_eqb a b = true -> a = b.
Proof.
  unfold target_eqb. destruct a as [i p m], b as [i' p' m']. cbn [to_ip to_port to_max]. rewrite !andb_true_iff, !Z.eqb_eq. intros ((E & ->) & ->).
  destruct (beqb_spec i i') as [->|N]; [reflexivity|discriminate E].
Qed.
Definition here : M_Conf.world := plain_world [of_string "net_collector_ip=10.0.0.9"].
Definition elsewhere : M_Conf.world := plain_world [of_string "net_collector_ip=10.0.0.7"; of_string "net_collector_udp_port=7100"].
Definition before_move : list hmove := [HBegin; HEnd 1; HReload true; HWriteJob 0; HRefresh elsewhere].
Definition after_move : list hmove := repeat (HReload true) 13 ++ [HDirect 2 (PMap []); HWriteJob 1].
Example C90_whole_refines_case : exists s0 s s', whole_start here true sconf0 0 0 = Some s0 /\ whole_run before_move s0 = Some s /\ whole_run after_move s = Some s' /\
  connected (before_move ++ after_move) s0 /\ unchanged_target after_move s /\ follower_moves after_move = 13%nat /\
  cf_NetCollectorIP (settings_of s') = of_string "10.0.0.7" /\ map fst (x_sent (g_net (h_proc s'))) = [O; 1%nat].
Proof.
  assert (match whole_start here true sconf0 0 0 with
    | Some s0 => along has_socket (before_move ++ after_move) s0 &&
        match whole_run before_move s0 with
        | Some s => along (fun x => target_eqb (target_now x) (target_now s)) after_move s &&
            match whole_run after_move s with
            | Some s' => beqb (cf_NetCollectorIP (settings_of s')) (of_string "10.0.0.7") && match map fst (x_sent (g_net (h_proc s'))) with [O; 1%nat] => true | _ => false end
            | None => false end
        | None => false end
    | None => false end = true) as K by (vm_compute; reflexivity).
  destruct (whole_start here true sconf0 0 0) as [s0|] eqn:E0; [|discriminate K]. destruct (whole_run before_move s0) as [s|] eqn:E1; [|rewrite andb_false_r in K; discriminate K].
  destruct (whole_run after_move s) as [s'|] eqn:E2; [|rewrite !andb_false_r in K; discriminate K]. exists s0, s, s'.
  apply andb_prop in K as (K1 & K). apply andb_prop in K as (K2 & K). apply andb_prop in K as (K3 & K4).
  split; [reflexivity|]. split; [exact E1|]. split; [exact E2|]. split; [intros s1 H; exact (along_passes _ _ _ _ K1 H)|].
  split; [intros s1 H; apply target_eqb_eq; exact (along_passes _ _ _ _ K2 H)|]. split; [reflexivity|]. split; [destruct (beqb_spec (cf_NetCollectorIP (settings_of s')) (of_string "10.0.0.7")); [assumption|discriminate K3]|].
  destruct (map fst _) as [|[|] [|[|[|]] [|]]]; try discriminate K4. reflexivity.
Qed.

Print Assumptions C90_whole_agent_refines.
Print Assumptions C90_whole_agent_only_configured.
