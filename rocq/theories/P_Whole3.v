(** Property C87 in the whole agent: whatever its goroutines do and however the datagram limit is set while it runs, what the collector assembles of the
    datagrams that arrive are packs the agent made, each at most as often as it was made. *)
From Verif Require Import GoInt M_OutX M_Value M_Packs M_Cache M_Text M_Hash M_Conf M_Udp M_Net M_NetLimit M_Redirect M_Agent M_Trace M_Tasks M_Whole
  S_Packs S_Net S_NetLimit S_Redirect S_WholeNet L_Redirect P_Net P_NetLimit P_Redirect P_Trace S_Whole L_Whole P_Whole P_Whole2.
From Coq Require Import Permutation ZifyBool.

Definition net_of (s : whole) : lnet := mkL (g_net (h_proc s)) (h_max s).
Definition log_packs (p : process) : list pack := flat_map packs_of_event (g_log p).
Definition in_range (lo : Z) (z : Z) : Prop := lo <= z <= 2147483647.

(** a part of a move of the agent which queues [q] and sends nothing *)
Definition queues (qcap : Z) (q : list pack) (p p' : process) : Prop :=
  g_conf p' = g_conf p /\ ((q = [] /\ g_net p' = g_net p) \/ exists x, q = [x] /\ g_net p' = net_add_pack qcap x (g_net p)).

Lemma text_queues qcap k name p p' h : proc_text_send qcap k name p = Some (p', h) ->
  exists q, queues qcap q p p' /\ log_packs p' = q ++ log_packs p.
Proof.
  unfold proc_text_send. destruct name as [|b name]; [intros [= <- _]; exists []; split; [split; auto|reflexivity]|]. destruct (hash_string _) as [z|]; [|discriminate].
  destruct (lra_contains _ _); intros [= <- _]; [exists []; split; [split; auto|reflexivity]|]. eexists [_]. split; [split; [reflexivity|]|]; [right; eexists; split; reflexivity|reflexivity].
Qed.

(** what a move adds to a history *)
Definition grows (qcap lo : Z) (s s' : whole) (m : hmove) (qs ps : list pack) : Prop :=
  h_qcap s' = qcap /\ exists qs' ps' new, changing qcap lo qs' ps' (net_of s') /\ Permutation (qs' ++ ps') (packs_of_move m ++ new ++ qs ++ ps) /\
    log_packs (h_proc s') = new ++ log_packs (h_proc s).

Lemma changing_queues qcap lo qs ps q p p' l : changing qcap lo qs ps (mkL (g_net p) l) -> queues qcap q p p' -> Forall (proper lo) q -> changing qcap lo (qs ++ q) ps (mkL (g_net p') l).
Proof.
  intros H (_ & [(-> & ->) | (x & -> & ->)]) Pr; [rewrite app_nil_r; exact H|]. inversion Pr; subst. exact (ch_queue _ _ _ _ _ _ H H2).
Qed.

Lemma perm_queue (qs q ps a : list pack) : a = [] -> Permutation ((qs ++ q) ++ ps) (a ++ q ++ qs ++ ps).
Proof. intros ->. cbn [app]. rewrite <- app_assoc, !app_assoc. apply Permutation_app_tail, Permutation_app_comm. Qed.
Lemma perm_direct (qs q ps : list pack) : Permutation (qs ++ ps ++ q) ([] ++ q ++ qs ++ ps).
Proof. cbn [app]. rewrite app_assoc. apply Permutation_app_comm. Qed.

Lemma direct_packs max pk ps : forall p p', send_all max pk ps p = Some p' -> log_packs p' = rev ps ++ log_packs p.
Proof.
  induction ps as [|q ps IH]; intros p p' E; cbn [send_all] in E; [injection E as <-; reflexivity|].
  unfold proc_direct in E. destruct (net_direct _ _ _ _) as [n|]; [|discriminate]. rewrite (IH _ _ E). cbn [rev]. rewrite <- app_assoc. reflexivity.
Qed.

Lemma task_packs t w ps w' : task_step t w = Some (ps, w') -> ps = [] \/ exists p, ps = [p].
Proof.
  unfold task_step. destruct t as [n k|n r obj|n obj]; cbn [do_task].
  - destruct (snd _); [|discriminate]. destruct (w_call n k w); [|discriminate]. intros [= <- _]. auto.
  - destruct (real_tick n r obj w) as [[p w1]|]; [|discriminate]. intros [= <- _]. eauto.
  - destruct (five_tick n obj w) as [[p w1]|]; [|discriminate]. intros [= <- _]. eauto.
Qed.

Lemma step_grows lo m s s' qs ps : 0 < lo -> fits s -> has_socket s = true -> whole_step m s = Some s' ->
  in_range lo (cf_UDPMaxBytes (settings_of s)) -> in_range lo (to_max (h_vars s)) -> random_keys m -> new_keys (g_net (h_proc s)) (g_net (h_proc s')) ->
  Forall (proper lo) (packs_of_move m ++ log_packs (h_proc s')) -> changing (h_qcap s) lo qs ps (net_of s) ->
  in_range lo (to_max (h_vars s')) /\ grows (h_qcap s) lo s s' m qs ps.
Proof.
  intros Lo F Hs E Ls Lv Rk Nk Pr H. pose proof (socket_limit s Hs) as Lm. apply Forall_app in Pr as (Prm & Pr). unfold net_of in *.
  assert (forall q p', queues (h_qcap s) q (h_proc s) p' -> log_packs p' = q ++ log_packs (h_proc s) -> s' = with_proc p' s -> packs_of_move m = [] ->
    in_range lo (to_max (h_vars s')) /\ grows (h_qcap s) lo s s' m qs ps) as Quiet.
  { intros q p' Q L -> Pm. split; [exact Lv|]. split; [reflexivity|]. exists (qs ++ q), ps, q. cbn [with_proc h_proc] in *. rewrite L in Pr. apply Forall_app in Pr as (Pr & _).
    split; [exact (changing_queues _ _ _ _ _ _ _ _ H Q Pr)|]. split; [apply perm_queue, Pm|exact L]. }
  assert (forall p', g_net p' = g_net (h_proc s) -> g_conf p' = g_conf (h_proc s) -> log_packs p' = log_packs (h_proc s) -> s' = with_proc p' s -> packs_of_move m = [] ->
    in_range lo (to_max (h_vars s')) /\ grows (h_qcap s) lo s s' m qs ps) as Still.
  { intros p' N C L -> Pm. apply (Quiet [] p'); auto. split; auto. }
  assert (forall n, changing (h_qcap s) lo qs ps (mkL n (h_max s)) -> s' = with_proc (proc_net n (h_proc s)) s -> packs_of_move m = [] ->
    in_range lo (to_max (h_vars s')) /\ grows (h_qcap s) lo s s' m qs ps) as Nets.
  { intros n C -> Pm. split; [exact Lv|]. split; [reflexivity|]. exists qs, ps, []. split; [exact C|]. split; [rewrite Pm; reflexivity|reflexivity]. }
  assert (forall k p q p' w, in_int64 k -> net_direct (limit_in_use s) k q (g_net p) = Some (g_net p') -> p = h_proc s -> log_packs p' = q :: log_packs p ->
    s' = mkWhole p' (h_qcap s) (h_vars s) (h_addr s) (h_max s) (h_pc s) w -> packs_of_move m = [] ->
    in_range lo (to_max (h_vars s')) /\ grows (h_qcap s) lo s s' m qs ps) as Directs.
  { intros k p q p' w Ik D -> L -> Pm. split; [exact Lv|]. split; [reflexivity|]. cbn [h_proc] in *. rewrite L in Pr. pose proof (Forall_inv Pr) as P1.
    exists qs, (ps ++ [q]), [q]. split; [|split; [rewrite Pm; apply perm_direct|exact L]]. unfold net_of. cbn [h_proc h_max].
    refine (ch_direct _ _ _ _ q k _ (mkL (g_net p') (h_max s)) H P1 Ik _ Nk). unfold l_direct. cbn [l_net l_max]. rewrite <- Lm, D. reflexivity. }
  destruct m; cbn [whole_step] in E; cbn [random_keys] in Rk.
  - destruct (proc_refresh (h_qcap s) w (h_proc s)) as [p'|] eqn:Ep; [|discriminate]. injection E as <-. split; [exact Lv|]. split; [reflexivity|].
    unfold proc_refresh in Ep. destruct (refresh_conf w (g_conf (h_proc s))) as [[c ch]|]; [|discriminate]. cbv zeta in Ep. destruct (ch && g_observer (h_proc s)).
    + destruct (proc_text_send _ _ _ _) as [[p2 h]|] eqn:Et; [|discriminate]. injection Ep as <-. destruct (text_queues _ _ _ _ _ _ Et) as (q & Q & L).
      cbn [with_proc h_proc] in *. pose proof Pr as Pr0. rewrite L in Pr. apply Forall_app in Pr as (Pr & _). exists (qs ++ q), ps, q.
      split; [refine (changing_queues _ _ _ _ _ _ _ _ _ Q Pr); exact H|]. split; [apply perm_queue; reflexivity|exact L].
    + injection Ep as <-. exists qs, ps, []. split; [exact H|]. split; reflexivity.
  - injection E as <-. unfold grows, net_of. unfold reload_step, view, put_view. cbv zeta. cbn [rd_pc rd_vars rd_set rd_net rd_addr].
    assert (forall t v a n pc, in_range lo (to_max v) -> changing (h_qcap s) lo qs ps n ->
      let s1 := mkWhole (proc_net (l_net (rd_net (mkRd t v a n pc))) (h_proc s)) (h_qcap s) (rd_vars (mkRd t v a n pc)) (rd_addr (mkRd t v a n pc)) (l_max (rd_net (mkRd t v a n pc))) (rd_pc (mkRd t v a n pc)) (h_tasks s) in
      in_range lo (to_max (h_vars s1)) /\ h_qcap s1 = h_qcap s /\ exists qs' ps' new, changing (h_qcap s) lo qs' ps' (mkL (g_net (h_proc s1)) (h_max s1)) /\
        Permutation (qs' ++ ps') (packs_of_move (HReload conn) ++ new ++ qs ++ ps) /\ log_packs (h_proc s1) = new ++ log_packs (h_proc s)) as K.
    { intros t v a n pc Hv Hn. cbv zeta. cbn [rd_net rd_vars h_proc h_vars h_max proc_net g_net]. split; [exact Hv|]. split; [reflexivity|]. exists qs, ps, []. split; [destruct n; exact Hn|]. split; reflexivity. }
    destruct (h_pc s); apply K; cbn [to_max]; auto.
    + apply ch_reload; [exact H|exact Lv].
    + cbn [l_net]. destruct (nth_error _ _) as [cl|]; [|exact H]. destruct (cl_conn cl); [|exact H]. apply ch_close, H.
  - injection E as <-. apply (Still (proc_observe (h_proc s))); reflexivity.
  - destruct (proc_begin (h_qcap s) (h_proc s)) as [p'|] eqn:Ep; [|discriminate]. injection E as <-. unfold proc_begin in Ep. destruct (g_half (h_proc s)).
    + injection Ep as <-. apply (Still (h_proc s)); reflexivity.
    + cbv zeta in Ep. destruct (proc_text_send _ _ _ _) as [[p1 h]|] eqn:Et; [|discriminate]. injection Ep as <-. destruct (text_queues _ _ _ _ _ _ Et) as (q & Q & L).
      refine (Quiet q _ _ _ eq_refl eq_refl); [exact Q|exact L].
  - destruct (proc_end (limit_in_use s) pkid (h_proc s)) as [p'|] eqn:Ep; [|discriminate]. injection E as <-. unfold proc_end in Ep. destruct (g_half (h_proc s)) as [[nm h]|].
    + cbv zeta in Ep. destruct (_ && _); [discriminate|]. destruct (net_direct _ _ _ _) as [n|] eqn:D; [|discriminate]. injection Ep as <-.
      refine (Directs pkid _ _ _ (h_tasks s) Rk _ eq_refl _ eq_refl eq_refl); [exact D|reflexivity].
    + injection Ep as <-. apply (Still (h_proc s)); reflexivity.
  - destruct (proc_text_send (h_qcap s) k name (h_proc s)) as [[p' h]|] eqn:Et; [|discriminate]. injection E as <-. destruct (text_queues _ _ _ _ _ _ Et) as (q & Q & L).
    apply (Quiet q p'); auto.
  - injection E as <-. refine (Still _ _ _ _ eq_refl eq_refl); try reflexivity.
  - injection E as <-. split; [exact Lv|]. split; [reflexivity|]. exists (qs ++ [p]), ps, []. cbn [packs_of_move] in *. inversion Prm; subst.
    split; [exact (ch_queue _ _ _ _ _ _ H H2)|]. split; [|reflexivity]. cbn [app]. rewrite <- app_assoc. cbn [app]. symmetry. apply Permutation_middle.
  - destruct (proc_direct (limit_in_use s) pkid p (h_proc s)) as [p'|] eqn:Ep; [|discriminate]. injection E as <-. unfold proc_direct in Ep. destruct (net_direct _ _ _ _) as [n|] eqn:D; [|discriminate]. injection Ep as <-.
    refine (Directs pkid _ p _ (h_tasks s) Rk _ eq_refl _ eq_refl eq_refl); [exact D|reflexivity].
  - destruct (l_sender _ _ _) as [l|] eqn:El in E; [|discriminate]. injection E as <-.
    assert (cur_max (mkL (g_net (h_proc s)) (map (fun _ : client => limit_in_use s) (x_clients (g_net (h_proc s))))) = cur_max (mkL (g_net (h_proc s)) (h_max s))) as Cm.
    { rewrite <- Lm. unfold cur_max. cbn [l_net l_max]. destruct (last_client s F) as (k & cl & K1 & K2 & K3). unfold clients in *. rewrite K3.
      rewrite (nth_indep _ 0 (limit_in_use s)) by (rewrite map_length; lia). apply (map_nth (fun _ : client => limit_in_use s) _ cl). }
    pose proof (sender_eq _ _ _ _ _ _ Cm El) as Es. refine (Nets _ _ eq_refl eq_refl). destruct Rk as (R1 & R2). exact (ch_sender _ _ _ _ _ _ _ _ H R1 R2 Es Nk).
  - injection E as <-. refine (Nets _ _ eq_refl eq_refl). exact (ch_write_sender _ _ _ _ _ H).
  - injection E as <-. refine (Nets _ _ eq_refl eq_refl). exact (ch_write_job _ _ _ _ i _ H).
  - destruct (task_step t (h_tasks s)) as [[l w]|] eqn:Et; [|discriminate]. destruct (send_all _ _ _ _) as [p'|] eqn:Sa; [|discriminate]. injection E as <-.
    destruct (task_packs _ _ _ _ Et) as [-> | (q & ->)]; cbn [send_all] in Sa.
    + injection Sa as <-. split; [exact Lv|]. split; [reflexivity|]. exists qs, ps, []. split; [exact H|]. split; reflexivity.
    + destruct (proc_direct _ _ _ _) as [p1|] eqn:Ep; [|discriminate]. injection Sa as <-. unfold proc_direct in Ep. destruct (net_direct _ _ _ _) as [n|] eqn:D; [|discriminate]. injection Ep as <-.
      refine (Directs pkid _ q _ w Rk _ eq_refl _ eq_refl eq_refl); [exact D|reflexivity].
Qed.

Lemma log_grows m s s' : whole_step m s = Some s' -> exists new, log_packs (h_proc s') = new ++ log_packs (h_proc s).
Proof.
  intros E. destruct m; cbn [whole_step] in E; try (injection E as <-; exists []; reflexivity).
  - destruct (proc_refresh (h_qcap s) w (h_proc s)) as [p'|] eqn:Ep; [|discriminate]. injection E as <-.
    unfold proc_refresh in Ep. destruct (refresh_conf w (g_conf (h_proc s))) as [[c ch]|]; [|discriminate]. cbv zeta in Ep. destruct (ch && g_observer (h_proc s)).
    + destruct (proc_text_send _ _ _ _) as [[p2 h]|] eqn:Et; [|discriminate]. injection Ep as <-. destruct (text_queues _ _ _ _ _ _ Et) as (q & _ & L). exists q. exact L.
    + injection Ep as <-. exists []. reflexivity.
  - destruct (proc_begin (h_qcap s) (h_proc s)) as [p'|] eqn:Ep; [|discriminate]. injection E as <-. unfold proc_begin in Ep. destruct (g_half (h_proc s)).
    + injection Ep as <-. exists []. reflexivity.
    + cbv zeta in Ep. destruct (proc_text_send _ _ _ _) as [[p1 h]|] eqn:Et; [|discriminate]. injection Ep as <-. destruct (text_queues _ _ _ _ _ _ Et) as (q & _ & L). exists q. exact L.
  - destruct (proc_end (limit_in_use s) pkid (h_proc s)) as [p'|] eqn:Ep; [|discriminate]. injection E as <-. unfold proc_end in Ep. destruct (g_half (h_proc s)) as [[nm h]|].
    + cbv zeta in Ep. destruct (_ && _); [discriminate|]. destruct (net_direct _ _ _ _) as [n|]; [|discriminate]. injection Ep as <-. eexists [_]. reflexivity.
    + injection Ep as <-. exists []. reflexivity.
  - destruct (proc_text_send (h_qcap s) k name (h_proc s)) as [[p' h]|] eqn:Et; [|discriminate]. injection E as <-. destruct (text_queues _ _ _ _ _ _ Et) as (q & _ & L). exists q. exact L.
  - destruct (proc_direct (limit_in_use s) pkid p (h_proc s)) as [p'|] eqn:Ep; [|discriminate]. injection E as <-. unfold proc_direct in Ep. destruct (net_direct _ _ _ _); [|discriminate]. injection Ep as <-. exists [p]. reflexivity.
  - destruct (l_sender _ _ _) as [l|]; [|discriminate]. injection E as <-. exists []. reflexivity.
  - destruct (task_step t (h_tasks s)) as [[l w]|]; [|discriminate]. destruct (send_all _ _ _ _) as [p'|] eqn:Sa; [|discriminate]. injection E as <-. exists (rev l). exact (direct_packs _ _ _ _ _ Sa).
Qed.
Lemma logs_grow ms : forall s s', whole_run ms s = Some s' -> exists new, log_packs (h_proc s') = new ++ log_packs (h_proc s).
Proof.
  induction ms as [|m ms IH]; intros s s' R; cbn [whole_run] in R; [injection R as <-; exists []; reflexivity|].
  destruct (whole_step m s) as [s1|] eqn:E; [|discriminate]. destruct (log_grows _ _ _ E) as (n1 & E1). destruct (IH _ _ R) as (n2 & E2). exists (n2 ++ n1). rewrite <- app_assoc, <- E1. exact E2.
Qed.

Lemma run_changing lo ms : forall s s' qs ps, 0 < lo -> fits s -> whole_run ms s = Some s' -> connected ms s -> limits_from lo ms s -> fresh_keys ms s ->
  in_range lo (to_max (h_vars s)) -> Forall (proper lo) (handed ms s') -> changing (h_qcap s) lo qs ps (net_of s) -> Permutation (qs ++ ps) (log_packs (h_proc s)) ->
  exists qs' ps', changing (h_qcap s) lo qs' ps' (net_of s') /\ Permutation (qs' ++ ps') (handed ms s').
Proof.
  assert (forall ms s s' qs ps q0, 0 < lo -> fits s -> whole_run ms s = Some s' -> connected ms s -> limits_from lo ms s -> fresh_keys ms s ->
    in_range lo (to_max (h_vars s)) -> Forall (proper lo) (handed ms s') -> changing (h_qcap s) lo qs ps (net_of s) -> Permutation (qs ++ ps) (q0 ++ log_packs (h_proc s)) ->
    exists qs' ps', changing (h_qcap s) lo qs' ps' (net_of s') /\ Permutation (qs' ++ ps') (q0 ++ handed ms s')) as G.
  { clear ms. induction ms as [|m ms IH]; intros s s' qs ps q0 Lo F R C L K V Pr H Pm; cbn [whole_run] in R.
    - injection R as <-. exists qs, ps. split; [exact H|exact Pm].
    - destruct (whole_step m s) as [s1|] eqn:E; [|discriminate]. unfold handed in Pr. cbn [flat_map] in Pr. fold (log_packs (h_proc s')) in Pr.
      apply Forall_app in Pr as (Pr1 & Pr2). apply Forall_app in Pr1 as (Pr0 & Pr1).
      assert (Forall (proper lo) (log_packs (h_proc s1))) as Pr3. { destruct (logs_grow _ _ _ R) as (new & En). rewrite En in Pr2. apply Forall_app in Pr2. apply Pr2. }
      destruct (K [] m ms s s1 eq_refl eq_refl E) as (Rk & Nk).
      destruct (step_grows lo m s s1 qs ps Lo F (C s (passes_here _ _)) E (L [] (m :: ms) s eq_refl eq_refl) V Rk Nk (proj2 (Forall_app _ _ _) (conj Pr0 Pr3)) H) as (V1 & Q1 & qs1 & ps1 & new & H1 & P1 & L1).
      rewrite <- Q1 in H1 |- *.
      destruct (IH s1 s' qs1 ps1 (packs_of_move m ++ q0) Lo (step_fits _ _ _ E F) R) as (qs' & ps' & H' & P'); auto.
      + intros s2 Hp. apply C. eapply passes_later; eassumption.
      + intros b a s2 -> Rb. apply (L (m :: b) a s2 eq_refl). cbn [whole_run]. rewrite E. exact Rb.
      + intros b m2 a s2 s3 -> Rb. apply (K (m :: b) m2 a s2 s3 eq_refl). cbn [whole_run]. rewrite E. exact Rb.
      + apply Forall_app. split; [exact Pr1|exact Pr2].
      + rewrite P1, Pm, L1, <- !app_assoc. apply Permutation_app_head. rewrite !app_assoc. apply Permutation_app_tail, Permutation_app_comm.
      + exists qs', ps'. split; [exact H'|]. rewrite P'. unfold handed. cbn [flat_map]. rewrite <- !app_assoc, !app_assoc. do 2 apply Permutation_app_tail. apply Permutation_app_comm. }
  intros s s' qs ps Lo F R C L K V Pr H Pm. exact (G ms s s' qs ps [] Lo F R C L K V Pr H Pm).
Qed.

Lemma start_changing lo w conn c t0 t1 s : whole_start w conn c t0 t1 = Some s -> in_range lo (cf_UDPMaxBytes (settings_of s)) ->
  fits s /\ in_range lo (to_max (h_vars s)) /\ changing (h_qcap s) lo [] [] (net_of s) /\ log_packs (h_proc s) = [].
Proof.
  intros St L. destruct (start_view _ _ _ _ _ _ St) as (V & F). split; [exact F|].
  assert (h_vars s = target_now s /\ net_of s = lnet0 conn (cf_UDPMaxBytes (settings_of s))) as (V1 & V2).
  { unfold view, redir0 in V. injection V as V1 _ V2 V3 _. split; [exact V1|]. unfold net_of, lnet0. rewrite V2, V3. reflexivity. }
  split; [rewrite V1; exact L|]. split; [rewrite V2; apply ch_start; exact L|].
  unfold whole_start in St. destruct (proc_refresh 0 w (proc0 conn)) as [p|] eqn:E; [|discriminate]. cbv zeta in St. destruct (_ <? 0); [discriminate|]. injection St as <-.
  unfold proc_refresh in E. cbn [proc0 g_conf g_observer] in E. destruct (refresh_conf w initial_cstate) as [[cs ch]|]; [|discriminate]. rewrite andb_false_r in E. cbv zeta in E. injection E as <-. reflexivity.
Qed.

Lemma agent_changing lo w conn c t0 t1 s0 ms s : 0 < lo -> whole_start w conn c t0 t1 = Some s0 -> whole_run ms s0 = Some s -> connected ms s0 ->
  limits_from lo ms s0 -> fresh_keys ms s0 -> Forall (proper lo) (handed ms s) ->
  exists qs ps, changing (h_qcap s0) lo qs ps (net_of s) /\ Permutation (qs ++ ps) (handed ms s).
Proof.
  intros Lo St R C L K Pr. destruct (start_changing lo _ _ _ _ _ _ St (L [] ms s0 eq_refl eq_refl)) as (F & V & H & Lg).
  apply (run_changing lo ms s0 s [] []); auto. rewrite Lg. reflexivity.
Qed.

(** Whatever the goroutines of the agent do, and however its settings change: of the datagrams that arrive, in any order and with any losses, the collector
    assembles only packs that the agent handed to its UDP client, each at most as often as it was handed over. *)
Theorem C87_whole_agent_no_invention lo w conn c t0 t1 s0 ms s received : 0 < lo -> whole_start w conn c t0 t1 = Some s0 -> h_qcap s0 <= 32767 -> whole_run ms s0 = Some s -> connected ms s0 ->
  limits_from lo ms s0 -> fresh_keys ms s0 -> Forall (proper lo) (handed ms s) -> some_of received (map snd (x_sent (g_net (h_proc s)))) ->
  some_of (collector received) (map collector_pack (handed ms s)).
Proof.
  intros Lo St Q R C L K Pr Rc. destruct (agent_changing _ _ _ _ _ _ _ _ _ Lo St R C L K Pr) as (qs & ps & H & Pm).
  destruct (C87_no_invention _ _ _ _ _ received Lo Q H Rc) as (rest & P). exists rest. rewrite P. apply Permutation_map, Pm.
Qed.

(** And when its queue never overflowed, no datagram was given to a client without a socket, everything was written and all of it arrived, the collector has exactly
    the packs that the agent handed over. *)
Theorem C87_whole_agent_nothing_missing lo w conn c t0 t1 s0 ms s received : 0 < lo -> whole_start w conn c t0 t1 = Some s0 -> h_qcap s0 <= 32767 -> whole_run ms s0 = Some s -> connected ms s0 ->
  limits_from lo ms s0 -> fresh_keys ms s0 -> Forall (proper lo) (handed ms s) ->
  at_rest (g_net (h_proc s)) -> dropped (x_u (g_net (h_proc s))) = [] -> x_lost (g_net (h_proc s)) = [] -> Permutation received (map snd (x_sent (g_net (h_proc s)))) ->
  Permutation (collector received) (map collector_pack (handed ms s)).
Proof.
  intros Lo St Q R C L K Pr Re Dr Xl Rc. destruct (agent_changing _ _ _ _ _ _ _ _ _ Lo St R C L K Pr) as (qs & ps & H & Pm).
  rewrite (C87_nothing_missing _ _ _ _ _ received Lo Q H Re Dr Xl Rc). apply Permutation_map, Pm.
Qed.

(** ** A history that meets the hypotheses *)
(** runs [ms], as long as the client in use has a socket, the limit is in range and no key is used twice *)
Fixpoint checked (lo : Z) (ms : list hmove) (s : whole) : option whole :=
  if has_socket s && (lo <=? cf_UDPMaxBytes (settings_of s)) && (cf_UDPMaxBytes (settings_of s) <=? 2147483647) then
    match ms with
    | [] => Some s
    | m :: ms' => match whole_step m s with
                  | Some s1 => if new_keys_b (g_net (h_proc s)) (g_net (h_proc s1)) then checked lo ms' s1 else None
                  | None => None
                  end
    end
  else None.
Lemma checked_ok lo ms : forall s s', checked lo ms s = Some s' -> Forall random_keys ms ->
  whole_run ms s = Some s' /\ connected ms s /\ limits_from lo ms s /\ fresh_keys ms s.
Proof.
  induction ms as [|m ms IH]; intros s s' H R; cbn [checked whole_run] in *; (destruct (has_socket s && _ && _) eqn:B; [|discriminate]);
    apply andb_prop in B as (B & B3); apply andb_prop in B as (B1 & B2).
  - injection H as <-. split; [reflexivity|]. split; [|split].
    + intros s1 (b & a & E & Rb). destruct b; [|discriminate E]. injection Rb as <-. exact B1.
    + intros b a s1 E Rb. destruct b; [|discriminate E]. injection Rb as <-. lia.
    + intros b m a s1 s2 E. destruct b; discriminate E.
  - destruct (whole_step m s) as [s1|] eqn:E; [|discriminate]. destruct (new_keys_b _ _) eqn:K; [|discriminate]. inversion R as [|? ? R1 R2]; subst.
    destruct (IH s1 s' H R2) as (A1 & A2 & A3 & A4). split; [exact A1|]. split; [|split].
    + intros s2 (b & a & Eb & Rb). destruct b as [|m' b]; [injection Rb as <-; exact B1|]. cbn [app] in Eb. injection Eb as <- Eb. cbn [whole_run] in Rb. rewrite E in Rb. apply A2. exists b, a. auto.
    + intros b a s2 Eb Rb. destruct b as [|m' b]; [injection Rb as <-; lia|]. cbn [app] in Eb. injection Eb as <- Eb. cbn [whole_run] in Rb. rewrite E in Rb. exact (A3 b a s2 Eb Rb).
    + intros b m2 a s2 s3 Eb Rb S3. destruct b as [|m' b]; cbn [app] in Eb; injection Eb as <- Eb.
      * injection Rb as <-. rewrite E in S3. injection S3 as <-. split; [exact R1|apply new_keys_ok, K].
      * cbn [whole_run] in Rb. rewrite E in Rb. exact (A4 b m2 a s2 s3 Eb Rb S3).
Qed.
Lemma keys_random k : in64 k = true -> in64 (k + 32768) = true -> random_keys (HSender (keys_from k)).
Proof.
  intros I I2. split.
  - intros i. unfold keys_from, in_int64, in64 in *. destruct (Z.of_nat i <? 32768) eqn:E; lia.
  - intros i j A B. unfold keys_from. replace (Z.of_nat i <? 32768) with true by lia. replace (Z.of_nat j <? 32768) with true by lia. lia.
Qed.
(** the object is announced; then the limit becomes 20, a new client is made, and the object is announced again, in pieces *)
Definition small : M_Conf.world := plain_world [of_string "udp_max_bytes=20"].
Definition limit_moves : list hmove :=
  [HBegin; HEnd 5; HSender (keys_from 1000); HWriteSender; HWriteJob 0; HRefresh small] ++ repeat (HReload true) 9 ++
  [HBegin; HEnd 6; HText KService (of_string "/api"); HSender (keys_from 2000); HWriteSender; HWriteJob 1; HWriteJob 1].
Definition nil_b {A} (l : list A) : bool := match l with [] => true | _ => false end.
Definition rests (s : netsys) : bool :=
  nil_b (x_uout s) && nil_b (concat (x_jobs s)) && nil_b (queue (x_u s)) && match snd_state (x_u s) with Idle => true | _ => false end && nil_b (dropped (x_u s)) && nil_b (x_lost s).
Lemma rests_ok s : rests s = true -> at_rest s /\ dropped (x_u s) = [] /\ x_lost s = [].
Proof.
  unfold rests, at_rest. rewrite !andb_true_iff. intros (((((A & B) & C) & D) & E) & F). repeat split;
    [destruct (x_uout s); [reflexivity|discriminate A]|destruct (concat (x_jobs s)); [reflexivity|discriminate B]|destruct (queue (x_u s)); [reflexivity|discriminate C]|destruct (snd_state (x_u s)); [reflexivity|discriminate D]|destruct (dropped (x_u s)); [reflexivity|discriminate E]|destruct (x_lost s); [reflexivity|discriminate F]].
Qed.
Example C87_whole_case : exists s0 s, whole_start here true sconf0 0 0 = Some s0 /\ h_qcap s0 <= 32767 /\ whole_run limit_moves s0 = Some s /\ connected limit_moves s0 /\
  limits_from 20 limit_moves s0 /\ fresh_keys limit_moves s0 /\ Forall (proper 20) (handed limit_moves s) /\ length (handed limit_moves s) = 4%nat /\
  at_rest (g_net (h_proc s)) /\ dropped (x_u (g_net (h_proc s))) = [] /\ x_lost (g_net (h_proc s)) = [] /\ map fst (x_sent (g_net (h_proc s))) = [0; 0; 1; 1; 1]%nat.
Proof.
  assert (match whole_start here true sconf0 0 0 with
    | Some s0 => (h_qcap s0 <=? 32767) &&
        match checked 20 limit_moves s0 with
        | Some s => forallb (proper_b 20) (handed limit_moves s) && (length (handed limit_moves s) =? 4)%nat && rests (g_net (h_proc s)) &&
            (if list_eq_dec Nat.eq_dec (map fst (x_sent (g_net (h_proc s)))) [0; 0; 1; 1; 1]%nat then true else false)
        | None => false end
    | None => false end = true) as K by (vm_compute; reflexivity).
  destruct (whole_start here true sconf0 0 0) as [s0|] eqn:E0; [|discriminate K]. apply andb_prop in K as (K0 & K).
  destruct (checked 20 limit_moves s0) as [s|] eqn:E1; [|discriminate K]. apply andb_prop in K as (K & K4). apply andb_prop in K as (K & K3). apply andb_prop in K as (K1 & K2).
  assert (Forall random_keys limit_moves) as Rk.
  { repeat (apply Forall_cons; [try exact I; try (apply keys_random; reflexivity); try (unfold random_keys, in_int64; lia)|]). apply Forall_nil. }
  destruct (checked_ok _ _ _ _ E1 Rk) as (A1 & A2 & A3 & A4). destruct (rests_ok _ K3) as (A5 & A6 & A7).
  exists s0, s. split; [reflexivity|]. split; [lia|]. split; [exact A1|]. split; [exact A2|]. split; [exact A3|]. split; [exact A4|].
  split; [apply Forall_forall; intros p I; apply proper_ok; rewrite forallb_forall in K1; auto|]. split; [apply Nat.eqb_eq, K2|]. split; [exact A5|]. split; [exact A6|]. split; [exact A7|].
  destruct (list_eq_dec _ _ _) as [->|N]; [reflexivity|discriminate K4].
Qed.

Print Assumptions C87_whole_agent_no_invention.
Print Assumptions C87_whole_agent_nothing_missing.
