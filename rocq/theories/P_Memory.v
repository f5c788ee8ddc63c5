(** C92: what the agent keeps stays within fixed bounds, and C31 for a channel without room. *)
From Verif Require Import GoInt M_OutX M_Steps M_Packs M_Access M_Cache M_Text M_Hash M_Conf M_Udp M_Net M_NetLimit M_Redirect M_Agent M_Trace M_Meter M_Profile M_Tasks M_Whole
  L_Cache L_Trace L_Text L_TraceRel L_TraceInv L_Redirect S_Tasks S_Whole L_Whole P_Whole S_Memory L_Memory P_Trace.
From Coq Require Import Permutation ZifyBool.

(** ** The invariant *)
Definition lean (qcap : Z) (p : M_Agent.process) : Prop := loaded qcap (x_u (g_net p)) /\ neat_texts (g_text p).
Lemma lean_text qcap k name p p' h : lean qcap p -> proc_text_send qcap k name p = Some (p', h) -> lean qcap p'.
Proof.
  intros (A & B). unfold proc_text_send. destruct name as [|x l]; [intros [= <- <-]; split; assumption|]. destruct (hash_string (x :: l)) as [h0|]; [|discriminate].
  destruct (lra_contains _ _); [intros [= <- <-]; split; assumption|]. cbv zeta. intros [= <- <-]. split; cbn [g_net g_text net_add_pack x_u]; [apply loaded_add, A|].
  intros k'. unfold t_add_pack. cbn [t_cache]. apply texts_add_key, B.
Qed.
Lemma lean_direct qcap max pk q p p' : lean qcap p -> proc_direct max pk q p = Some p' -> lean qcap p'.
Proof. intros (A & B). unfold proc_direct, net_direct. destruct (write_buffer _ _ _); [|discriminate]. intros [= <-]. split; assumption. Qed.
Lemma lean_refresh qcap w p p' : lean qcap p -> proc_refresh qcap w p = Some p' -> lean qcap p'.
Proof.
  intros L. unfold proc_refresh. destruct (refresh_conf w (g_conf p)) as [[c ch]|]; [|discriminate]. cbv zeta. destruct (ch && g_observer p).
  - destruct (proc_text_send _ _ _ _) as [[p2 h]|] eqn:E; [|discriminate]. intros [= <-]. eapply lean_text; [|exact E]. exact L.
  - intros [= <-]. exact L.
Qed.
Lemma lean_begin qcap p p' : lean qcap p -> proc_begin qcap p = Some p' -> lean qcap p'.
Proof.
  intros L. unfold proc_begin. destruct (g_half p); [intros [= <-]; exact L|]. cbv zeta. destruct (proc_text_send _ _ _ _) as [[p2 h]|] eqn:E; [|discriminate]. intros [= <-].
  apply (lean_text _ _ _ _ _ _ L) in E. exact E.
Qed.
Lemma lean_end qcap max pk p p' : lean qcap p -> proc_end max pk p = Some p' -> lean qcap p'.
Proof.
  intros L. unfold proc_end. destruct (g_half p) as [[nm h]|]; [|intros [= <-]; exact L]. cbv zeta. destruct (_ && _); [discriminate|]. unfold net_direct. destruct (write_buffer _ _ _); [|discriminate].
  intros [= <-]. exact L.
Qed.
Lemma lean_all qcap max pk ps : forall p p', lean qcap p -> send_all max pk ps p = Some p' -> lean qcap p'.
Proof.
  induction ps as [|q ps IH]; intros p p' L; cbn [send_all]; [intros [= <-]; exact L|]. destruct (proc_direct _ _ _ _) as [p1|] eqn:E; [|discriminate]. intros R.
  eapply IH; [|exact R]. eapply lean_direct; eassumption.
Qed.
Lemma put_u cd n : x_u (put_datagram cd n) = x_u n.
Proof. unfold put_datagram. destruct (usable n (fst cd)); reflexivity. Qed.
Lemma ws_u n : x_u (net_write_sender n) = x_u n.
Proof. unfold net_write_sender. destruct (x_uout n); [reflexivity|]. rewrite put_u. reflexivity. Qed.
Lemma wj_u i n : x_u (net_write_job i n) = x_u n.
Proof. unfold net_write_job. destruct (nth_error (x_jobs n) i) as [[|cd more]|]; try reflexivity. rewrite put_u. reflexivity. Qed.
Lemma reload_u conn r : x_u (l_net (rd_net (reload_step conn r))) = x_u (l_net (rd_net r)).
Proof.
  unfold reload_step. cbv zeta. destruct (rd_pc r); try reflexivity. cbn [rd_net]. destruct (nth_error _ _) as [cl|]; [|reflexivity]. destruct (cl_conn cl); [|reflexivity].
  cbn [l_move l_net]. unfold net_close. destruct (_ <? _)%nat; [|reflexivity]. destruct (nth_error _ _); reflexivity.
Qed.

(** the sockets: as in L_Redirect.v *)
Definition tidy (pc : rpc) (l : list client) : Prop :=
  l <> [] /\ match pc with ClosePrev prev => (S prev = pred (length l))%nat /\ closed_before prev l | _ => closed_before (pred (length l)) l end.
Lemma tidy_reload conn s : tidy (h_pc s) (clients (h_proc s)) -> let s' := put_view (reload_step conn (M_Whole.view s)) s in tidy (h_pc s') (clients (h_proc s')).
Proof.
  intros (A & K) s'. set (r := mkRd (target_of (settings_of s)) (h_vars s) (map (fun _ => (@nil byte, 0)) (clients (h_proc s))) (mkL (g_net (h_proc s)) (map (fun _ => 0) (clients (h_proc s)))) (h_pc s)).
  unfold s'. clear s'. unfold reload_step, M_Whole.view, put_view, clients in *. cbv zeta. cbn [rd_pc rd_vars rd_set rd_net rd_addr].
  destruct (h_pc s) eqn:Ep; cbn [rd_pc rd_vars rd_set rd_net rd_addr l_net l_max h_proc h_pc proc_net g_net].
  - destruct (beqb _ _); split; assumption.
  - destruct (_ =? _); split; assumption.
  - destruct (_ =? _); split; assumption.
  - split; assumption.
  - split; assumption.
  - split; assumption.
  - split; assumption.
  - cbn [l_reload l_net net_reload x_clients]. split; [destruct (x_clients _); discriminate|]. unfold current. rewrite app_length. cbn [length].
    destruct (x_clients (g_net (h_proc s))) as [|y l] eqn:E; [congruence|]. cbn [length pred] in *. split; [lia|].
    intros c cl Hc Hn Hk. apply (K c cl Hc); [|exact Hk]. rewrite nth_error_app1 in Hn by (cbn [length]; lia). exact Hn.
  - destruct K as (Hp & K). destruct (nth_error (x_clients (g_net (h_proc s))) prev) as [cl|] eqn:E; [|apply nth_error_None in E; lia]. destruct (cl_conn cl) eqn:Hcl.
    + cbn [l_move l_net]. rewrite close_clients, E. unfold current. destruct (Nat.ltb_spec prev (pred (length (x_clients (g_net (h_proc s)))))) as [Hlt|Hge]; [|lia].
      split; [destruct (firstn prev _); discriminate|]. rewrite len_put by lia. rewrite <- Hp. intros c cl' Hc Hn Hk. rewrite nth_put in Hn by lia. destruct (Nat.eqb_spec c prev) as [->|Nc].
      * injection Hn as <-. reflexivity.
      * apply (K c cl'); [lia|exact Hn|exact Hk].
    + split; [exact A|]. cbn [l_net]. rewrite <- Hp. intros c cl' Hc Hn Hk. destruct (Nat.eq_dec c prev) as [->|Nc]; [congruence|]. apply (K c cl'); [lia|exact Hn|exact Hk].
Qed.
Definition is_open (cl : client) : bool := cl_conn cl && cl_open cl.
Lemma closed_filter n l : closed_before n l -> (length (filter is_open l) <= length l - n)%nat.
Proof.
  revert l. induction n as [|n IH]; intros l H; [rewrite Nat.sub_0_r; clear H; induction l as [|y l IHl]; [apply le_n|cbn [filter]; destruct (is_open y); cbn [length]; lia]|]. destruct l as [|y l]; [cbn; lia|]. cbn [filter length].
  assert (is_open y = false) as ->. { unfold is_open. destruct (cl_conn y) eqn:E; [|reflexivity]. cbn [andb]. apply (H 0%nat y ltac:(lia) eq_refl E). }
  apply IH. intros c cl Hc. apply (H (S c) cl). lia.
Qed.
Lemma tidy_sockets s : tidy (h_pc s) (clients (h_proc s)) -> (open_sockets s <= 2)%nat /\ (match h_pc s with Publish _ | ClosePrev _ => False | _ => True end -> (open_sockets s <= 1)%nat).
Proof.
  intros (A & K). unfold open_sockets, clients in *. change (fun cl => cl_conn cl && cl_open cl) with is_open. set (l := x_clients (g_net (h_proc s))) in *.
  assert (0 < length l)%nat by (destruct l; [congruence|cbn; lia]).
  destruct (h_pc s) as [| | | | | | |[]|prev]; try (pose proof (closed_filter _ _ K); split; [|intros []]; lia); try (pose proof (closed_filter _ _ K); split; [|intros _]; lia).
  destruct K as (Hp & K). pose proof (closed_filter _ _ K). split; [lia|intros []].
Qed.

Record small (s : whole) : Prop := mkSmall {
  sm_room : 0 <= h_qcap s; sm_lean : lean (h_qcap s) (h_proc s); sm_active : neat 10000 (a_active (w_agent (h_tasks s)));
  sm_tables : tables (h_tasks s) = (301, 301); sm_tidy : tidy (h_pc s) (clients (h_proc s)) }.
Lemma start_small w conn c t0 t1 s : whole_start w conn c t0 t1 = Some s -> small s /\ h_qcap s = cf_SendQueueSize (settings_of s).
Proof.
  unfold whole_start. destruct (proc_refresh 0 w (proc0 conn)) as [p|] eqn:E; [|discriminate]. cbv zeta. destruct (cf_SendQueueSize (c_conf (g_conf p)) <? 0) eqn:Q; [discriminate|]. intros [= <-].
  pose proof (refresh_clients _ _ _ _ E) as C. change (clients (proc0 conn)) with [mkClient conn true] in C.
  split; [|reflexivity]. constructor; cbn [h_qcap h_proc h_tasks h_pc].
  - lia.
  - assert (lean 0 p) as ((A & _) & B).
    { apply (lean_refresh 0 w _ _) in E; [exact E|]. split; [split; cbn; [lia|exact I]|]. intros k. apply neat_new. pose proof (cap_pos k). lia. }
    assert (snd_state (x_u (g_net p)) = Idle) as Id.
    { unfold proc_refresh in E. destruct (refresh_conf w (g_conf (proc0 conn))) as [[c0 ch]|]; [|discriminate E]. cbv zeta in E. change (g_observer (proc0 conn)) with false in E. rewrite andb_false_r in E.
      injection E as <-. reflexivity. }
    split; [|exact B]. split; [lia|]. rewrite Id. exact I.
  - apply neat_new. lia.
  - reflexivity.
  - rewrite C. split; [discriminate|]. intros ? ? H. cbn in H. lia.
Qed.
Lemma step_lean m s s' : whole_step m s = Some s' -> 0 <= h_qcap s -> lean (h_qcap s) (h_proc s) -> lean (h_qcap s') (h_proc s') /\ h_qcap s' = h_qcap s.
Proof.
  intros E Q L. destruct m; cbn [whole_step] in E.
  - destruct (proc_refresh _ _ _) as [p|] eqn:Ep; [|discriminate]. injection E as <-. split; [exact (lean_refresh _ _ _ _ L Ep)|reflexivity].
  - injection E as <-. split; [|reflexivity]. destruct L as (A & B). split; [|exact B]. cbn [h_proc h_qcap put_view proc_net g_net]. rewrite reload_u. exact A.
  - injection E as <-. split; [exact L|reflexivity].
  - destruct (proc_begin _ _) as [p|] eqn:Ep; [|discriminate]. injection E as <-. split; [exact (lean_begin _ _ _ L Ep)|reflexivity].
  - destruct (proc_end _ _ _) as [p|] eqn:Ep; [|discriminate]. injection E as <-. split; [exact (lean_end _ _ _ _ _ L Ep)|reflexivity].
  - destruct (proc_text_send _ _ _ _) as [[p h]|] eqn:Ep; [|discriminate]. injection E as <-. split; [exact (lean_text _ _ _ _ _ _ L Ep)|reflexivity].
  - injection E as <-. split; [|reflexivity]. destruct L as (A & B). split; [exact A|]. apply texts_reset, B.
  - injection E as <-. split; [|reflexivity]. destruct L as (A & B). split; [|exact B]. apply loaded_add, A.
  - destruct (proc_direct _ _ _ _) as [q|] eqn:Ep; [|discriminate]. injection E as <-. split; [exact (lean_direct _ _ _ _ _ _ L Ep)|reflexivity].
  - destruct (l_sender _ _ _) as [l|] eqn:El; [|discriminate]. injection E as <-. split; [|reflexivity]. destruct L as (A & B). split; [|exact B]. cbn [with_proc h_proc h_qcap proc_net g_net].
    unfold l_sender in El. cbv zeta in El. cbn [l_net] in El. destruct (x_uout (g_net (h_proc s))); [|injection El as <-; exact A].
    destruct (sender_step2 _ _ _ _) as [u|] eqn:Eu; [|discriminate El]. injection El as <-. cbn [l_net x_u]. exact (loaded_step _ _ _ _ _ _ Q A Eu).
  - injection E as <-. split; [|reflexivity]. destruct L as (A & B). split; [|exact B]. cbn [with_proc h_proc h_qcap proc_net g_net]. rewrite ws_u. exact A.
  - injection E as <-. split; [|reflexivity]. destruct L as (A & B). split; [|exact B]. cbn [with_proc h_proc h_qcap proc_net g_net]. rewrite wj_u. exact A.
  - destruct (task_step t (h_tasks s)) as [[ps w]|]; [|discriminate]. destruct (send_all _ _ _ _) as [p|] eqn:Ep; [|discriminate]. injection E as <-. split; [exact (lean_all _ _ _ _ _ _ L Ep)|reflexivity].
Qed.
Lemma step_small m s s' : whole_step m s = Some s' -> small s -> small s' /\ h_qcap s' = h_qcap s.
Proof.
  intros E [A B C D T]. destruct (step_lean _ _ _ E A B) as (L & Q). split; [|exact Q]. pose proof (step_tasks _ _ _ E) as St. constructor.
  - rewrite Q. exact A.
  - exact L.
  - destruct m; try (rewrite St; exact C). destruct St as (ps & St). apply task_agent in St as (-> & _). apply neat_run, C.
  - destruct m; try (rewrite St; exact D). destruct St as (ps & St). rewrite (task_tables _ _ _ _ St). exact D.
  - destruct m; try (match type of E with whole_step ?m _ = _ => assert (aim s' = aim s) as Ea by (apply (step_aim m); [exact E|discriminate]) end;
      unfold aim in Ea; injection Ea as _ _ E3 E4; rewrite E3, E4; exact T).
    cbn [whole_step] in E. injection E as <-. apply tidy_reload, T.
Qed.
Lemma run_small ms : forall s s', whole_run ms s = Some s' -> small s -> small s' /\ h_qcap s' = h_qcap s.
Proof.
  induction ms as [|m ms IH]; intros s s' R S; cbn [whole_run] in R; [injection R as <-; auto|]. destruct (whole_step m s) as [s1|] eqn:E; [|discriminate].
  destruct (step_small _ _ _ E S) as (S1 & Q1). destruct (IH _ _ R S1) as (S2 & Q2). split; [exact S2|congruence].
Qed.

(** ** C92 *)
(** whatever is traced, sent, commanded or configured, and in whatever order the goroutines run *)
Theorem C92_bounded w conn c t0 t1 s0 ms s : whole_start w conn c t0 t1 = Some s0 -> whole_run ms s0 = Some s ->
  in_channel s <= cf_SendQueueSize (settings_of s0) /\ in_hand s <= cf_SendQueueSize (settings_of s0) /\
  (forall k, entries_at_most (match k with KObject => 100 | _ => 10000 end) (t_cache (g_text (h_proc s)) k)) /\
  entries_at_most 10000 (a_active (w_agent (h_tasks s))) /\
  buckets s = (301, 301) /\
  (open_sockets s <= 2)%nat.
Proof.
  intros St R. destruct (start_small _ _ _ _ _ _ St) as (S0 & Q0). destruct (run_small _ _ _ R S0) as ([A (L & Tx) C D T] & Q). rewrite Q, Q0 in *. destruct L as (L1 & L2).
  split; [exact L1|]. split. { unfold in_hand. destruct (snd_state _) as [|todo held sz]; [lia|lia]. }
  split. { intros k. apply neat_entries. specialize (Tx k). destruct k; exact Tx. }
  split; [apply neat_entries, C|]. split; [exact D|]. apply tidy_sockets, T.
Qed.
(** between two exchanges of the client there is no second socket *)
Theorem C92_one_socket w conn c t0 t1 s0 ms s : whole_start w conn c t0 t1 = Some s0 -> whole_run ms s0 = Some s ->
  h_pc s = Compare1 -> (open_sockets s <= 1)%nat.
Proof.
  intros St R E. destruct (start_small _ _ _ _ _ _ St) as (S0 & _). destruct (run_small _ _ _ R S0) as ([_ _ _ _ T] & _). apply tidy_sockets; [exact T|]. rewrite E. exact I.
Qed.
(** the steps of one transaction that are kept: fewer than the largest setting of profile_step_max_keep_in_memory_count that was in force when it started or during
    its calls, as long as no call panicked *)
Theorem C92_steps keep0 p0 ops p : new_prof keep0 = Some p0 -> pr_run ops p0 = Some p ->
  exists keep, (keep = keep0 \/ In keep (map (fun eo => e_keep (fst eo)) ops)) /\ (zlen (p_buf p) < keep \/ p_buf p = []).
Proof.
  intros N R. assert (forall ops p0 p ks, pr_run ops p0 = Some p -> In (p_len p0) ks -> zlen (p_buf p0) < p_len p0 \/ p_buf p0 = [] ->
    In (p_len p) (ks ++ map (fun eo => e_keep (fst eo)) ops) /\ (zlen (p_buf p) < p_len p \/ p_buf p = [])) as G.
  { clear. assert (forall e l p, exists q, (send_groups (e_bulk e) l = None /\ send_profile e l p = None) \/ (send_profile e l p = Some q /\ p_len q = p_len p /\ p_buf q = p_buf p)) as Sp.
    { intros e l p. unfold send_profile. destruct (send_groups (e_bulk e) l) as [gs|]; [|exists p; auto]. eexists. right. split; [reflexivity|]. revert p. induction gs as [|g gs IH]; intros p; [auto|].
      cbn [fold_left]. destruct (IH (send_profile0 e g p)) as (-> & ->). destruct g; auto. }
    assert (forall e a p q, M_Profile.process e a p = Some q -> (zlen (p_buf p) < p_len p \/ p_buf p = []) -> (p_len q = p_len p \/ p_len q = e_keep e) /\ (zlen (p_buf q) < p_len q \/ p_buf q = [])) as Pr.
    { intros e a p q. unfold M_Profile.process. destruct (Z.leb_spec (p_len p) (zlen (p_buf p))); [discriminate|]. cbv zeta. destruct (Z.leb_spec (p_len p) (zlen (p_buf p ++ [a]))) as [H0|H0].
      - destruct (e_keep e <? 0); [discriminate|]. intros E _.
        destruct (Sp e (p_buf p ++ [a]) (mkProf (p_heap p) (e_keep e) [] (p_cur p) (p_par p) (p_count p) (p_size p) (p_sent p))) as (q' & [(_ & N)|(E' & L & B)]); [congruence|].
        rewrite E' in E. injection E as <-. split; [right; exact L|right; exact B].
      - intros [= <-] _. split; [left; reflexivity|left; cbn [p_buf p_len]; exact H0]. }
    induction ops as [|[e o] ops IH]; intros p0 p ks R I H; cbn [pr_run] in R; [injection R as <-; rewrite app_nil_r; auto|].
    destruct (pr_step (e, o) p0) as [p1|] eqn:E; [|discriminate]. cbn [map fst].
    assert ((p_len p1 = p_len p0 \/ p_len p1 = e_keep e) /\ (zlen (p_buf p1) < p_len p1 \/ p_buf p1 = [])) as (L1 & H1).
    { destruct o as [st|a st|st]; cbn [pr_step snd fst] in E.
      - injection E as <-. split; [left; reflexivity|exact H].
      - unfold pop in E. destruct (deref _ _); [|injection E as <-; split; [left; reflexivity|exact H]]. apply Pr in E; [exact E|exact H].
      - unfold add in E. apply Pr in E; [exact E|exact H]. }
    destruct (IH p1 p (ks ++ [e_keep e]) R) as (A & B); [|exact H1|].
    { apply in_or_app. destruct L1 as [-> | ->]; [left; exact I|right; left; reflexivity]. }
    split; [|exact B]. rewrite <- app_assoc in A. exact A. }
  unfold new_prof in N. destruct (keep0 <? 0); [discriminate|]. injection N as <-. destruct (G ops _ p [keep0] R) as (A & B); [left; reflexivity|right; reflexivity|].
  exists (p_len p). split; [|exact B]. apply in_app_or in A as [[A|[]]|A]; [left; symmetry; exact A|right; exact A].
Qed.

(** a case: the history of C91 ends with texts remembered, a service active and one socket *)
Example C92_case : exists s0 s, whole_start demo_world true sconf0 90 90 = Some s0 /\ whole_run demo_whole s0 = Some s /\
  in_channel s <= 3000 /\ (open_sockets s <= 2)%nat.
Proof.
  destruct C91_case as (s0 & s & St & _ & Si & _ & R). exists s0, s. split; [exact St|]. split; [exact R|]. destruct (C92_bounded _ _ _ _ _ _ _ _ St R) as (A & _ & _ & _ & _ & B). split; [|exact B].
  destruct (C91_default_settings_survive demo_world true sconf0 90 90 ltac:(lia) ltac:(lia) demo_silent) as (s1 & St1 & _). 
  assert (quiet_conf (settings_of s0)) as (_ & _ & Hq).
  { unfold whole_start in St. destruct (proc_refresh 0 demo_world (proc0 true)) as [p|] eqn:E; [|discriminate St]. cbv zeta in St. destruct (_ <? 0); [discriminate St|]. injection St as <-.
    unfold settings_of. cbn [h_proc]. eapply refresh_quiet; [exact demo_silent|exact E|]. repeat split. }
  rewrite Hq in A. exact A.
Qed.
Example C92_sizes : exists qs p, new_prof 2 = Some p /\ pr_run qs p <> None /\ exists q, pr_run qs p = Some q /\ zlen (p_buf q) = 1 /\ zlen (p_sent q) = 1.
Proof.
  set (e := mkEnv 2 10 7 1 2 3). exists [(e, OAdd (SMessage (mk_single 0 0 0) (of_string "a"))); (e, OAdd (SMessage (mk_single 0 0 0) (of_string "b"))); (e, OAdd (SMessage (mk_single 0 0 0) (of_string "c")))].
  eexists. split; [reflexivity|]. split; [vm_compute; discriminate|]. eexists. split; [vm_compute; reflexivity|]. split; reflexivity.
Qed.

(** ** C31 with a channel of size 0 *)
(** with send_queue_size = 0 every pack given to the queue is lost: the channel has no buffer, and the sender takes from it only when it has seen something in it *)
Theorem C31_no_room_accepts_none w conn c t0 t1 s0 ms s : whole_start w conn c t0 t1 = Some s0 -> cf_SendQueueSize (settings_of s0) = 0 -> whole_run ms s0 = Some s ->
  queue (x_u (g_net (h_proc s))) = [] /\ accepted (x_u (g_net (h_proc s))) = [].
Proof.
  intros St Q0 R. destruct (start_small _ _ _ _ _ _ St) as (S0 & Q1). rewrite Q0 in Q1.
  assert (accepted (x_u (g_net (h_proc s0))) = []) as A0.
  { unfold whole_start in St. destruct (proc_refresh 0 w (proc0 conn)) as [p|] eqn:E; [|discriminate]. cbv zeta in St. destruct (_ <? 0); [discriminate|]. injection St as <-. cbn [h_proc].
    unfold proc_refresh in E. destruct (refresh_conf w (g_conf (proc0 conn))) as [[c0 ch]|]; [|discriminate E]. cbv zeta in E. change (g_observer (proc0 conn)) with false in E. rewrite andb_false_r in E.
    injection E as <-. reflexivity. }
  assert (forall u, loaded 0 u -> forall b, accepted (add_buffer 0 b u) = accepted u) as Ad.
  { intros u (L & _) b. unfold add_buffer. destruct (Z.ltb_spec (zlen (queue u)) 0); [pose proof (zlen_nonneg (queue u)); lia|reflexivity]. }
  assert (forall ms s s', whole_run ms s = Some s' -> small s -> h_qcap s = 0 -> accepted (x_u (g_net (h_proc s'))) = accepted (x_u (g_net (h_proc s)))) as G.
  { clear - Ad. assert (forall k name p p' h, lean 0 p -> proc_text_send 0 k name p = Some (p', h) -> accepted (x_u (g_net p')) = accepted (x_u (g_net p))) as At.
    { intros k name p p' h (L & _). unfold proc_text_send. destruct name as [|x l]; [intros [= <- <-]; reflexivity|]. destruct (hash_string (x :: l)) as [h0|]; [|discriminate].
      destruct (lra_contains _ _); [intros [= <- <-]; reflexivity|]. cbv zeta. intros [= <- <-]. cbn [g_net net_add_pack x_u]. apply Ad, L. }
    assert (forall max pk q p p', proc_direct max pk q p = Some p' -> x_u (g_net p') = x_u (g_net p)) as Dt.
    { intros max pk q p p'. unfold proc_direct, net_direct. destruct (write_buffer _ _ _); [|discriminate]. intros [= <-]. reflexivity. }
    induction ms as [|m ms IH]; intros s s' R S Q; cbn [whole_run] in R; [injection R as <-; reflexivity|]. destruct (whole_step m s) as [s1|] eqn:E; [|discriminate].
    destruct (step_small _ _ _ E S) as (S1 & Q1). rewrite (IH _ _ R S1) by congruence. clear R IH. pose proof (sm_lean _ S) as L. rewrite Q in L.
    destruct m; cbn [whole_step] in E; rewrite ?Q in E.
    - destruct (proc_refresh _ _ _) as [p|] eqn:Ep; [|discriminate]. injection E as <-. cbn [with_proc h_proc]. unfold proc_refresh in Ep. destruct (refresh_conf w (g_conf (h_proc s))) as [[c ch]|]; [|discriminate].
      cbv zeta in Ep. destruct (ch && g_observer (h_proc s)); [|injection Ep as <-; reflexivity]. destruct (proc_text_send _ _ _ _) as [[p2 h]|] eqn:Et; [|discriminate]. injection Ep as <-.
      apply At in Et; [exact Et|exact L].
    - injection E as <-. cbn [put_view h_proc proc_net g_net]. rewrite reload_u. reflexivity.
    - injection E as <-. reflexivity.
    - destruct (proc_begin _ _) as [p|] eqn:Ep; [|discriminate]. injection E as <-. cbn [with_proc h_proc]. unfold proc_begin in Ep. destruct (g_half (h_proc s)); [injection Ep as <-; reflexivity|]. cbv zeta in Ep.
      destruct (proc_text_send _ _ _ _) as [[p2 h]|] eqn:Et; [|discriminate]. injection Ep as <-. apply At in Et; [exact Et|exact L].
    - destruct (proc_end _ _ _) as [p|] eqn:Ep; [|discriminate]. injection E as <-. cbn [with_proc h_proc]. unfold proc_end in Ep. destruct (g_half (h_proc s)) as [[nm h]|]; [|injection Ep as <-; reflexivity].
      cbv zeta in Ep. destruct (_ && _) in Ep; [discriminate|]. unfold net_direct in Ep. destruct (write_buffer _ _ _); [|discriminate]. injection Ep as <-. reflexivity.
    - destruct (proc_text_send _ _ _ _) as [[p h]|] eqn:Ep; [|discriminate]. injection E as <-. cbn [with_proc h_proc fst]. apply At in Ep; [exact Ep|exact L].
    - injection E as <-. reflexivity.
    - injection E as <-. cbn [with_proc h_proc proc_net g_net net_add_pack x_u]. apply Ad, L.
    - destruct (proc_direct _ _ _ _) as [q|] eqn:Ep; [|discriminate]. injection E as <-. cbn [with_proc h_proc]. rewrite (Dt _ _ _ _ _ Ep). reflexivity.
    - destruct (l_sender _ _ _) as [l|] eqn:El; [|discriminate]. injection E as <-. cbn [with_proc h_proc proc_net g_net].
      unfold l_sender in El. cbv zeta in El. cbn [l_net] in El. destruct (x_uout (g_net (h_proc s))); [|injection El as <-; reflexivity].
      destruct (sender_step2 _ _ _ _) as [u|] eqn:Eu; [|discriminate El]. injection El as <-. cbn [l_net x_u]. unfold sender_step2 in Eu.
      destruct (snd_state (x_u (g_net (h_proc s)))) as [|[|n] held size].
      + destruct (queue (x_u (g_net (h_proc s)))) as [|b [|b2 q]]; [injection Eu as <-; reflexivity| |injection Eu as <-; reflexivity]. destruct (write_buffer _ _ _); [|discriminate Eu]. injection Eu as <-. reflexivity.
      + destruct (write_buffer_list _ _ _); [|discriminate Eu]. injection Eu as <-. reflexivity.
      + destruct (queue (x_u (g_net (h_proc s)))); [injection Eu as <-; reflexivity|]. destruct (_ <=? _); [|injection Eu as <-; reflexivity]. destruct (send_list _ _ _); [|discriminate Eu]. injection Eu as <-. reflexivity.
    - injection E as <-. cbn [with_proc h_proc proc_net g_net]. rewrite ws_u. reflexivity.
    - injection E as <-. cbn [with_proc h_proc proc_net g_net]. rewrite wj_u. reflexivity.
    - destruct (task_step t (h_tasks s)) as [[ps w]|]; [|discriminate]. destruct (send_all _ _ _ _) as [p|] eqn:Ep; [|discriminate]. injection E as <-. cbn [h_proc].
      enough (x_u (g_net p) = x_u (g_net (h_proc s))) as -> by reflexivity. clear - Ep Dt. revert Ep. generalize (h_proc s). revert p. induction ps as [|q ps IH]; intros p p0; cbn [send_all]; [intros [= <-]; reflexivity|].
      destruct (proc_direct _ _ _ _) as [p1|] eqn:Ed; [|discriminate]. intros R. rewrite (IH _ _ R). apply (Dt _ _ _ _ _ Ed). }
  destruct (run_small _ _ _ R S0) as ([_ ((L & _) & _) _ _ _] & Q2). rewrite Q2, Q1 in L. split; [apply zlen_0_nil; pose proof (zlen_nonneg (queue (x_u (g_net (h_proc s))))); lia|].
  rewrite (G _ _ _ R S0 Q1). exact A0.
Qed.

Print Assumptions C92_bounded.
Print Assumptions C92_one_socket.
Print Assumptions C92_steps.
Print Assumptions C31_no_room_accepts_none.
