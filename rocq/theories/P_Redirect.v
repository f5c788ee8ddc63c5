(** C90: changing the collector's address, port or the datagram limit while the agent runs. *)
From Verif Require Import GoInt M_OutX M_Packs M_Udp M_Net M_NetLimit M_Redirect S_NetLimit S_Redirect L_Redirect P_NetLimit P_Net.

Lemma last_more {A} (x d : A) l m : last (x :: l ++ m) d = last (last (x :: l) d :: m) d.
Proof.
  revert x. induction l as [|y l IH]; intros x; [reflexivity|]. change (last (x :: (y :: l) ++ m) d) with (last (y :: l ++ m) d). rewrite IH. reflexivity.
Qed.
Lemma configured_app t a b : configured t (a ++ b) = configured (configured t a) b.
Proof. unfold configured, ips, ports, limits. cbn [to_ip to_port to_max]. rewrite !flat_map_app, !last_more. reflexivity. Qed.
Lemma run_configured qcap ms : forall s s', redir_run qcap ms s = Some s' -> rd_set s' = configured (rd_set s) ms.
Proof.
  induction ms as [|m ms IH]; intros s s'; cbn [redir_run].
  - intros [= <-]. destruct (rd_set s). reflexivity.
  - destruct (redir_move qcap m s) as [s1|] eqn:E; [|discriminate]. intros R. rewrite (IH _ _ R). change (m :: ms) with ([m] ++ ms). rewrite configured_app. f_equal.
    apply other_moves in E. assert (forall t, configured t [m] = match m with Assign w => configured t [Assign w] | _ => t end) as K by (intros t; destruct m; destruct t; reflexivity).
    rewrite K. destruct m; try apply E.
    + destruct E as (-> & _). destruct w; destruct (rd_set s); reflexivity.
    + subst s1. unfold reload_step. cbv zeta. destruct (rd_pc s); reflexivity.
Qed.
Lemma run0_configured conn qcap t ms s : redir_run qcap ms (redir0 conn t) = Some s -> rd_set s = configured t ms.
Proof. intros R. apply (run_configured _ _ _ _ R). Qed.

(** Whatever happened before, however torn the settings were seen: once they are left alone, the following goroutine needs at most 13 moves, which are less than
    two turns of its loop, until everything that is sent goes to the address and port in force, with the limit in force; and so it stays. *)
Theorem C90_follows conn qcap t ms ms' s s' : redir_run qcap ms (redir0 conn t) = Some s -> unchanged ms' -> (13 <= reloads ms')%nat ->
  redir_run qcap ms' s = Some s' -> points_to s' (configured t ms).
Proof.
  intros R U L R'. rewrite <- (run0_configured _ _ _ _ _ R). pose proof (run_follows _ _ _ _ R (follows0 conn t)) as F.
  pose proof (run_within _ _ _ _ _ U R' (within_any s F)) as W. replace (13 - reloads ms')%nat with 0%nat in W by lia. apply within_0 in W. destruct W as (F' & V & P).
  assert (rd_set s' = rd_set s) as E.
  { clear - U R'. revert s R'. induction ms' as [|m ms IH]; intros s; cbn [redir_run]; [intros [= <-]; reflexivity|].
    destruct (redir_move qcap m s) as [s1|] eqn:E; [|discriminate]. intros R. inversion U as [|? ? Hm U']; subst. rewrite (IH U' _ R). apply other_moves in E.
    destruct m; try contradiction; try apply E. subst s1. unfold reload_step. cbv zeta. destruct (rd_pc s); reflexivity. }
  rewrite <- E, <- V. apply (fo_vars _ F'). unfold published. destruct (rd_pc s'); try contradiction; exact I.
Qed.

(** While the settings are what the sender has, the goroutine makes no new sockets: it changes nothing, however often it runs. *)
Theorem C90_no_churn conn qcap t ms ms' s s' : redir_run qcap ms (redir0 conn t) = Some s -> rd_pc s = Compare1 -> points_to s (configured t ms) -> unchanged ms' ->
  redir_run qcap ms' s = Some s' ->
  length (x_clients (l_net (rd_net s'))) = length (x_clients (l_net (rd_net s))) /\ rd_addr s' = rd_addr s /\ l_max (rd_net s') = l_max (rd_net s) /\ points_to s' (configured t ms).
Proof.
  intros R P. rewrite <- (run0_configured _ _ _ _ _ R). intros Pt U R'. pose proof (run_follows _ _ _ _ R (follows0 conn t)) as F.
  assert (rd_vars s = rd_set s) as V.
  { pose proof (fo_vars _ F) as Q. unfold published in Q. rewrite P in Q. specialize (Q I). destruct Q as (Q1 & Q2), Pt as (P1 & P2).
    rewrite P1 in Q1. rewrite P2 in Q2. injection Q1 as A B. injection Q2 as C. destruct (rd_vars s), (rd_set s). cbn in *. congruence. }
  assert (settled s) as W by (split; [exact F|split; [exact V|rewrite P; exact I]]).
  destruct (run_settled _ _ _ _ U R' W) as (W' & L & A & M & T). fold (cls s') (cls s). repeat (split; [assumption|]).
  rewrite <- T. destruct W' as (F' & V' & P'). rewrite <- V'. apply (fo_vars _ F'). unfold published. destruct (rd_pc s'); try contradiction; exact I.
Qed.

(** The sockets: the one in use is open; the others are closed, except that the one before it is closed last thing in the turn that replaced it. *)
Theorem C90_sockets conn qcap t ms s : redir_run qcap ms (redir0 conn t) = Some s ->
  let cs := x_clients (l_net (rd_net s)) in let last := pred (length cs) in
  (exists cl, nth_error cs last = Some cl /\ cl_open cl = true) /\
  (forall c cl, nth_error cs c = Some cl -> cl_conn cl = true -> cl_open cl = true -> c = last \/ (S c = last /\ exists prev, rd_pc s = ClosePrev prev)).
Proof.
  intros R. pose proof (run_follows _ _ _ _ R (follows0 conn t)) as F. cbv zeta. fold (cls s). split; [apply F|]. intros c cl E K O.
  assert (c < length (cls s))%nat as L by (apply nth_error_Some; congruence). pose proof (fo_closed _ F) as C.
  destruct (Nat.eq_dec c (pred (length (cls s)))) as [->|N]; [left; reflexivity|].
  destruct (rd_pc s) eqn:P; try (exfalso; pose proof (C c cl ltac:(lia) E K); congruence).
  destruct C as (C1 & C2). right. destruct (Nat.eq_dec c prev) as [->|N2]; [split; [exact C1|eauto]|]. exfalso. pose proof (C2 c cl ltac:(lia) E K). congruence.
Qed.

(* ------------------------------------------------------------------ *)
(** ** Datagrams go where they were meant to go *)
Definition placed (n : nat) (s : netsys) : Prop :=
  Forall (fun cd => (fst cd < n)%nat) (x_uout s) /\ Forall (Forall (fun cd => (fst cd < n)%nat)) (x_jobs s) /\ Forall (fun cd : nat * bytes => (fst cd < n)%nat) (x_sent s).
Lemma placed_more n m s : (n <= m)%nat -> placed n s -> placed m s.
Proof.
  intros H (A & B & C). repeat split.
  - eapply Forall_impl; [|exact A]. cbn. lia.
  - eapply Forall_impl; [|exact B]. intros l Hl. eapply Forall_impl; [|exact Hl]. cbn. lia.
  - eapply Forall_impl; [|exact C]. cbn. lia.
Qed.
Lemma placed_pairs (n c : nat) (ds : list bytes) : (c < n)%nat -> Forall (fun cd => (fst cd < n)%nat) (map (pair c) ds).
Proof. intros H. apply Forall_map, Forall_forall. intros d _. exact H. Qed.
Lemma placed_put n cd s : (fst cd < n)%nat -> placed n s -> placed n (put_datagram cd s).
Proof. intros H (A & B & C). unfold put_datagram. destruct (usable s (fst cd)); cbn; repeat split; try assumption. apply Forall_app. split; [exact C|constructor; [exact H|constructor]]. Qed.

(** all values come from the settings *)
Record provenance (I : list gostring) (P M : list Z) (s : redir) : Prop := {
  pr_set : In (to_ip (rd_set s)) I /\ In (to_port (rd_set s)) P /\ In (to_max (rd_set s)) M;
  pr_vars : In (to_ip (rd_vars s)) I /\ In (to_port (rd_vars s)) P /\ In (to_max (rd_vars s)) M;
  pr_addr : Forall (fun a => In (fst a) I /\ In (snd a) P) (rd_addr s);
  pr_max : Forall (fun m => In m M) (l_max (rd_net s));
  pr_placed : placed (length (rd_addr s)) (l_net (rd_net s)) }.
Lemma move_provenance qcap I P M m s s' : redir_move qcap m s = Some s' -> follows s ->
  (forall w, m = Assign w -> match w with SetIp x => In x I | SetPort x => In x P | SetMax x => In x M end) -> provenance I P M s -> provenance I P M s'.
Proof.
  intros E F W [(S1 & S2 & S3) (V1 & V2 & V3) A Mx Pl]. pose proof (other_moves _ _ _ _ E) as O.
  assert (current (l_net (rd_net s)) < length (rd_addr s))%nat as Hc.
  { rewrite (fo_addr _ F). unfold current. fold (cls s). pose proof (fo_some _ F). destruct (cls s); [congruence|cbn; lia]. }
  destruct m.
  - destruct O as (E1 & E2 & E3 & E4 & E5). specialize (W w eq_refl). constructor; rewrite ?E2, ?E3, ?E5; auto. rewrite E1. destruct w; cbn; auto.
  - subst s'. destruct s as [t v ad n pc]. unfold reload_step. cbv zeta. cbn [rd_set rd_vars rd_addr rd_net rd_pc] in *.
    destruct pc; try (constructor; cbn; auto; fail).
    + constructor; cbn [rd_set rd_vars rd_addr rd_net l_reload l_max l_net]; auto.
      * apply Forall_app. split; [exact A|constructor; [auto|constructor]].
      * apply Forall_app. split; [exact Mx|constructor; [auto|constructor]].
      * rewrite app_length. apply (placed_more (length ad)); [cbn; lia|]. exact Pl.
    + constructor; cbn [rd_set rd_vars rd_addr rd_net]; auto.
      * destruct (nth_error _ _) as [cl|]; [|exact Mx]. destruct (cl_conn cl); exact Mx.
      * destruct (nth_error _ _) as [cl|]; [|exact Pl]. destruct (cl_conn cl); [|exact Pl]. cbn [l_move l_net]. unfold net_close.
        destruct (_ <? _)%nat; [|exact Pl]. destruct (nth_error _ _); exact Pl.
  - destruct O as (E1 & E2 & E3 & _ & _ & E6). constructor; rewrite ?E1, ?E2, ?E3, ?E6; auto. cbn [redir_move] in E. injection E as <-. exact Pl.
  - destruct O as (E1 & E2 & E3 & _ & _ & E6). constructor; rewrite ?E1, ?E2, ?E3, ?E6; auto. cbn [redir_move] in E. unfold l_direct, net_direct in E.
    destruct (write_buffer _ _ _) as [ds|]; [|discriminate]. injection E as <-. destruct Pl as (P1 & P2 & P3). repeat split; cbn; try assumption.
    apply Forall_app. split; [exact P2|constructor; [apply placed_pairs, Hc|constructor]].
  - destruct O as (E1 & E2 & E3 & _ & _ & E6). constructor; rewrite ?E1, ?E2, ?E3, ?E6; auto. cbn [redir_move] in E. unfold l_sender in E. cbv zeta in E.
    destruct Pl as (P1 & P2 & P3). destruct (x_uout (l_net (rd_net s))) as [|cd more] eqn:Eu.
    + destruct (sender_step2 _ _ _ _) as [u|]; [|discriminate]. injection E as <-. repeat split; cbn; try assumption. apply placed_pairs, Hc.
    + injection E as <-. repeat split; cbn; try assumption. rewrite Eu. exact P1.
  - destruct O as (E1 & E2 & E3 & _ & _ & E6). constructor; rewrite ?E1, ?E2, ?E3, ?E6; auto. cbn [redir_move] in E. injection E as <-. cbn [with_net rd_net l_move l_net].
    unfold net_write_sender. destruct Pl as (P1 & P2 & P3). destruct (x_uout (l_net (rd_net s))) as [|cd more] eqn:Eu; [split; [rewrite Eu; constructor|auto]|].
    inversion P1; subst. apply placed_put; [assumption|]. repeat split; assumption.
  - destruct O as (E1 & E2 & E3 & _ & _ & E6). constructor; rewrite ?E1, ?E2, ?E3, ?E6; auto. cbn [redir_move] in E. injection E as <-. cbn [with_net rd_net l_move l_net].
    unfold net_write_job. destruct Pl as (P1 & P2 & P3). destruct (nth_error (x_jobs (l_net (rd_net s))) i) as [[|cd more]|] eqn:Ej; [repeat split; assumption| |repeat split; assumption].
    assert (Forall (fun cd => (fst cd < length (rd_addr s))%nat) (cd :: more)) as Q by (rewrite Forall_forall in P2; apply P2, (nth_error_In _ _ Ej)). inversion Q; subst.
    apply placed_put; [assumption|]. repeat split; cbn [x_uout x_jobs x_sent]; try assumption. rewrite <- (firstn_skipn i (x_jobs (l_net (rd_net s)))) in P2. apply Forall_app in P2 as (Pa & Pb).
    apply Forall_app. split; [exact Pa|]. constructor; [assumption|]. assert (skipn i (x_jobs (l_net (rd_net s))) <> []) as N.
    { intros N. assert (i < length (x_jobs (l_net (rd_net s))))%nat by (apply nth_error_Some; congruence). apply (f_equal (@length _)) in N. rewrite skipn_length in N. cbn in N. lia. }
    assert (skipn (S i) (x_jobs (l_net (rd_net s))) = tl (skipn i (x_jobs (l_net (rd_net s))))) as ->.
    { clear. generalize (x_jobs (l_net (rd_net s))). intros l. revert l. induction i as [|i IH]; intros [|x l]; try reflexivity. exact (IH l). }
    destruct (skipn i _); [congruence|]. inversion Pb; assumption.
Qed.
Lemma run_provenance qcap I P M ms : forall s s', redir_run qcap ms s = Some s' -> follows s ->
  (forall w, In (Assign w) ms -> match w with SetIp x => In x I | SetPort x => In x P | SetMax x => In x M end) -> provenance I P M s -> provenance I P M s'.
Proof.
  induction ms as [|m ms IH]; intros s s'; cbn [redir_run]; [intros [= <-]; auto|]. destruct (redir_move qcap m s) as [s1|] eqn:E; [|discriminate]. intros R F W K.
  apply (IH _ _ R); [eapply move_follows; eassumption|intros w Hw; apply W; right; exact Hw|]. eapply move_provenance; [exact E|exact F| |exact K]. intros w ->. apply W. left. reflexivity.
Qed.
Lemma run0_provenance conn qcap t ms s : redir_run qcap ms (redir0 conn t) = Some s -> provenance (ips t ms) (ports t ms) (limits t ms) s.
Proof.
  intros R. eapply run_provenance; [exact R|apply follows0| |].
  - intros w Hw. destruct w; (right; apply in_flat_map; eexists; split; [exact Hw|left; reflexivity]).
  - assert (In (to_ip t) (ips t ms) /\ In (to_port t) (ports t ms) /\ In (to_max t) (limits t ms)) as (A & B & C) by (repeat split; left; reflexivity).
    constructor; cbn; auto. repeat split; constructor.
Qed.

(** Every datagram that was sent, was sent to an address and a port that were set some time, under a limit that was set some time. *)
Theorem C90_only_configured conn qcap t ms s : redir_run qcap ms (redir0 conn t) = Some s ->
  (forall c d, In (c, d) (x_sent (l_net (rd_net s))) -> exists ip port, nth_error (rd_addr s) c = Some (ip, port) /\ In ip (ips t ms) /\ In port (ports t ms)) /\
  Forall (fun m => In m (limits t ms)) (l_max (rd_net s)).
Proof.
  intros R. destruct (run0_provenance _ _ _ _ _ R) as [_ _ A M (_ & _ & Pl)]. split; [|exact M]. intros c d H. rewrite Forall_forall in Pl. specialize (Pl _ H). cbn [fst] in Pl.
  destruct (nth_error (rd_addr s) c) as [[ip port]|] eqn:E; [|apply nth_error_None in E; lia]. exists ip, port. split; [reflexivity|].
  rewrite Forall_forall in A. exact (A _ (nth_error_In _ _ E)).
Qed.

(** A pack that is sent directly goes to where the sender points at that moment, whatever is set afterwards: its datagrams are never diverted. *)
Lemma run_addr qcap ms : forall s s', redir_run qcap ms s = Some s' -> exists more, rd_addr s' = rd_addr s ++ more.
Proof.
  induction ms as [|m ms IH]; intros s s'; cbn [redir_run]; [intros [= <-]; exists []; symmetry; apply app_nil_r|]. destruct (redir_move qcap m s) as [s1|] eqn:E; [|discriminate]. intros R.
  destruct (IH _ _ R) as (more & ->). apply other_moves in E. assert (exists x, rd_addr s1 = rd_addr s ++ x) as (x & ->); [|exists (x ++ more); symmetry; apply app_assoc].
  destruct m; try (destruct E as (_ & _ & -> & _); exists []; symmetry; apply app_nil_r).
  subst s1. unfold reload_step. cbv zeta. destruct (rd_pc s); cbn; try (exists []; symmetry; apply app_nil_r). eexists. reflexivity.
Qed.
Theorem C90_not_diverted conn qcap t ms s k p s1 ms' s' to : redir_run qcap ms (redir0 conn t) = Some s -> points_to s to -> redir_move qcap (Direct k p) s = Some s1 ->
  redir_run qcap ms' s1 = Some s' ->
  exists c job, x_jobs (l_net (rd_net s1)) = x_jobs (l_net (rd_net s)) ++ [job] /\ Forall (fun cd => fst cd = c) job /\
    nth_error (rd_addr s') c = Some (to_ip to, to_port to) /\ (0 < to_max to -> Forall (fun cd => zlen (snd cd) <= to_max to + 25) job).
Proof.
  intros R (Pt & Pm) E R'. cbn [redir_move] in E. unfold l_direct in E. destruct (net_direct (cur_max (rd_net s)) k p (l_net (rd_net s))) as [n|] eqn:En; [|discriminate].
  injection E as <-. pose proof En as En'. unfold net_direct in En. destruct (write_buffer _ _ _) as [ds|] eqn:Ew; [|discriminate]. injection En as <-.
  exists (current (l_net (rd_net s))), (map (pair (current (l_net (rd_net s)))) ds). split; [reflexivity|]. split; [apply Forall_map, Forall_forall; reflexivity|].
  split.
  - destruct (run_addr _ _ _ _ R') as (more & ->). cbn [with_net rd_addr]. fold (current (l_net (rd_net s))) in Pt. rewrite nth_error_app1; [exact Pt|]. apply nth_error_Some. congruence.
  - intros H. assert (cur_max (rd_net s) = to_max to) as Em by (unfold cur_max, current; apply nth_error_nth, Pm). rewrite Em in Ew.
    apply Forall_map. exact (P_Udp.C32_single_bound _ _ _ _ H Ew).
Qed.

(* ------------------------------------------------------------------ *)
(** ** What does not hold *)

(** A refresh that changes address and port can be seen half done: for a while datagrams go to a port of the new address that was never meant. *)
Definition there : target := mkTarget (of_string "10.0.0.1") 6100 60000.
Definition demo_moves : list rmove :=
  [Assign (SetIp (of_string "10.0.0.2")); Reload true; Reload true; Reload true; Reload true; Reload true; Reload true; Reload true;
   Direct 5 (demo_text 1); WriteJob 0; Assign (SetPort 7100); Assign (SetMax 60000)].
Theorem C90_half_seen_refuted : exists ms s d, redir_run 8 ms (redir0 true there) = Some s /\
  flat_map (fun m => match m with Assign w => [w] | _ => [] end) ms = [SetIp (of_string "10.0.0.2"); SetPort 7100; SetMax 60000] /\
  sent_to s (of_string "10.0.0.2") 6100 d.
Proof.
  destruct (redir_run 8 demo_moves (redir0 true there)) as [s|] eqn:E; [|vm_compute in E; discriminate E].
  exists demo_moves, s. assert (exists d rest, x_sent (l_net (rd_net s)) = (1%nat, d) :: rest /\ nth_error (rd_addr s) 1 = Some (of_string "10.0.0.2", 6100)) as (d & rest & A & B).
  { vm_compute in E. injection E as <-. eexists _, _. split; reflexivity. }
  exists d. split; [exact E|]. split; [reflexivity|]. exists 1%nat. rewrite A. split; [left; reflexivity|exact B].
Qed.

(** When the address could not be resolved, or no socket opened, at the moment it was taken over, the agent does not try again: without a change of the settings not a
    single datagram is ever sent, whatever becomes of the network. *)
Lemma put_none cd n : x_clients n = [mkClient false true] -> x_sent (put_datagram cd n) = x_sent n.
Proof.
  intros E. unfold put_datagram, usable. rewrite E. destruct (fst cd) as [|[|c]]; reflexivity.
Qed.
Theorem C90_no_retry_refuted qcap t ms s : unchanged ms -> redir_run qcap ms (redir0 false t) = Some s -> x_sent (l_net (rd_net s)) = [].
Proof.
  assert (forall ms s s', unchanged ms -> redir_run qcap ms s = Some s' -> settled s -> cls s = [mkClient false true] -> x_sent (l_net (rd_net s)) = [] -> x_sent (l_net (rd_net s')) = []) as K.
  { clear. induction ms as [|m ms IH]; intros s s' U; cbn [redir_run]; [intros [= <-]; auto|]. destruct (redir_move qcap m s) as [s1|] eqn:E; [|discriminate]. intros R W C X.
    inversion U as [|? ? Hm U']; subst.
    assert (redir_run qcap [m] s = Some s1) as R1 by (cbn [redir_run]; rewrite E; reflexivity).
    destruct (run_settled _ [m] _ _ ltac:(constructor; [exact Hm|constructor]) R1 W) as (W1 & _).
    assert (cls s1 = [mkClient false true] /\ x_sent (l_net (rd_net s1)) = []) as (C1 & X1); [|exact (IH _ _ U' R W1 C1 X1)].
    pose proof (other_moves _ _ _ _ E) as O. unfold cls in C.
    destruct m; try contradiction; try (split; [destruct O as (_ & _ & _ & _ & -> & _); exact C|]); cbn [redir_move] in E.
    - injection E as <-. destruct W as (F & V & P). unfold reload_step, cls. cbv zeta. destruct (rd_pc s) eqn:Ep; try contradiction; cbn [rd_net]; try (split; [exact C|exact X]).
      pose proof (fo_closed _ F) as Q. rewrite Ep in Q. destruct Q as (Q & _). unfold cls in Q. rewrite C in Q. cbn in Q. lia.
    - injection E as <-. exact X.
    - unfold l_direct, net_direct in E. destruct (write_buffer _ _ _); [|discriminate]. injection E as <-. exact X.
    - unfold l_sender in E. cbv zeta in E. destruct (x_uout (l_net (rd_net s))); [|injection E as <-; exact X]. destruct (sender_step2 _ _ _ _); [|discriminate]. injection E as <-. exact X.
    - injection E as <-. cbn. unfold net_write_sender. destruct (x_uout _); [exact X|]. rewrite put_none by exact C. exact X.
    - injection E as <-. cbn. unfold net_write_job. destruct (nth_error _ _) as [[|cd more]|]; try exact X. rewrite put_none by exact C. exact X. }
  intros U R. apply (K _ _ _ U R); [|reflexivity|reflexivity]. split; [apply follows0|]. split; [reflexivity|exact I].
Qed.

(* ------------------------------------------------------------------ *)
(** the case above goes on: the goroutine runs, and the agent points to the new address and port *)
Example C90_case : exists s s', redir_run 8 demo_moves (redir0 true there) = Some s /\ unchanged (repeat (Reload true) 13) /\ (13 <= reloads (repeat (Reload true) 13))%nat /\
  redir_run 8 (repeat (Reload true) 13) s = Some s' /\ ~ points_to s (configured there demo_moves) /\ points_to s' (mkTarget (of_string "10.0.0.2") 7100 60000) /\ length (x_clients (l_net (rd_net s'))) = 3%nat.
Proof.
  destruct (redir_run 8 demo_moves (redir0 true there)) as [s|] eqn:E; [|vm_compute in E; discriminate E].
  destruct (redir_run 8 (repeat (Reload true) 13) s) as [s'|] eqn:E'; [|vm_compute in E; injection E as <-; vm_compute in E'; discriminate E'].
  exists s, s'. split; [reflexivity|]. split; [repeat constructor|]. split; [cbn; lia|]. split; [exact E'|].
  vm_compute in E. injection E as <-. vm_compute in E'. injection E' as <-. split; [intros (H & _); vm_compute in H; discriminate H|]. split; [split; reflexivity|reflexivity].
Qed.
Example C90_quiet_case : exists s s', redir_run 8 [Queue (demo_text 1)] (redir0 true there) = Some s /\ rd_pc s = Compare1 /\ points_to s (configured there [Queue (demo_text 1)]) /\
  (exists s1, redir_move 8 (Direct 5 (demo_text 1)) s = Some s1) /\
  redir_run 8 [Reload true; Sender (fun _ => 5); WriteSender; Reload true; Reload true; Reload true] s = Some s' /\ length (x_sent (l_net (rd_net s'))) = 1%nat.
Proof.
  destruct (redir_run 8 [Queue (demo_text 1)] (redir0 true there)) as [s|] eqn:E; [|vm_compute in E; discriminate E].
  destruct (redir_run 8 [Reload true; Sender (fun _ => 5); WriteSender; Reload true; Reload true; Reload true] s) as [s'|] eqn:E'; [|vm_compute in E; injection E as <-; vm_compute in E'; discriminate E'].
  exists s, s'. split; [reflexivity|]. vm_compute in E. injection E as <-. split; [reflexivity|]. split; [split; reflexivity|]. split; [eexists; vm_compute; reflexivity|]. split; [exact E'|]. vm_compute in E'. injection E' as <-. reflexivity.
Qed.

Print Assumptions C90_follows.
Print Assumptions C90_no_churn.
Print Assumptions C90_sockets.
Print Assumptions C90_only_configured.
Print Assumptions C90_not_diverted.
Print Assumptions C90_half_seen_refuted.
Print Assumptions C90_no_retry_refuted.
