(** C90 for the agent as a whole (M_Whole.v): whatever else the agent does meanwhile, what it sends soon goes where the settings say. *)
From Verif Require Import GoInt M_OutX M_Packs M_Conf M_Udp M_Net M_NetLimit M_Redirect M_Agent M_Trace M_Tasks S_Redirect L_Redirect M_Whole L_Whole P_Whole.

(** the number of moves the following goroutine is given *)
Fixpoint reload_moves (ms : list hmove) : nat := match ms with [] => 0 | HReload _ :: r => S (reload_moves r) | _ :: r => reload_moves r end.
(** the client used for what is sent from now on: its address, its port and its limit *)
Definition sends_to (s : whole) (ip : gostring) (port max : Z) : Prop :=
  let k := pred (length (x_clients (g_net (h_proc s)))) in nth_error (h_addr s) k = Some (ip, port) /\ nth_error (h_max s) k = Some max.

Lemma addr_kept m s s' : whole_step m s = Some s' -> match m with HReload _ => True | _ => h_addr s' = h_addr s end.
Proof.
  destruct m; cbn [whole_step]; try (intros _; exact I); try (intros [= <-]; reflexivity);
    try (match goal with |- option_map _ ?x = _ -> _ => destruct x as [?|]; [|discriminate]; intros [= <-]; reflexivity end).
  destruct (task_step t _) as [[ps w]|]; [|discriminate]. match goal with |- match ?x with _ => _ end = _ -> _ => destruct x; [|discriminate] end. intros [= <-]. reflexivity.
Qed.
Definition stays (s s' : redir) : Prop :=
  rd_vars s' = rd_vars s /\ rd_addr s' = rd_addr s /\ rd_pc s' = rd_pc s /\ x_clients (l_net (rd_net s')) = x_clients (l_net (rd_net s)) /\ l_max (rd_net s') = l_max (rd_net s).
Lemma moved_view m s s' : whole_step m s = Some s' -> match m with HReload conn => view s' = reload_step conn (view s) | _ => stays (view s) (view s') end.
Proof.
  intros E. pose proof (addr_kept m s s' E) as A.
  assert ((exists conn, m = HReload conn) \/ forall conn, m <> HReload conn) as [(conn & ->)|N] by (destruct m; try (right; discriminate); left; eexists; reflexivity).
  - cbn [whole_step] in E. injection E as <-. unfold view at 1, put_view, settings_of. cbn [h_proc h_vars h_addr h_max h_pc proc_net g_conf g_net].
    assert (forall r, rd_set r = target_of (c_conf (g_conf (h_proc s))) -> mkRd (target_of (c_conf (g_conf (h_proc s)))) (rd_vars r) (rd_addr r) (mkL (l_net (rd_net r)) (l_max (rd_net r))) (rd_pc r) = r) as H.
    { intros [t v ad [n mx] pc] Et. cbn in *. rewrite Et. reflexivity. }
    apply H. unfold reload_step. cbv zeta. destruct (rd_pc (view s)); reflexivity.
  - pose proof (step_aim m s s' E N) as K. unfold aim, clients in K. injection K as K1 K2 K3 K4. destruct m; try (exfalso; eapply N; reflexivity); unfold stays, view; cbn [rd_vars rd_addr rd_pc rd_net l_net l_max]; repeat split; assumption.
Qed.
Lemma stays_follows s s' : stays s s' -> follows s -> follows s'.
Proof.
  intros (E2 & E3 & E4 & E5 & E6) [A B C D O K]. assert (cls s' = cls s) as E5' by exact E5. constructor; try (rewrite ?E5', ?E3, ?E6; assumption).
  - unfold published, points_to in *. cbv zeta in *. rewrite E4, E2, E3, E5, E6. exact D.
  - rewrite E4, E5'. exact K.
Qed.
Lemma step_follows m s s' : whole_step m s = Some s' -> follows (view s) -> follows (view s').
Proof.
  intros E F. apply moved_view in E. destruct m; try (eapply stays_follows; eassumption). rewrite E. apply reload_follows. exact F.
Qed.
Lemma whole_follows ms : forall s s', whole_run ms s = Some s' -> follows (view s) -> follows (view s').
Proof.
  induction ms as [|m ms IH]; intros s s'; cbn [whole_run]; [intros [= <-]; auto|]. destruct (whole_step m s) as [s1|] eqn:E; [|discriminate]. intros R F. eapply IH; [exact R|]. eapply step_follows; eassumption.
Qed.
Lemma start_follows w conn c t0 t1 s0 : whole_start w conn c t0 t1 = Some s0 -> follows (view s0).
Proof.
  unfold whole_start. destruct (proc_refresh 0 w (proc0 conn)) as [p|] eqn:E; [|discriminate]. cbv zeta. destruct (_ <? 0); [discriminate|]. intros [= <-].
  apply refresh_clients in E. unfold clients in E. set (t := target_of (c_conf (g_conf p))).
  eapply (stays_follows (redir0 conn t)); [|apply follows0]. unfold stays, view, redir0. cbn [rd_vars rd_addr rd_pc rd_net l_net l_max h_vars h_addr h_pc h_proc h_max]. fold t. rewrite E. repeat split.
Qed.
Lemma whole_within ms : forall k s s', (forall p q s1, ms = p ++ q -> whole_run p s = Some s1 -> target_of (settings_of s1) = target_of (settings_of s)) ->
  whole_run ms s = Some s' -> within k (view s) -> within (k - reload_moves ms) (view s').
Proof.
  induction ms as [|m ms IH]; intros k s s' U; cbn [whole_run]; [intros [= <-]; cbn [reload_moves]; rewrite Nat.sub_0_r; auto|].
  destruct (whole_step m s) as [s1|] eqn:E; [|discriminate]. intros R W.
  assert (target_of (settings_of s1) = target_of (settings_of s)) as T by (apply (U [m] ms); [reflexivity|cbn [whole_run]; rewrite E; reflexivity]).
  assert (forall p q s2, ms = p ++ q -> whole_run p s1 = Some s2 -> target_of (settings_of s2) = target_of (settings_of s1)) as U'.
  { intros p q s2 Eq R2. rewrite T. apply (U (m :: p) q); [rewrite Eq; reflexivity|]. cbn [whole_run]. rewrite E. exact R2. }
  pose proof (moved_view m s s1 E) as V.
  assert ((exists conn, m = HReload conn) \/ stays (view s) (view s1) /\ reload_moves (m :: ms) = reload_moves ms) as [(conn & ->)|(St & Er)] by (destruct m; try (right; split; [exact V|reflexivity]); left; eexists; reflexivity).
  - cbn [reload_moves]. destruct k as [|k].
    + cbn [Nat.sub]. change 0%nat with (0 - reload_moves ms)%nat. apply (IH 0%nat s1 s' U' R). rewrite V. left. apply settled_reload, within_0, W.
    + cbn [Nat.sub]. apply (IH k s1 s' U' R). rewrite V. apply within_reload. exact W.
  - assert (within (k - reload_moves ms) (view s')) as G.
    { apply (IH k s1 s' U' R). eapply same_within; [|exact W]. destruct St as (S2 & S3 & S4 & S5 & S6). unfold same_aim. cbn [view rd_set]. repeat split; try assumption. }
    rewrite Er. exact G.
Qed.

Theorem C90_whole_agent_follows w conn c t0 t1 s0 ms s ms' s' : whole_start w conn c t0 t1 = Some s0 -> whole_run ms s0 = Some s -> whole_run ms' s = Some s' ->
  (forall p q s1, ms' = p ++ q -> whole_run p s = Some s1 -> target_of (settings_of s1) = target_of (settings_of s)) -> (13 <= reload_moves ms')%nat ->
  sends_to s' (cf_NetCollectorIP (settings_of s)) (cf_NetCollectorUDPPort (settings_of s)) (cf_UDPMaxBytes (settings_of s)).
Proof.
  intros St R R' U L. pose proof (whole_follows ms s0 s R (start_follows _ _ _ _ _ _ St)) as F.
  pose proof (whole_within ms' 13 s s' U R' (within_any _ F)) as W. replace (13 - reload_moves ms')%nat with 0%nat in W by lia. apply within_0 in W. destruct W as (F' & V & P).
  assert (target_of (settings_of s') = target_of (settings_of s)) as T by (apply (U ms' []); [symmetry; apply app_nil_r|exact R']).
  assert (points_to (view s') (rd_vars (view s'))) as Pt by (apply (fo_vars _ F'); unfold published; destruct (rd_pc (view s')); try contradiction; exact I).
  rewrite V in Pt. cbn [view rd_set] in Pt. rewrite T in Pt. unfold points_to in Pt. exact Pt.
Qed.

(** ** The collector's address is changed in the environment, and the goroutine follows *)
Definition moved_to (es : list gostring) (ip : gostring) (port max : Z) (ms ms' : list hmove) : bool :=
  match whole_start (plain_world es) true P_Trace.sconf0 0 0 with
  | Some s0 => match whole_run ms s0 with
               | Some s => match whole_run ms' s with
                           | Some s' => let k := pred (length (x_clients (g_net (h_proc s')))) in
                               match nth_error (h_addr s') k, nth_error (h_max s') k with Some (i, p), Some m => beqb i ip && (p =? port) && (m =? max) | _, _ => false end
                           | None => false
                           end
               | None => false
               end
  | None => false
  end.
Example C90_whole_case :
  moved_to [of_string "net_collector_ip=10.0.0.1"] (of_string "10.0.0.2") 7100 60000
    [HRefresh (plain_world [of_string "net_collector_ip=10.0.0.2"; of_string "net_collector_udp_port=7100"])] (HReset :: repeat (HReload true) 13) = true.
Proof. vm_compute. reflexivity. Qed.
Print Assumptions C90_whole_agent_follows.
