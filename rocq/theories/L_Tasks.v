(** Lemmas for P_Tasks.v: the counter loops beside the tracing API. *)
From Verif Require Import GoInt M_Float M_Value M_Packs M_Access M_Cache M_Trace M_Meter M_Tasks S_Meter L_Meter S_Trace L_TraceInv L_TraceSafe
  P_Trace3 S_Ledger L_Ledger L_Ledger2 L_Ledger3 S_Tasks P_Meter.
From Coq Require Import ZifyBool Permutation.

(** ** Histories of additions *)
Lemma ticking_app {A} (a b : list (Z * A)) : forall t, ticking t (a ++ b) <-> ticking t a /\ ticking (last_time t a) b.
Proof.
  induction a as [|[s x] a IH]; intros t; cbn [app ticking last_time]; [tauto|]. rewrite IH. tauto.
Qed.
Lemma last_time_app {A} (a b : list (Z * A)) : forall t, last_time t (a ++ b) = last_time (last_time t a) b.
Proof. induction a as [|[s x] a IH]; intros t; cbn [app last_time]; [reflexivity|apply IH]. Qed.
Lemma ticking_ge {A} (a : list (Z * A)) : forall t, ticking t a -> t <= last_time t a.
Proof. induction a as [|[s x] a IH]; intros t H; cbn [ticking last_time] in *; [lia|]. destruct H as (H1 & H2). specialize (IH _ H2). lia. Qed.
Definition at_time {A} (t : Z) (es : list (Z * A)) : Prop := Forall (fun e => fst e = t) es.
Lemma at_ticking {A} t (es : list (Z * A)) : at_time t es -> forall s, s <= t -> ticking s es /\ last_time s es <= t.
Proof.
  induction 1 as [|[u x] es E H IH]; intros s Hs; cbn [ticking last_time]; [auto|]. cbn [fst] in E. subst u.
  destruct (IH t (Z.le_refl t)) as (I1 & I2). auto.
Qed.
Lemma sm_run_app a b : forall m, sm_run (a ++ b) m = match sm_run a m with Some m' => sm_run b m' | None => None end.
Proof. induction a as [|e a IH]; intros m; cbn [app sm_run]; [reflexivity|]. destruct (sm_step m e); [apply IH|reflexivity]. Qed.
Lemma vm_run_app a b : forall m, vm_run (a ++ b) m = match vm_run a m with Some m' => vm_run b m' | None => None end.
Proof. induction a as [|e a IH]; intros m; cbn [app vm_run]; [reflexivity|]. destruct (vm_step m e); [apply IH|reflexivity]. Qed.
Lemma adds_app a b : adds (a ++ b) = adds a ++ adds b.
Proof. induction a as [|[t []] a IH]; cbn [app adds]; [reflexivity|rewrite IH; reflexivity|exact IH]. Qed.
Lemma vadds_app a b : vadds (a ++ b) = vadds a ++ vadds b.
Proof. induction a as [|[t []] a IH]; cbn [app vadds]; [reflexivity|rewrite IH; reflexivity|exact IH]. Qed.
Lemma vm_run_shape : forall es m, shape m -> Forall (fun e => 0 <= fst e) es -> exists m', vm_run es m = Some m' /\ shape m'.
Proof.
  induction es as [|[t o] es IH]; intros m Sh F; [exists m; split; [reflexivity|assumption]|].
  inversion F as [|? ? Ht F']; subst. cbn [fst] in Ht. cbn [vm_run].
  destruct (get_position_shape vbucket0 t m Ht Sh) as (m1 & E1 & Sh1 & T1 & _).
  assert (0 <= ring t < zlen (m_table m1)) as R by (destruct Sh1 as (_ & _ & ->); apply ring_range).
  destruct o as [v|p]; cbn [vm_step].
  - unfold value_add, on_current. rewrite E1. rewrite (tab_get_nth _ _ vbucket0 R).
    destruct (tab_set_some (m_table m1) (ring t) (vb_add v (nth (Z.to_nat (ring t)) (m_table m1) vbucket0)) R) as (t1 & -> & L1 & _).
    apply IH; [|assumption]. destruct Sh1 as (S1 & S2 & S3). split; [exact S1|]. split; [exact S2|]. cbn [m_table]. lia.
  - unfold value_counters, search. rewrite E1.
    destruct (walk_spec (m_table m1) (Z.to_nat (check_period p)) t) as (bs & -> & _); [apply Sh1|]. apply IH; assumption.
Qed.
Lemma shape_new {B} (b0 : B) t : 0 <= t -> shape (new_metering b0 t).
Proof. intros H. split; [exact H|]. split; [apply ring_rem; exact H|]. unfold new_metering. cbn [m_table]. unfold zlen. rewrite repeat_length. reflexivity. Qed.

(** ** Samples *)
Definition meter_ops (now : Z) (es : list aevent) : list (Z * sm_op) :=
  flat_map (fun e => match e with EvMeter _ el er => [(now, SmAdd el er)] | _ => [] end) es.
Lemma add_samples_run now es : forall m, add_samples now es m = sm_run (meter_ops now es) m.
Proof.
  induction es as [|e es IH]; intros m; [reflexivity|]. destruct e; cbn [add_samples meter_ops flat_map app sm_run sm_step]; try apply IH.
  destruct (service_add now elapsed error m); [apply IH|reflexivity].
Qed.
Lemma meter_ops_at now es : at_time now (meter_ops now es).
Proof. induction es as [|e es IH]; [constructor|]. destruct e; cbn [meter_ops flat_map app]; try exact IH. constructor; [reflexivity|exact IH]. Qed.
Lemma tells_meter n rs evs : tells rs evs -> Forall (fun r => r_env r = n) rs -> adds (meter_ops (second n) evs) = finished rs.
Proof.
  induction 1 as [|rs lv t log T IH|h a m rs log T IH|h a m rs p log D T IH]; intros F; [reflexivity|exact (IH F)| |];
  inversion F as [|? ? E F']; subst; cbn [r_env]; specialize (IH F'); unfold finished in *; cbn [meter_ops flat_map app adds map r_env r_acc]; f_equal; exact IH.
Qed.
Lemma removals_env n l l' rs : removals n l l' rs -> Forall (fun r => r_env r = n) rs.
Proof.
  induction 1 as [|l h c l' rs E S H IH]; [constructor|]. apply Forall_app. split; [|exact IH].
  destruct (reported (ends_now (marked_stuck n c))); repeat constructor.
Qed.
Lemma ledger_step_env n k l r l' rs : ledger_step n k l r l' rs -> Forall (fun x => r_env x = n) rs.
Proof.
  unfold ledger_step. intros H.
  assert (ledger_call n k l = (l', r, rs) -> Forall (fun x => r_env x = n) rs) as K.
  { unfold ledger_call. clear H. destruct k; intros E; revert E;
    repeat match goal with
    | |- (match ?x with _ => _ end) = _ -> _ => lazymatch x with
        | nth_error _ _ => destruct x
        | account_of _ _ => destruct x as [[? ?]|]
        | _ => destruct x end
    end; intros E; injection E as <- <- <-; try (constructor; fail);
    try (match goal with |- context [reported ?e] => destruct (reported e) end; repeat constructor). }
  destruct k; try exact (K H). exact (removals_env _ _ _ _ H).
Qed.
Lemma finished_app a b : finished (a ++ b) = finished a ++ finished b.
Proof. apply map_app. Qed.

(** ** Executions *)
Lemma tasks_snoc ts t : forall w, tasks (ts ++ [t]) w =
  match tasks ts w with Some (ps, w1) => match do_task t w1 with Some (qs, w2) => Some (ps ++ qs, w2) | None => None end | None => None end.
Proof.
  induction ts as [|u ts IH]; intros w; cbn [app tasks].
  - destruct (do_task t w) as [[ps w1]|]; [|reflexivity]. rewrite app_nil_r. reflexivity.
  - destruct (do_task u w) as [[ps w1]|]; [|reflexivity]. rewrite IH. destruct (tasks ts w1) as [[qs w2]|]; [|reflexivity].
    destruct (do_task t w2) as [[rs w3]|]; [|reflexivity]. rewrite app_assoc. reflexivity.
Qed.
Lemma ops_snoc ts t : ops_of (ts ++ [t]) = ops_of ts ++ op_of t.
Proof. unfold ops_of. rewrite flat_map_app. cbn [flat_map]. rewrite app_nil_r. reflexivity. Qed.
Lemma clock_snoc ts t : clock (ts ++ [t]) = clock ts ++ [(second (task_env t), tt)].
Proof. unfold clock. rewrite map_app. reflexivity. Qed.

(** the sums of active services that the loop got *)
Definition got (c : M_Sampler.sconf) (n : env) (pre : list (env * call)) : Z :=
  match snd (do_call n KActiveCount (after c pre)) with Some (RCounts a b d) => int64 (a + b + d) | _ => 0 end.
Definition seen_in (c : M_Sampler.sconf) (pre : list (env * call)) (t : task) : list (Z * Z) :=
  match t with TReal n _ _ => [(second n, got c n pre)] | _ => [] end.
Fixpoint seen (c : M_Sampler.sconf) (pre : list (env * call)) (ts : list task) : list (Z * Z) :=
  match ts with [] => [] | t :: ts' => seen_in c pre t ++ seen c (pre ++ op_of t) ts' end.
Lemma seen_snoc c ts t : forall pre, seen c pre (ts ++ [t]) = seen c pre ts ++ seen_in c (pre ++ ops_of ts) t.
Proof.
  induction ts as [|u ts IH]; intros pre; cbn [app seen ops_of flat_map]; [rewrite !app_nil_r; reflexivity|].
  rewrite IH, <- !app_assoc. reflexivity.
Qed.
Definition watched_in (c : M_Sampler.sconf) (pre : list (env * call)) (t : task) : list (Z * Z) :=
  match t with TReal n _ _ => [(second n, running_count (after c pre))] | _ => [] end.
Lemma watched_snoc c ts t : forall pre, watched c pre (ts ++ [t]) = watched c pre ts ++ watched_in c (pre ++ ops_of ts) t.
Proof.
  induction ts as [|u ts IH]; intros pre; cbn [app watched ops_of flat_map]; [rewrite !app_nil_r; reflexivity|].
  rewrite IH, <- !app_assoc. reflexivity.
Qed.

(** the additions keep to the clock of the execution *)
Definition keeps {A} (t0 : Z) (ts : list task) (es : list (Z * A)) : Prop :=
  Forall (fun e => 0 <= fst e) es /\
  forall T, t0 <= T -> ticking T (clock ts) -> ticking t0 es /\ last_time t0 es <= last_time T (clock ts).
Lemma keeps_nil {A} t0 : @keeps A t0 [] [].
Proof. split; [constructor|]. cbn. auto. Qed.
Lemma keeps_snoc {A} t0 ts t (es add : list (Z * A)) : keeps t0 ts es -> 0 <= second (task_env t) -> at_time (second (task_env t)) add -> keeps t0 (ts ++ [t]) (es ++ add).
Proof.
  intros (F & K) H0 Ha. split.
  - apply Forall_app. split; [exact F|]. eapply Forall_impl; [|exact Ha]. cbn. intros e ->. exact H0.
  - intros T HT Tk. rewrite clock_snoc in *. apply ticking_app in Tk as (Tk1 & Tk2). cbn [ticking] in Tk2. destruct Tk2 as (Tk2 & _).
    destruct (K T HT Tk1) as (K1 & K2). rewrite !last_time_app. cbn [last_time]. destruct (at_ticking _ _ Ha (last_time t0 es) ltac:(lia)) as (A1 & A2).
    split; [|exact A2]. apply ticking_app. auto.
Qed.

Lemma new_events_app a b evs : a_log b = a_log a ++ evs -> new_events a b = evs.
Proof. intros E. unfold new_events. rewrite E. rewrite skipn_app, skipn_all, Nat.sub_diag. reflexivity. Qed.
Lemma active_do n a : do_call n KActiveCount a = (fst (get_active_count n a), option_map (fun x => RCounts (fst (fst x)) (snd (fst x)) (snd x)) (snd (get_active_count n a))).
Proof. cbn [do_call]. unfold fmap, bind, ret. destruct (get_active_count n a) as [b [x|]]; reflexivity. Qed.

(** what is known of the meters after an execution *)
Record metered (c : M_Sampler.sconf) (t0 t1 : Z) (ts : list task) (reps : list report) (s : ct_state) : Prop := mkMet {
  mt_s : exists es, sm_run es (new_metering sbucket0 t0) = Some (ct_service s) /\ adds es = finished reps /\ keeps t0 ts es;
  mt_v : exists es, vm_run es (new_metering vbucket0 t1) = Some (ct_active s) /\ vadds es = int_adds (seen c [] ts) /\ keeps t1 ts es }.

Lemma int_adds_app a b : int_adds (a ++ b) = int_adds a ++ int_adds b.
Proof. apply map_app. Qed.

Lemma history_tasks c t0 t1 ts : 0 <= t0 -> 0 <= t1 -> Forall (fun t => 0 <= second (task_env t)) ts -> well_used c (ops_of ts) ->
  exists ps w rs l reps, tasks ts (world0 c t0 t1) = Some (ps, w) /\ map label ps = flat_map due ts /\ w_agent w = after c (ops_of ts) /\
    snd (run (ops_of ts) (a_init c)) = Some rs /\ ledger_run [] (ops_of ts) rs l reps /\ books (after c (ops_of ts)) l /\
    tells reps (a_log (after c (ops_of ts))) /\ metered c t0 t1 ts reps (w_ct w).
Proof.
  intros H0 H1. induction ts as [|t ts IH] using rev_ind; intros F W.
  - exists [], (world0 c t0 t1), [], [], []. repeat (split; [first [reflexivity|constructor]|]). split; exists []; (split; [reflexivity|split; [reflexivity|apply keeps_nil]]).
  - apply Forall_app in F as (F & Ft). inversion Ft as [|? ? Hn _]; subst. rewrite ops_snoc in W |- *.
    destruct (IH F (well_used_prefix _ _ _ W)) as (ps & w & rs & l & reps & E & Lb & Ea & Er & Lr & Bk & Tl & [(ses & S1 & S2 & S3) (ves & V1 & V2 & V3)]). clear IH.
    rewrite tasks_snoc, E.
    destruct (sm_run_shape ses _ (shape_new sbucket0 t0 H0) (proj1 S3)) as (sm & S1' & Ssh). rewrite S1 in S1'. injection S1' as <-.
    destruct (vm_run_shape ves _ (shape_new vbucket0 t1 H1) (proj1 V3)) as (vm & V1' & Vsh). rewrite V1 in V1'. injection V1' as <-.
    assert (forall n k, op_of t = [(n, k)] -> exists b r l' rs2 evs, do_call n k (w_agent w) = (b, Some r) /\ b = after c (ops_of ts ++ [(n, k)]) /\
       snd (run (ops_of ts ++ [(n, k)]) (a_init c)) = Some (rs ++ [r]) /\ ledger_run [] (ops_of ts ++ [(n, k)]) (rs ++ [r]) l' (reps ++ rs2) /\ books b l' /\
       tells (reps ++ rs2) (a_log b) /\ new_events (w_agent w) b = evs /\ adds (meter_ops (second n) evs) = finished rs2) as Hcall.
    { intros n k Hop. rewrite Hop in W. destruct (W (ops_of ts) n k [] eq_refl) as (G & S0).
      destruct (sound_run c (ops_of ts) (well_used_prefix _ _ _ W)) as ([_ V _] & _).
      destruct (call_steps n k (after c (ops_of ts)) l G S0 V Bk) as (b & r & l' & r2 & evs & Eb & S & Rb & Lbb & Tb).
      destruct (run_snoc (ops_of ts) n k _ _ Er) as (E1 & E2). fold (after c (ops_of ts)) in E1, E2. rewrite Eb in E1, E2. cbn [fst snd] in E1, E2.
      exists b, r, l', r2, evs. rewrite Ea. split; [exact Eb|]. split; [symmetry; exact E1|]. split; [exact E2|]. split; [eapply ledger_snoc; eassumption|].
      split; [exact Rb|]. split; [rewrite Lbb; apply tells_app; assumption|]. split; [apply new_events_app; exact Lbb|].
      apply tells_meter; [exact Tb|]. eapply ledger_step_env; exact S. }
    destruct t as [n k|n r obj|n obj]; cbn [task_env] in Hn; cbn [op_of] in *.
    + destruct (Hcall n k eq_refl) as (b & r & l' & rs2 & evs & Eb & Hb & E2 & L2 & B2 & T2 & Ne & Fi). cbn [do_task]. unfold w_call. change (unix n) with (second n). rewrite Eb. cbn [fst]. rewrite Ne, add_samples_run.
      pose proof (meter_ops_at (second n) evs) as At.
      destruct (sm_run_shape (meter_ops (second n) evs) _ Ssh) as (m' & Em & Sh'). { eapply Forall_impl; [|exact At]. cbn. intros e ->. exact Hn. }
      rewrite Em. eexists _, _, _, l', _. split; [reflexivity|]. cbn [w_agent w_ct]. rewrite app_nil_r, flat_map_app. cbn [flat_map due app]. rewrite app_nil_r.
      rewrite <- Hb. repeat (split; [first [exact Lb|reflexivity|exact E2|exact L2|exact B2|exact T2]|]). split; cbn [with_service ct_service ct_active].
      * exists (ses ++ meter_ops (second n) evs). rewrite sm_run_app, S1, adds_app, S2, Fi, finished_app. split; [exact Em|]. split; [reflexivity|]. apply keeps_snoc; assumption.
      * exists ves. rewrite seen_snoc. cbn [seen_in]. rewrite app_nil_r. split; [exact V1|]. split; [exact V2|]. rewrite <- (app_nil_r ves). apply keeps_snoc; [assumption..|constructor].
    + destruct (Hcall n KActiveCount eq_refl) as (b & res & l' & rs2 & evs & Eb & Hb & E2 & L2 & B2 & T2 & Ne & Fi). cbn [do_task]. unfold real_tick. change (unix n) with (second n).
      rewrite active_do in Eb. destruct (get_active_count n (w_agent w)) as [b' [[[a0 a1] a2]|]] eqn:Eg; cbn [fst snd option_map] in Eb; [|discriminate].
      injection Eb as -> <-. unfold all_counters.
      destruct (sm_run_shape [(second n, SmGet 30)] _ Ssh) as (m1 & Em1 & Sh1). { constructor; [exact Hn|constructor]. }
      cbn [sm_run sm_step] in Em1. destruct (service_counters (second n) 30 (ct_service (w_ct w))) as [[sc m1']|] eqn:Esc; [|discriminate]. injection Em1 as ->.
      set (v := f64_of_int (int64 (a0 + a1 + a2))).
      destruct (vm_run_shape [(second n, VmAdd v); (second n, VmGet 30)] _ Vsh) as (m2 & Em2 & Sh2). { constructor; [exact Hn|constructor; [exact Hn|constructor]]. }
      pose proof Em2 as Em2'. cbn [vm_run vm_step] in Em2. destruct (value_add (second n) v (ct_active (w_ct w))) as [mv|] eqn:Eva; [|discriminate].
      destruct (value_counters (second n) 30 mv) as [[vc mv']|] eqn:Evc; [|discriminate]. injection Em2 as ->.
      cbn [ct_service]. rewrite Ne, add_samples_run. pose proof (meter_ops_at (second n) evs) as At.
      destruct (sm_run_shape (meter_ops (second n) evs) _ Sh1) as (m' & Em & Sh'). { eapply Forall_impl; [|exact At]. cbn. intros e ->. exact Hn. }
      rewrite Em. eexists _, _, _, l', _. split; [reflexivity|]. cbn [w_agent w_ct]. rewrite map_app, flat_map_app, Lb. rewrite <- Hb.
      repeat (split; [first [reflexivity|exact E2|exact L2|exact B2|exact T2]|]). split; cbn [with_service ct_service ct_active].
      * exists (ses ++ (second n, SmGet 30) :: meter_ops (second n) evs). rewrite sm_run_app, S1, adds_app, S2, finished_app. cbn [adds sm_run sm_step]. rewrite Esc, Fi.
        split; [exact Em|]. split; [reflexivity|]. apply keeps_snoc; [assumption..|]. constructor; [reflexivity|exact At].
      * exists (ves ++ [(second n, VmAdd v); (second n, VmGet 30)]). rewrite vm_run_app, V1, vadds_app, V2, seen_snoc, int_adds_app. split; [exact Em2'|].
        split; [|apply keeps_snoc; [assumption..|repeat constructor]]. f_equal. cbn [seen_in int_adds map fst snd vadds app]. unfold got. rewrite active_do, <- Ea, Eg. reflexivity.
    + cbn [do_task]. unfold five_tick, five_min_counters. change (unix n) with (second n). rewrite !app_nil_r.
      destruct (sm_run_shape [(second n, SmGet 300)] _ Ssh) as (m1 & Em1 & Sh1). { constructor; [exact Hn|constructor]. } pose proof Em1 as Em1'.
      cbn [sm_run sm_step] in Em1. destruct (service_counters (second n) 300 (ct_service (w_ct w))) as [[sc m1']|] eqn:Esc; [|discriminate]. injection Em1 as ->.
      destruct (vm_run_shape [(second n, VmGet 300)] _ Vsh) as (m2 & Em2 & Sh2). { constructor; [exact Hn|constructor]. } pose proof Em2 as Em2'.
      cbn [vm_run vm_step] in Em2. destruct (value_counters (second n) 300 (ct_active (w_ct w))) as [[vc mv']|] eqn:Evc; [|discriminate]. injection Em2 as ->.
      eexists _, _, rs, l, reps. split; [reflexivity|]. cbn [w_agent w_ct]. rewrite map_app, flat_map_app, Lb.
      repeat (split; [first [reflexivity|assumption]|]). split; cbn [ct_service ct_active].
      * exists (ses ++ [(second n, SmGet 300)]). rewrite sm_run_app, S1, adds_app, S2. cbn [adds]. rewrite app_nil_r. split; [exact Em1'|]. split; [reflexivity|].
        apply keeps_snoc; [assumption..|repeat constructor].
      * exists (ves ++ [(second n, VmGet 300)]). rewrite vm_run_app, V1, vadds_app, V2, seen_snoc. cbn [vadds seen_in]. rewrite !app_nil_r. split; [exact Em2'|]. split; [reflexivity|].
        apply keeps_snoc; [assumption..|repeat constructor].
Qed.
