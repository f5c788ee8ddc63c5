(** Property C88: the counter reports that the background loops send describe the services that were traced, and the loops never stop. *)
From Coq Require Import Floats.SpecFloat.
From Verif Require Import GoInt M_Float M_Value M_Packs M_Access M_Cache M_Sampler M_Trace M_Meter M_Tasks S_Meter L_Meter S_Trace L_TraceInv L_TraceSafe
  P_Trace P_Trace3 S_Ledger L_Ledger L_Ledger2 L_Ledger3 P_Ledger S_Tasks P_Meter L_Tasks.
From Coq Require Import ZifyBool Permutation.

(** Transaction ids differ, and never more than 2000 services run at the same time (C49) *)
Definition countable (c : sconf) (ops : list (env * call)) : Prop :=
  NoDup (txids (after c ops)) /\ forall p q, ops = p ++ q -> running_count (after c p) <= 2000.

Lemma run_app p q : forall a rs, snd (run p a) = Some rs -> fst (run (p ++ q) a) = fst (run q (fst (run p a))).
Proof.
  induction p as [|[n k] p IH]; intros a rs H; [reflexivity|]. cbn [app run] in *. destruct (do_call n k a) as [b [r|]]; [|discriminate].
  destruct (run p b) as [d [rs'|]] eqn:E; [|discriminate]. specialize (IH b rs'). rewrite E in IH. cbn [fst snd] in *. specialize (IH eq_refl).
  destruct (run (p ++ q) b) as [e [es|]]; exact IH.
Qed.
Lemma countable_prefix c p q : well_used c (p ++ q) -> countable c (p ++ q) -> countable c p.
Proof.
  intros W (N & H). split.
  - destruct (sound_run c p (well_used_prefix _ _ _ W)) as (_ & rs & Er & _). eapply grows_nodup; [|exact N]. unfold after. rewrite (run_app p q _ _ Er). apply run_grows.
  - intros p1 q1 ->. apply (H p1 (q1 ++ q)). rewrite app_assoc. reflexivity.
Qed.
Lemma counted c ops n : well_used c (ops ++ [(n, KActiveCount)]) -> countable c ops ->
  snd (do_call n KActiveCount (after c ops)) = Some (RCounts (running_in n (after c ops) 0) (running_in n (after c ops) 1) (running_in n (after c ops) 2)) /\
  running_in n (after c ops) 0 + running_in n (after c ops) 1 + running_in n (after c ops) 2 = running_count (after c ops) /\ 0 <= running_count (after c ops) <= 2000.
Proof.
  intros W (N & H). destruct (W ops n KActiveCount [] eq_refl) as (G & S0).
  assert (running_count (after c ops) <= 2000) as H2 by (apply (H ops []); rewrite app_nil_r; reflexivity).
  destruct (C49_stuck_services c ops n (well_used_prefix _ _ _ W) G N) as (C1 & C2 & _); [|exact H2|exact S0|].
  { intros p q E. specialize (H p q E). lia. }
  split; [exact C1|]. split; [exact C2|]. split; [|exact H2]. apply zlen_nonneg.
Qed.
Lemma seen_watched c ts : well_used c (ops_of ts) -> countable c (ops_of ts) -> seen c [] ts = watched c [] ts.
Proof.
  induction ts as [|t ts IH] using rev_ind; intros W C; [reflexivity|]. rewrite seen_snoc, watched_snoc. rewrite ops_snoc in W, C.
  rewrite IH by (first [eapply well_used_prefix; exact W|eapply countable_prefix; eassumption]). f_equal. destruct t as [n k|n r obj|n obj]; try reflexivity.
  cbn [seen_in watched_in app op_of] in *. destruct (counted c (ops_of ts) n W (countable_prefix _ _ _ W C)) as (E & Es & Hr). unfold got. rewrite E, Es, int64_id; [reflexivity|].
  unfold in_int64. lia.
Qed.
Lemma watched_range c ts : well_used c (ops_of ts) -> countable c (ops_of ts) -> Forall (fun e => 0 <= snd e <= 2000) (watched c [] ts).
Proof.
  induction ts as [|t ts IH] using rev_ind; intros W C; [constructor|]. rewrite watched_snoc. rewrite ops_snoc in W, C. apply Forall_app. split.
  - apply IH; [eapply well_used_prefix; exact W|eapply countable_prefix; eassumption].
  - destruct t as [n k|n r obj|n obj]; try constructor; [|constructor]. cbn [app op_of] in *. cbn [snd].
    destruct (counted c (ops_of ts) n W (countable_prefix _ _ _ W C)) as (_ & _ & Hr). exact Hr.
Qed.
Lemma window_forall {A} (P : A -> Prop) cur p (h : list (Z * A)) : Forall (fun e => P (snd e)) h -> Forall P (window cur p h).
Proof.
  intros F. unfold window. induction F as [|e h He F IH]; [constructor|]. cbn [filter]. destruct (_ && _); [|exact IH]. cbn [map]. constructor; assumption.
Qed.
Lemma sum_small l : Forall (fun x => 0 <= x <= 2000) l -> 0 <= sum_ints l <= 2000 * zlen l.
Proof. induction 1 as [|x l Hx F IH]; [unfold zlen; cbn; lia|]. rewrite zlen_cons. unfold sum_ints in *. cbn [fold_right]. lia. Qed.
Lemma ticking_nonneg T ts : 0 <= T -> ticking T (clock ts) -> Forall (fun t => 0 <= second (task_env t)) ts.
Proof. revert T. induction ts as [|t ts IH]; intros T H0 H; [constructor|]. cbn [clock map ticking] in H. destruct H as (H1 & H2). constructor; [lia|apply (IH (second (task_env t))); [lia|exact H2]]. Qed.
Lemma last_mono {A} (l : list (Z * A)) : forall t, ticking t l -> forall s x, l <> [] -> last_time s l = last_time x l.
Proof. destruct l as [|[u y] l]; intros t _ s x H; [congruence|reflexivity]. Qed.

(** The average of whole numbers, as a float64, 0 if there are none *)
Definition mean (l : list Z) : spec_float := if zlen l =? 0 then S754_zero false else f64_div (f64_of_int (sum_ints l)) (f64_of_int (zlen l)).

(* ------------------------------------------------------------------ *)
(** ** Never stops *)
(** Whatever the services do and whatever the clock reads (not before 1970), no turn of the loops kills the process, every turn sends one
    pack, with the configured object name and its kind of counters, and tracing goes on as if there were no loops, but for the counting. *)
Theorem C88_never_stops c t0 t1 ts : 0 <= t0 -> 0 <= t1 -> Forall (fun t => 0 <= second (task_env t)) ts -> well_used c (ops_of ts) ->
  exists ps w, tasks ts (world0 c t0 t1) = Some (ps, w) /\ map label ps = flat_map due ts /\ w_agent w = after c (ops_of ts).
Proof.
  intros H0 H1 F W. destruct (history_tasks c t0 t1 ts H0 H1 F W) as (ps & w & rs & l & reps & E & L & A & _). exists ps, w. auto.
Qed.

(* ------------------------------------------------------------------ *)
(** ** What the packs say *)
(** The counters of a pack are those of the services that ended in the last [p] seconds *)
Definition tells_services (p : Z) (w : list (Z * bool)) (t : M_Access.table) : Prop :=
  fits w -> exists sc, counters_of_samples p w sc /\
    get (of_string "GoTPS") t = Some (VFloat (f32_bits (sc_tps sc))) /\
    get (of_string "GoElapsedTime") t = Some (VDec (sc_elapsed sc)) /\
    get (of_string "GoErrorRate") t = Some (VFloat (f32_bits (sc_error_rate sc))).
(** The number of active services in a pack is the average of the numbers seen in the last [p] seconds *)
Definition tells_active (l : list Z) (t : M_Access.table) : Prop :=
  zlen l <= 2147483647 -> get (of_string "GoActiveService") t = Some (VFloat (f32_bits (f32_of_f64 (mean l)))).

Theorem C88_realtime c t0 t1 ts n r obj : 0 <= t0 -> 0 <= t1 -> ticking (Z.max t0 t1) (clock (ts ++ [TReal n r obj])) ->
  well_used c (ops_of (ts ++ [TReal n r obj])) -> countable c (ops_of (ts ++ [TReal n r obj])) ->
  exists rs l reps ps w q, follows c (ops_of ts) rs l reps /\
    tasks (ts ++ [TReal n r obj]) (world0 c t0 t1) = Some (ps ++ [PPerf q], w) /\ pc_ObjName q = obj /\ pc_Timetype q = 1 /\
    tells_services 30 (window (second n) 30 (finished reps)) (pc_Data q) /\
    tells_active (window (second n) 30 (watched c [] (ts ++ [TReal n r obj]))) (pc_Data q) /\
    get (of_string "ActiveSpeed") (pc_Data q) =
      Some (VList [VDec (running_in n (after c (ops_of ts)) 0); VDec (running_in n (after c (ops_of ts)) 1); VDec (running_in n (after c (ops_of ts)) 2)]).
Proof.
  intros H0 H1 Tk W C. pose proof (ticking_nonneg (Z.max t0 t1) _ ltac:(lia) Tk) as F.
  assert (well_used c (ops_of ts)) as W0 by (rewrite ops_snoc in W; eapply well_used_prefix; exact W).
  destruct (history_tasks c t0 t1 ts H0 H1 (proj1 (proj1 (Forall_app _ _ _) F)) W0) as (ps & w & rs & l & reps & E & L & Ea & Er & Lr & Bk & Tl & [(ses & S1 & S2 & S3) (ves & V1 & V2 & V3)]).
  destruct (history_tasks c t0 t1 _ H0 H1 F W) as (ps' & w' & _ & _ & _ & E' & _).
  exists rs, l, reps. rewrite tasks_snoc, E in E'. rewrite tasks_snoc, E. cbn [do_task] in *.
  destruct (real_tick n r obj w) as [[p w2]|] eqn:Et; [|discriminate]. injection E' as <- <-.
  unfold real_tick in Et. change (unix n) with (second n) in Et. destruct (get_active_count n (w_agent w)) as [b [[[a0 a1] a2]|]] eqn:Eg; [|discriminate].
  destruct (all_counters (second n) r (a0, a1, a2) (w_ct w)) as [[t s]|] eqn:Ec; [|discriminate].
  destruct (add_samples _ _ _) as [m|]; [|discriminate]. injection Et as <- <-.
  exists ps. eexists. exists (mk_perf_pack 0 obj 1 t).
  split. { split; [exact Er|]. split; [exact Lr|]. split; [exact Tl|]. symmetry. exact (f2_len _ _ _ Bk). }
  split; [reflexivity|]. split; [reflexivity|]. split; [reflexivity|]. cbn [pc_Data].
  destruct (C36_realtime_names (second n) r a0 a1 a2 _ t s Ec) as (sc & ms & mv & vm & mv' & N1 & N2 & N3 & G1 & G2 & G3 & G4 & G5 & _).
  rewrite clock_snoc in Tk. apply ticking_app in Tk as (Tk & Tn). cbn [ticking task_env] in Tn. destruct Tn as (Tn & _).
  destruct (proj2 S3 (Z.max t0 t1) ltac:(lia) Tk) as (K1 & K2). destruct (proj2 V3 (Z.max t0 t1) ltac:(lia) Tk) as (J1 & J2).
  rewrite ops_snoc in W, C. cbn [op_of] in W, C.
  destruct (counted c (ops_of ts) n W (countable_prefix _ _ _ W C)) as (Q1 & Q2 & Q3).
  rewrite active_do, <- Ea, Eg in Q1. cbn [snd option_map fst] in Q1. injection Q1 as A0 A1 A2.
  split; [|split].
  - intros Fi. rewrite <- S2 in Fi |- *. destruct (C33_service_window_exact t0 ses (second n) 30 H0 K1 ltac:(lia) Fi) as (m1 & sc' & m2 & X1 & X2 & X3).
    rewrite S1 in X1. injection X1 as <-. rewrite N1 in X2. injection X2 as <- <-. exists sc. auto.
  - intros Hz. rewrite watched_snoc. cbn [app watched_in].
    assert (well_used c (ops_of (ts ++ [TReal n r obj]))) as W' by (rewrite ops_snoc; exact W).
    assert (countable c (ops_of (ts ++ [TReal n r obj]))) as C' by (rewrite ops_snoc; exact C).
    pose proof (watched_range c _ W' C') as Hr.
    assert (0 <= sum_ints (window (second n) 30 (watched c [] (ts ++ [TReal n r obj]))) <= 2000 * zlen (window (second n) 30 (watched c [] (ts ++ [TReal n r obj])))) as Hs.
    { apply sum_small, window_forall. exact Hr. }
    rewrite watched_snoc in Hz, Hr, Hs. cbn [app watched_in] in Hz, Hr, Hs.
    destruct (C33_value_window_integers t1 (ves ++ [(second n, VmAdd (f64_of_int (int64 (a0 + a1 + a2))))]) (watched c [] ts ++ [(second n, running_count (after c (ops_of ts)))]) (second n) 30 H1)
      as (m1 & vc & m2 & X1 & X2 & _ & X4).
    + apply ticking_app. split; [exact J1|]. cbn [ticking]. lia.
    + rewrite last_time_app. cbn [last_time]. lia.
    + rewrite vadds_app, V2, int_adds_app, (seen_watched c ts W0 (countable_prefix _ _ _ W C)). f_equal. cbn [vadds int_adds map fst snd]. do 3 f_equal.
      rewrite int64_id by (unfold in_int64; rewrite A0, A1, A2, Ea; lia). rewrite A0, A1, A2, Ea. exact Q2.
    + eapply Forall_impl; [|exact Hr]. cbn. lia.
    + exact Hz.
    + change (Z.min 30 300) with 30. change (2 ^ 53) with 9007199254740992. lia.
    + rewrite vm_run_app, V1 in X1. cbn [vm_run vm_step] in X1. rewrite N2 in X1. injection X1 as <-. rewrite N3 in X2. injection X2 as <- <-.
      rewrite G4. unfold mean. change (Z.min 30 300) with 30 in X4. rewrite <- X4. reflexivity.
  - rewrite G5, A0, A1, A2, Ea. reflexivity.
Qed.

Theorem C88_five_minutes c t0 t1 ts n obj : 0 <= t0 -> 0 <= t1 -> ticking (Z.max t0 t1) (clock (ts ++ [TFive n obj])) ->
  well_used c (ops_of ts) -> countable c (ops_of ts) ->
  exists rs l reps ps w q, follows c (ops_of ts) rs l reps /\
    tasks (ts ++ [TFive n obj]) (world0 c t0 t1) = Some (ps ++ [PPerf q], w) /\ pc_ObjName q = obj /\ pc_Timetype q = 3 /\
    tells_services 300 (window (second n) 300 (finished reps)) (pc_Data q) /\
    tells_active (window (second n) 300 (watched c [] ts)) (pc_Data q).
Proof.
  intros H0 H1 Tk W C. pose proof (ticking_nonneg (Z.max t0 t1) _ ltac:(lia) Tk) as F.
  destruct (history_tasks c t0 t1 ts H0 H1 (proj1 (proj1 (Forall_app _ _ _) F)) W) as (ps & w & rs & l & reps & E & L & Ea & Er & Lr & Bk & Tl & [(ses & S1 & S2 & S3) (ves & V1 & V2 & V3)]).
  destruct (history_tasks c t0 t1 _ H0 H1 F) as (ps' & w' & _ & _ & _ & E' & _). { rewrite ops_snoc. cbn [op_of]. rewrite app_nil_r. exact W. }
  exists rs, l, reps. rewrite tasks_snoc, E in E'. rewrite tasks_snoc, E. cbn [do_task] in *.
  destruct (five_tick n obj w) as [[p w2]|] eqn:Et; [|discriminate]. injection E' as <- <-.
  unfold five_tick in Et. change (unix n) with (second n) in Et. destruct (five_min_counters (second n) (w_ct w)) as [[t s]|] eqn:Ec; [|discriminate]. injection Et as <- <-.
  exists ps. eexists. exists (mk_perf_pack 0 obj 3 t).
  split. { split; [exact Er|]. split; [exact Lr|]. split; [exact Tl|]. symmetry. exact (f2_len _ _ _ Bk). }
  split; [reflexivity|]. split; [reflexivity|]. split; [reflexivity|]. cbn [pc_Data].
  destruct (C36_five_minute_names (second n) _ t s Ec) as (sc & ms & vm & mv & N1 & N2 & G1 & G2 & G3 & G4 & _).
  rewrite clock_snoc in Tk. apply ticking_app in Tk as (Tk & Tn). cbn [ticking task_env] in Tn. destruct Tn as (Tn & _).
  destruct (proj2 S3 (Z.max t0 t1) ltac:(lia) Tk) as (K1 & K2). destruct (proj2 V3 (Z.max t0 t1) ltac:(lia) Tk) as (J1 & J2).
  split.
  - intros Fi. rewrite <- S2 in Fi |- *. destruct (C33_service_window_exact t0 ses (second n) 300 H0 K1 ltac:(lia) Fi) as (m1 & sc' & m2 & X1 & X2 & X3).
    rewrite S1 in X1. injection X1 as <-. rewrite N1 in X2. injection X2 as <- <-. exists sc. auto.
  - intros Hz. pose proof (watched_range c _ W C) as Hr. pose proof (sum_small _ (window_forall _ (second n) 300 _ Hr)) as Hs.
    destruct (C33_value_window_integers t1 ves (watched c [] ts) (second n) 300 H1 J1 ltac:(lia)) as (m1 & vc & m2 & X1 & X2 & _ & X4).
    + rewrite V2, (seen_watched c ts W C). reflexivity.
    + eapply Forall_impl; [|exact Hr]. cbn. lia.
    + exact Hz.
    + change (Z.min 300 300) with 300. change (2 ^ 53) with 9007199254740992. lia.
    + rewrite V1 in X1. injection X1 as <-. rewrite N2 in X2. injection X2 as <- <-. rewrite G4. unfold mean. change (Z.min 300 300) with 300 in X4. rewrite <- X4. reflexivity.
Qed.

(* ------------------------------------------------------------------ *)
(** ** A case *)
(** Two services start, one fails and ends after three seconds, then both loops wake up: 1/30 service per second, 3000 ms, 100% errors,
    one active service *)
Definition case_env (key sec : Z) (order : list (Z * Z)) : env := mkN (conf0 100 100) (sec * 1000000000) (fun _ _ => true) 0 key 7 order.
Definition case_stats : rtstats := {| rt_now := 104000000000; rt_goroutines := 9; rt_cgo := 1; rt_heap := 4096; rt_pause := 0; rt_gcs := 2 |}.
Definition case_calls : list task :=
  [TCall (case_env 11 100 []) (KStartService CNil (of_string "/a") []);
   TCall (case_env 12 100 []) (KStartService CNil (of_string "/b") []);
   TCall (case_env 13 102 []) (KMarkErrorForcibly (CTrace 0) (of_string "no"));
   TCall (case_env 14 103 []) (KEndService (CTrace 0))].
Definition case_real : task := TReal (case_env 15 104 [(12, 1)]) case_stats (of_string "/h/o").
Definition case_five : task := TFive (case_env 16 110 []) (of_string "/h/o").
Lemma case_used : well_used sconf0 (ops_of (case_calls ++ [case_real])).
Proof.
  intros p n k q E. cbn [ops_of case_calls case_real flat_map op_of app] in E.
  do 4 (destruct p as [|x p]; [injection E as <- <- <-; split; [split; vm_compute; discriminate|exact I]|injection E as <- E]).
  destruct p as [|x p]; [injection E as <- <- <-|injection E as <- E; destruct p; discriminate E].
  split; [split; vm_compute; discriminate|]. unfold sensible. cbn [snd fst n_order case_env].
  match goal with |- Permutation _ (table ?t) => replace (table t) with [(12, 1)] by (vm_compute; reflexivity) end. apply Permutation_refl.
Qed.
Lemma case_countable : countable sconf0 (ops_of (case_calls ++ [case_real])).
Proof.
  split.
  - replace (txids _) with [11; 12] by (vm_compute; reflexivity). repeat constructor; cbn; lia.
  - intros p q E. cbn [ops_of case_calls case_real flat_map op_of app] in E.
    do 5 (destruct p as [|x p]; [vm_compute; discriminate|injection E as <- E]). destruct p as [|x p]; [|discriminate E]. vm_compute. discriminate.
Qed.
Example C88_case :
  ticking (Z.max 99 99) (clock (case_calls ++ [case_real; case_five])) /\ well_used sconf0 (ops_of (case_calls ++ [case_real])) /\
  countable sconf0 (ops_of (case_calls ++ [case_real])) /\
  watched sconf0 [] (case_calls ++ [case_real]) = [(104, 1)] /\
  match tasks (case_calls ++ [case_real; case_five]) (world0 sconf0 99 99) with
  | Some ([PPerf p; PPerf q], w) =>
      match get (of_string "GoElapsedTime") (pc_Data p), get (of_string "GoErrorRate") (pc_Data p), get (of_string "ActiveSpeed") (pc_Data p),
            get (of_string "GoActiveService") (pc_Data q) with
      | Some (VDec 3000), Some (VFloat e), Some (VList [VDec a0; VDec a1; VDec a2]), Some (VFloat g) =>
          (e =? f32_bits (f32_of_int 100)) && (g =? f32_bits (f32_of_int 1)) && (a0 =? 0) && (a1 =? 1) && (a2 =? 0)
      | _, _, _, _ => false
      end
  | _ => false
  end = true.
Proof.
  split; [vm_compute; repeat split; discriminate|]. split; [exact case_used|]. split; [exact case_countable|]. split; [vm_compute; reflexivity|]. vm_compute. reflexivity.
Qed.

(* ------------------------------------------------------------------ *)
(** ** A clock before 1970 *)
(** The hypothesis on the clock is needed: the loops do not survive a clock that was set to a time before 1970 *)
Theorem C88_before_1970_refuted c t0 t1 n obj : 0 <= t0 -> 0 <= t1 -> -301 < second n < 0 -> tasks [TFive n obj] (world0 c t0 t1) = None.
Proof.
  intros H0 H1 Hn. cbn [tasks do_task]. unfold five_tick, five_min_counters, world0, service_counters, search. change (unix n) with (second n). cbn [w_ct ct_service].
  unfold get_position. cbn [m_time new_metering m_pos]. destruct (Z.eqb_spec (second n) t0) as [E|_]; [lia|].
  replace (Z.to_nat (Z.min (second n - t0) bucket_size)) with O by (unfold bucket_size; lia). cbn [advance m_pos m_table].
  change (Z.to_nat (check_period 300)) with (S 299)%nat. cbn [walk]. unfold tab_get at 1.
  replace (Z.rem (second n) bucket_size) with (second n).
  2: { unfold bucket_size. rewrite <- (Z.opp_involutive (second n)), Z.rem_opp_l by lia. rewrite Z.rem_small by lia. reflexivity. }
  replace (0 <=? second n) with false by lia. reflexivity.
Qed.

Print Assumptions C88_never_stops.
Print Assumptions C88_realtime.
Print Assumptions C88_five_minutes.
Print Assumptions C88_before_1970_refuted.
