(** Properties C48, C49, C50, C64: contexts without a trace, stuck services, traced goroutines, no panics. *)
From Verif Require Import GoInt M_Util M_Hash M_StrMatch M_Packs M_Steps M_Cache L_Cache M_Text M_Sampler M_Profile L_Profile S_Profile M_Trace L_Trace L_TraceRel S_Trace L_TraceInv L_TraceStart L_TraceSafe L_TraceActive L_TraceHist L_TraceFrame P_Trace P_Trace2.
From Coq Require Import ZifyBool Permutation.

(* ------------------------------------------------------------------ *)
(** ** C64: no panic inside the agent *)
Lemma run_snoc ops n k : forall a rs, snd (run ops a) = Some rs ->
  fst (run (ops ++ [(n, k)]) a) = fst (do_call n k (fst (run ops a))) /\
  snd (run (ops ++ [(n, k)]) a) = match snd (do_call n k (fst (run ops a))) with Some r => Some (rs ++ [r]) | None => None end.
Proof.
  induction ops as [|[m j] ops IH]; intros a rs R; cbn [run app] in *.
  - injection R as <-. cbn [fst]. destruct (do_call n k a) as [b [r|]]; cbn; auto.
  - destruct (do_call m j a) as [b [r|]]; [|discriminate]. destruct (run ops b) as [d [rs'|]] eqn:Er; [|discriminate]. injection R as <-.
    specialize (IH b rs'). rewrite Er in IH. cbn [fst snd] in *. destruct (IH eq_refl) as (I1 & I2).
    destruct (run (ops ++ [(n, k)]) b) as [e [es|]]; cbn [fst snd] in *.
    + split; [exact I1|]. destruct (snd (do_call n k d)); [|discriminate]. injection I2 as ->. reflexivity.
    + split; [exact I1|]. destruct (snd (do_call n k d)); [discriminate|reflexivity].
Qed.
Lemma well_used_prefix c p q : well_used c (p ++ q) -> well_used c p.
Proof. intros H p1 n k q1 ->. apply (H p1 n k (q1 ++ q)). rewrite <- app_assoc. reflexivity. Qed.

Record sound (a : agent) : Prop := mkSound { sd_room : roomy a; sd_table : valid_table a; sd_log : Forall not_panic (a_log a) }.
Lemma sound_run c ops : well_used c ops -> sound (after c ops) /\ exists rs, snd (run ops (a_init c)) = Some rs /\ length rs = length ops.
Proof.
  induction ops as [|[n k] ops IH] using rev_ind; intros W.
  - split; [|exists []; auto]. constructor; [intros [|h] x E; discriminate|apply valid_init|constructor].
  - destruct (IH (well_used_prefix _ _ _ W)) as ([R V L] & rs & Er & El). destruct (W ops n k [] eq_refl) as (G & S0).
    destruct (safe_call n k (after c ops) G S0 V R) as (b & r & E & Rb & l & Hl & Fl).
    destruct (run_snoc ops n k _ _ Er) as (E1 & E2). fold (after c ops) in E1, E2. rewrite E in E1, E2. cbn [fst snd] in E1, E2. split.
    + unfold after at 1. rewrite E1. constructor; [exact Rb| |rewrite Hl; apply Forall_app; auto].
      pose proof (call_effect (length (a_ctx (after c ops))) n k (after c ops) (le_n _)) as Ef. rewrite E in Ef. eapply valid_effect; [exact Ef|exact V].
    + exists (rs ++ [r]). split; [exact E2|]. rewrite !app_length. cbn. lia.
Qed.

Theorem C64_no_internal_panic c ops : well_used c ops ->
  (exists rs, snd (run ops (a_init c)) = Some rs /\ length rs = length ops) /\ ~ In (EvAlert 3 (of_string "Panic")) (a_log (after c ops)).
Proof.
  intros W. destruct (sound_run c ops W) as ([_ _ L] & R). split; [exact R|]. intros Hin.
  rewrite Forall_forall in L. exact (L _ Hin eq_refl).
Qed.
(** and even then the caller never sees it *)
Theorem C64_panics_are_contained n k a : (forall c, k <> KGoBegin c) -> k <> KActiveCount -> snd (do_call n k a) <> None.
Proof.
  intros H1 H2.
  assert (forall A B (f : A -> B) d (m : M A), snd (fmap f (recovered d m) a) <> None) as Hr.
  { intros A B f d m. unfold fmap, bind, recovered. destruct (m a) as [b [x|]]; discriminate. }
  destruct k; try (exfalso; eauto; congruence); cbn [do_call]; try apply Hr; try discriminate.
  unfold set_user, traced, fmap, bind, get_tctx. destruct c; try discriminate. destruct (nth_error (a_ctx a) h) as [x|] eqn:E; [|discriminate].
  rewrite (modify_eq _ _ _ _ E). discriminate.
Qed.

(* ------------------------------------------------------------------ *)
(** ** C48 *)
Definition is_start (k : call) : Prop := match k with KStartService _ _ _ | KStartHttp _ _ | KInherit _ _ => True | _ => False end.
(** what a call returns when there is nothing to do: nothing, false, no step, no headers; GoWithTrace still runs its function,
    with the given context *)
Definition inert_result (c : ctx) (k : call) : res :=
  match k with
  | KGo _ _ => RRun (Some c)
  | KIsStream _ | KSetAsStream _ => RBool false
  | KStartMethod _ _ _ | KStartCustom _ _ _ | KStartApi _ _ _ => RStep None
  | KStartApiProp _ _ _ _ => RApi None []
  | _ => RUnit
  end.
Theorem C48_untraced_inert n k c a : ctx_of k = Some c -> c = CNil \/ c = CPlain -> ~ is_start k -> do_call n k a = (a, Some (inert_result c k)).
Proof.
  intros E Hc Hs. destruct k; try discriminate E; try (exfalso; exact (Hs I)); injection E as ->;
    cbn [do_call inert_result]; destruct Hc as [-> | ->]; try reflexivity;
    first [destruct status as [s|]; reflexivity | destruct ptr as [p|]; reflexivity].
Qed.
(** starting on a context that is traced already gives that context back and changes nothing *)
Theorem C48_start_idempotent n k h a : (h < length (a_ctx a))%nat ->
  (exists name ip, k = KStartService (CTrace h) name ip) \/ (exists req, k = KStartHttp (CTrace h) req) ->
  do_call n k a = (a, Some (RCtx (CTrace h))).
Proof.
  intros H Hk. destruct (nth_lt _ _ H) as (x & E). destruct Hk as [(name & ip & ->)|(req & ->)]; cbn [do_call];
    unfold fmap, start_service, start_http_service, recovered; unfold bind at 1 2; cbn [get_tctx]; rewrite E; reflexivity.
Qed.
Lemma start_result n c name ip a : good n -> roomy a -> exists b r, start_service n c name ip a = (b, Some r) /\ r <> CNil /\
  (c = CNil \/ c = CPlain -> exists h, r = CTrace h /\ (h < length (a_ctx b))%nat).
Proof.
  intros G R.
  assert (safe_q (length (a_ctx a)) (start_service n c name ip) (fun r L => r <> CNil /\ (c = CNil \/ c = CPlain -> exists h, r = CTrace h /\ (h < L)%nat))) as H.
  { apply safe_recovered. cbv zeta. eapply safe_bind_q; [apply safe_get_tctx; destruct c; discriminate|].
    intros [h|] N' L HQ.
    - apply safe_same with (match c with CNil => CPlain | _ => c end). intros b Lb. split; [reflexivity|]. destruct HQ as (Hh & E).
      split; [destruct c; discriminate|]. intros [-> | ->]; discriminate.
    - eapply safe_bind_q; [apply safe_start0; exact G|]. intros h N2 L2 Hh. cbn beta in Hh. apply safe_bind; [apply safe_modify; [lia|reflexivity]|].
      intros u N3 L3. apply safe_same with (CTrace h). intros b Lb. split; [reflexivity|]. split; [discriminate|]. intros _. exists h. split; [reflexivity|lia]. }
  destruct (H a (le_n _) R) as (b & r & E & _ & _ & (Q1 & Q2) & _). exists b, r. auto.
Qed.
Lemma start_new n c name ip a : good n -> c = CNil \/ c = CPlain -> exists b y, start_service n c name ip a = (b, Some (CTrace (length (a_ctx a)))) /\
  a_ctx b = a_ctx a ++ [y] /\ x_Closed y = false /\ x_Txid y = n_key n /\ x_StartTime y = n_now n /\ x_ServiceName y = name /\ x_Error y = 0.
Proof.
  intros G Hc.
  assert (exists x0, new_tctx (cf_keep (n_conf n)) (n_key n) (n_now n) = Some x0) as (x0 & E0).
  { unfold new_tctx, new_prof. destruct G as (G1 & _). destruct (Z.ltb_spec (cf_keep (n_conf n)) 0); [lia|]. eexists. reflexivity. }
  unfold start_service, recovered.
  assert (get_tctx (match c with CNil => CPlain | _ => c end) a = (a, Some None)) as Eg by (destruct Hc as [-> | ->]; reflexivity).
  cbv zeta. rewrite (bind_some _ _ _ _ _ Eg). pose proof (start0_eq n name ip a x0 E0) as E1. cbv zeta in E1.
  destruct (new_tctx_fields _ _ _ _ E0) as (_ & _ & _ & _ & Np & _).
  destruct (add_room (env_of n (new_link n x0)) (goroutine_step n) (x_Profile x0) (good_env_of n _ G) (new_room _ _ (proj1 G) Np)) as (p & Ep & _).
  rewrite Ep in E1. rewrite (bind_some _ _ _ _ _ E1). set (y := new_named n name ip p x0) in *.
  erewrite (bind_some (modify _ _)); [|apply modify_eq; cbn [a_ctx]; apply nth_mid].
  eexists _, (set_XType XTYPE_APP y). split; [reflexivity|]. cbn [set_ctxs a_ctx]. rewrite set_snoc. split; [reflexivity|].
  unfold y, new_named, new_link. cbn. unfold new_tctx in E0. destruct (new_prof (cf_keep (n_conf n))); [|discriminate]. injection E0 as <-. cbn. auto.
Qed.
Theorem C48_start_service_returns c ops n cx name ip : well_used c ops -> good n ->
  exists r, snd (do_call n (KStartService cx name ip) (after c ops)) = Some (RCtx r) /\ r <> CNil /\
    (cx = CNil \/ cx = CPlain -> exists h, r = CTrace h /\ running (fst (do_call n (KStartService cx name ip) (after c ops))) h /\ ~ (h < length (a_ctx (after c ops)))%nat).
Proof.
  intros W G. destruct (sound_run c ops W) as ([R _ _] & _). destruct (start_result n cx name ip _ G R) as (b & r & E & Q1 & Q2).
  exists r. cbn [do_call]. unfold fmap. rewrite (bind_some _ _ _ _ _ E). split; [reflexivity|]. split; [exact Q1|]. intros Hc.
  destruct (start_new n cx name ip (after c ops) G Hc) as (b' & y & E' & Eb & Cy & _). rewrite E in E'. injection E' as <- ->.
  eexists. split; [reflexivity|]. split; [|lia]. exists y. cbn [ret fst]. rewrite Eb. split; [apply nth_mid|exact Cy].
Qed.
(** StartHttpService with a nil context traces nothing and gives a usable context *)
Theorem C48_start_http_nil n req a : do_call n (KStartHttp CNil req) a = (a, Some (RCtx CPlain)).
Proof. reflexivity. Qed.

(** With profile_step_max_keep_in_memory_count = 0 (or negative) StartService panics inside and returns nil. With 0 it leaves
    a service behind that is never closed. *)
Definition env_keep (keep bulk key now : Z) : env := mkN (conf0 keep bulk) now (fun _ _ => true) 0 key 7 [].
Theorem C48_nil_context_refuted :
  snd (do_call (env_keep 0 100 11 1000000) (KStartService CPlain (of_string "/a") []) (a_init sconf0)) = Some (RCtx CNil) /\
  snd (do_call (env_keep (-1) 100 11 1000000) (KStartService CPlain (of_string "/a") []) (a_init sconf0)) = Some (RCtx CNil) /\
  snd (do_call (env_keep 100 100 11 1000000) (KStartHttp CPlain None) (a_init sconf0)) = Some (RCtx CNil) /\
  running (fst (do_call (env_keep 0 100 11 1000000) (KStartService CPlain (of_string "/a") []) (a_init sconf0))) 0.
Proof. split; [vm_compute; reflexivity|]. split; [vm_compute; reflexivity|]. split; [vm_compute; reflexivity|]. eexists. vm_compute. split; reflexivity. Qed.

Example C48_case : well_used sconf0 [(env0 11 1000000, KStartService CNil (of_string "/a") [])] /\ good (env0 12 2000000) /\
  ctx_of (KEndHttp CPlain (Some 200)) = Some CPlain /\
  do_call (env0 12 2000000) (KStartService (CTrace 0) (of_string "/b") []) (after sconf0 [(env0 11 1000000, KStartService CNil (of_string "/a") [])]) =
    (after sconf0 [(env0 11 1000000, KStartService CNil (of_string "/a") [])], Some (RCtx (CTrace 0))).
Proof.
  split; [|split; [split; vm_compute; discriminate|split; vm_compute; reflexivity]].
  intros p n k q E. destruct p as [|o p]; [|destruct p; discriminate]. injection E as <- <- <-. split; [split; vm_compute; discriminate|exact I].
Qed.

(* ------------------------------------------------------------------ *)
(** ** C50: GoWithTrace *)
Theorem C50_goroutine_runs c ops n cx name : well_used c ops -> good n ->
  exists cx', snd (do_call n (KGo cx name) (after c ops)) = Some (RRun (Some cx')).
Proof.
  intros W G. destruct (sound_run c ops W) as ([R _ _] & _).
  assert (safe_q (length (a_ctx (after c ops))) (go_with_trace n cx name) (fun r _ => r <> None)) as H.
  { apply safe_recovered. eapply safe_bind; [apply safe_child; exact G|]. intros x N L. apply safe_same with (Some x). intros. split; [reflexivity|discriminate]. }
  destruct (H _ (le_n _) R) as (b & r & E & _ & _ & Q & _). cbn [do_call]. unfold fmap. rewrite (bind_some _ _ _ _ _ E). destruct r as [r|]; [|congruence].
  exists r. reflexivity.
Qed.
(** with the context of a running or ended service the function gets a context of its own service *)
Theorem C50_goroutine_traced c ops n p name : well_used c ops -> good n -> (p < length (a_ctx (after c ops)))%nat ->
  let b := fst (do_call n (KGo (CTrace p) name) (after c ops)) in
  let h := length (a_ctx (after c ops)) in
  snd (do_call n (KGo (CTrace p) name) (after c ops)) = Some (RRun (Some (CTrace h))) /\
  exists y, nth_error (a_ctx b) h = Some y /\ x_Closed y = false /\ x_ServiceName y = name /\ x_Txid y = n_key n.
Proof.
  intros W G Hp. cbv zeta. destruct (C50_goroutine_runs c ops n (CTrace p) name W G) as (cx & E). rewrite E. set (a := after c ops) in *.
  destruct (nth_lt _ _ Hp) as (xp & Ep). cbn [do_call] in E |- *. apply fmap_ok in E. destruct E as (o & E & E1 & ->). injection E1 as <-.
  unfold go_with_trace in *. apply recovered_ok in E; [|discriminate]. destruct E as (E & ->). apply bind_result in E. destruct E as (c' & E & E1). cbn in E1. injection E1 as ->.
  unfold bind at 1. destruct (start_child n (CTrace p) name a) as [b [c1|]] eqn:Es; [|discriminate]. cbn [snd] in E. injection E as ->. cbn [ret fst].
  unfold start_child, traced in Es. unfold bind at 1 in Es. cbn [get_tctx] in Es. rewrite Ep in Es.
  rewrite (bind_some _ _ _ _ _ (read_eq _ _ _ _ Ep)) in Es.
  assert (exists x0, new_tctx (cf_keep (n_conf n)) (n_key n) (n_now n) = Some x0) as (x0 & E0).
  { unfold new_tctx, new_prof. destruct G as (G1 & _). destruct (Z.ltb_spec (cf_keep (n_conf n)) 0); [lia|]. eexists. reflexivity. }
  pose proof (start0_eq n name (x_RemoteIp xp) a x0 E0) as E2. cbv zeta in E2.
  destruct (new_tctx_fields _ _ _ _ E0) as (_ & _ & _ & _ & Np & _).
  destruct (add_room (env_of n (new_link n x0)) (goroutine_step n) (x_Profile x0) (good_env_of n _ G) (new_room _ _ (proj1 G) Np)) as (q & Eq & _).
  rewrite Eq in E2. rewrite (bind_some _ _ _ _ _ E2) in Es. set (y := new_named n name (x_RemoteIp xp) q x0) in *.
  set (h := length (a_ctx a)) in *. set (a1 := mkA _ _ _ _ _) in Es. assert (nth_error (a_ctx a1) h = Some y) as Ey by apply nth_mid.
  set (Q := fun (_ : nat) x x' => x_Closed x' = x_Closed x /\ x_ServiceName x' = x_ServiceName x /\ x_Txid x' = x_Txid x).
  assert (forall i x, Q i x x) as Qr by (unfold Q; auto).
  assert (forall i x x' x'', Q i x x' -> Q i x' x'' -> Q i x x'') as Qt by (unfold Q; intros i x x' x'' (A1 & A2 & A3) (B1 & B2 & B3); repeat split; congruence).
  match type of Es with ?m _ = _ => assert (fr (S h) Q m) as F end.
  { unfold millis, profile_add. fr_tac Qr Qt ltac:(unfold Q; cbn; auto). }
  specialize (F a1). rewrite Es in F. destruct F as (_ & F). { unfold a1. cbn [a_ctx]. rewrite app_length. cbn. fold h. lia. }
  destruct (F h y ltac:(lia) Ey) as (y' & Ey' & Q1 & Q2 & Q3). cbn [fst] in Ey'.
  split; [|exists y'; split; [exact Ey'|]].
  - match type of Es with ?m _ = _ => assert (exists z, snd (m a1) = Some z /\ z = cx) as (z & Er & Ez) by (eexists; split; [rewrite Es; reflexivity|reflexivity]) end.
    repeat (apply bind_result in Er; destruct Er as (? & _ & Er)). cbn [ret snd] in Er. congruence.
  - rewrite Q1, Q2, Q3. unfold y, new_named, new_link. cbn. unfold new_tctx in E0. destruct (new_prof (cf_keep (n_conf n))); [|discriminate]. injection E0 as <-. auto.
Qed.
(** With no room for profile steps, or a zero batch size, GoWithTrace never starts the user's function. *)
Theorem C50_not_started_refuted :
  let a := after sconf0 [(env0 11 1000000, KStartService CNil (of_string "/a") [])] in
  snd (do_call (env_keep 0 100 12 2000000) (KGo (CTrace 0) (of_string "w")) a) = Some (RRun None) /\
  snd (do_call (env_keep (-5) 100 12 2000000) (KGo (CTrace 0) (of_string "w")) a) = Some (RRun None) /\
  snd (do_call (env_keep 1 0 12 2000000) (KGo (CTrace 0) (of_string "w")) a) = Some (RRun None).
Proof. vm_compute. auto. Qed.
Example C50_case : well_used sconf0 [(env0 11 1000000, KStartService CNil (of_string "/a") [])] /\ good (env0 12 2000000) /\
  (0 < length (a_ctx (after sconf0 [(env0 11 1000000, KStartService CNil (of_string "/a") [])])))%nat.
Proof. split; [apply C48_case|]. split; [apply C48_case|]. vm_compute. lia. Qed.

(* ------------------------------------------------------------------ *)
(** ** C49: counting the active services *)
Lemma bucket_cases n x : bucket n x = 0 \/ bucket n x = 1 \/ bucket n x = 2.
Proof. unfold bucket. destruct (_ <=? _); [auto|]. destruct (_ <=? _); auto. Qed.
Lemma buckets_add_up n a : running_in n a 0 + running_in n a 1 + running_in n a 2 = running_count a.
Proof.
  unfold running_in, running_count, zlen. induction (a_ctx a) as [|x l IH]; [reflexivity|]. cbn [filter].
  destruct (x_Closed x); cbn [negb andb]; [exact IH|]. destruct (bucket_cases n x) as [-> | [-> | ->]]; cbn [Z.eqb Pos.eqb length]; rewrite ?Nat2Z.inj_succ; lia.
Qed.

Theorem C49_stuck_services c ops n : well_used c ops -> good n -> NoDup (txids (after c ops)) ->
  (forall p q, ops = p ++ q -> running_count (after c p) <= 10000) -> running_count (after c ops) <= 2000 ->
  Permutation (n_order n) (table (a_active (after c ops))) ->
  let a := after c ops in
  let b := fst (do_call n KActiveCount a) in
  snd (do_call n KActiveCount a) = Some (RCounts (running_in n a 0) (running_in n a 1) (running_in n a 2)) /\
  running_in n a 0 + running_in n a 1 + running_in n a 2 = running_count a /\
  (forall h x, nth_error (a_ctx a) h = Some x -> x_Closed x = false -> stuck n x -> cf_stuck_remove (n_conf n) = true ->
     exists y p, nth_error (a_ctx b) h = Some y /\ x_Closed y = true /\ x_Error y <> 0 /\ (x_Error x <> 0 -> x_Error y = x_Error x) /\
       In (EvXlog h p) (a_log b) /\ xl_Txid p = x_Txid x /\ xl_Error p = x_Error y /\ find_by_txid (x_Txid x) b = None) /\
  (forall h x, nth_error (a_ctx a) h = Some x -> ~ (x_Closed x = false /\ stuck n x /\ cf_stuck_remove (n_conf n) = true) ->
     nth_error (a_ctx b) h = Some x /\ find_by_txid (x_Txid x) b = find_by_txid (x_Txid x) a).
Proof.
  intros W G Nd Hc H2 Hp. cbv zeta. destruct (sound_run c ops W) as ([R V _] & _). pose proof (tabled_run ops _ (tabled_init c) Nd Hc) as T. fold (after c ops) in T.
  set (a := after c ops) in *. pose proof (handles_perm a _ T Hp) as Pm. set (vs := handles (lra_values (a_active a) (n_order n))) in *.
  assert (forall h, In h vs <-> exists x, nth_error (a_ctx a) h = Some x /\ x_Closed x = false) as Hin.
  { intros h. rewrite (Permutation_in' (eq_refl h) Pm), open_idx_in. unfold flags. split.
    - intros (g & t & -> & E). cbn in E |- *. rewrite nth_error_map in E. destruct (nth_error (a_ctx a) g) as [x|] eqn:Eg; [|discriminate].
      injection E as E1 E2. exists x. auto.
    - intros (x & E & Cx). exists h, (x_Txid x). split; [reflexivity|]. rewrite nth_error_map, E. unfold flag. cbn. rewrite Cx. reflexivity. }
  assert (zlen vs <= 2000) as Hl.
  { unfold zlen. rewrite (Permutation_length Pm). change (zlen (open_idx 0 (flags a)) <= 2000). unfold flags. rewrite count_all. exact H2. }
  assert (NoDup vs) as Nv by (eapply Permutation_NoDup; [symmetry; exact Pm|apply open_idx_nodup]).
  destruct (loop_spec n vs G 0 0 0 0 a ltac:(lia) Nv) as (b & E & K1 & K2 & _).
  { intros h Hh. apply Hin in Hh. destruct Hh as (x & Ex & Cx). exists x. split; [exact Ex|]. split; [exact Cx|]. exact (R h x Ex). }
  assert (do_call n KActiveCount a = (b, Some (RCounts (running_in n a 0) (running_in n a 1) (running_in n a 2)))) as Ed.
  { cbn [do_call]. unfold fmap, get_active_count. unfold bind. fold vs. rewrite E. cbn [fst snd].
    assert (forall i, 0 + count_b n a vs i = running_in n a i) as Hb; [|rewrite !Hb; reflexivity].
    intros i. rewrite Z.add_0_l. unfold count_b, running_in. rewrite (filter_perm_len _ _ _ Pm). unfold flags.
    apply (count_idx (fun x => bucket n x =? i) (a_ctx a) 0 (nth_error (a_ctx a))). auto. }
  rewrite Ed. cbn [fst snd].
  assert (ends 0 (zb n) a b) as En by (pose proof (rel_active_loop 0 n vs 0 0 0 0 a) as H; rewrite E in H; exact H).
  assert (NoDup (txids b)) as Nb by (rewrite (ends_txids _ _ _ _ En); exact Nd).
  pose proof (tabled_ends _ _ _ _ En Nd T) as Tb.
  split; [reflexivity|]. split; [apply buckets_add_up|].
  assert (forall i j x y, nth_error (a_ctx b) i = Some x -> nth_error (a_ctx b) j = Some y -> x_Txid x = x_Txid y -> i = j) as Ui.
  { intros i j x y E1 E2 Et. apply (proj1 (NoDup_nth_error (txids b)) Nb); [unfold txids; rewrite map_length; apply nth_error_Some; congruence|].
    unfold txids. rewrite (map_nth_error x_Txid _ _ E1), (map_nth_error x_Txid _ _ E2). congruence. }
  split.
  - intros h x Ex Cx Sx Rm. destruct (K2 h x Ex) as (y & p & Ey & Cy & Ry & Ty & Ky & Ip & Tp & Rp); [apply Hin; eauto|exact Sx|exact Rm|].
    exists y, p. repeat (split; [assumption|]). destruct (find_by_txid (x_Txid x) b) as [g|] eqn:F; [|reflexivity].
    apply (tabled_find _ _ Tb Nb) in F. destruct F as (z & Ez & Tz & Cz). assert (g = h) as -> by (eapply Ui; [exact Ez|exact Ey|congruence]). congruence.
  - intros h x Ex Hn. assert (nth_error (a_ctx b) h = Some x) as Eb.
    { apply (K1 h x Ex). intros (Hv & Sx & Rm). apply Hin in Hv. destruct Hv as (x' & Ex' & Cx). apply Hn. split; [congruence|auto]. }
    split; [exact Eb|].
    assert (forall g, find_by_txid (x_Txid x) b = Some g <-> find_by_txid (x_Txid x) a = Some g) as Hf.
    { intros g. rewrite (tabled_find _ _ Tb Nb), (tabled_find _ _ T Nd).
      assert (forall g z, nth_error (a_ctx a) g = Some z -> x_Txid z = x_Txid x -> g = h) as Ua.
      { intros g' z Ez Tz. apply (proj1 (NoDup_nth_error (txids a)) Nd); [unfold txids; rewrite map_length; apply nth_error_Some; congruence|].
        unfold txids. rewrite (map_nth_error x_Txid _ _ Ez), (map_nth_error x_Txid _ _ Ex). congruence. }
      split; intros (z & Ez & Tz & Cz).
      - assert (g = h) as -> by (eapply Ui; [exact Ez|exact Eb|exact Tz]). exists x. rewrite Eb in Ez. injection Ez as <-. auto.
      - assert (g = h) as -> by (eapply Ua; [exact Ez|exact Tz]). exists x. rewrite Ex in Ez. injection Ez as <-. auto. }
    destruct (find_by_txid (x_Txid x) b) as [g|] eqn:F1, (find_by_txid (x_Txid x) a) as [g'|] eqn:F2; try reflexivity.
    + f_equal. destruct (Hf g) as (Hg & _). specialize (Hg eq_refl). congruence.
    + specialize (Hf g). destruct Hf as (Hf & _). specialize (Hf eq_refl). congruence.
    + specialize (Hf g'). destruct Hf as (_ & Hf). specialize (Hf eq_refl). congruence.
Qed.

(** two services, one of them stuck *)
Definition stuck_ops : list (env * call) :=
  [(env0 11 1000000, KStartService CNil (of_string "/a") []); (env0 12 400000000000, KStartService CNil (of_string "/b") [])].
Definition stuck_env : env := mkN (conf0 100 100) 404000000000 (fun _ _ => true) 0 13 7 (table (a_active (after sconf0 stuck_ops))).
Example C49_case : well_used sconf0 stuck_ops /\ good stuck_env /\ NoDup (txids (after sconf0 stuck_ops)) /\
  (forall p q, stuck_ops = p ++ q -> running_count (after sconf0 p) <= 10000) /\ running_count (after sconf0 stuck_ops) <= 2000 /\
  Permutation (n_order stuck_env) (table (a_active (after sconf0 stuck_ops))) /\
  snd (do_call stuck_env KActiveCount (after sconf0 stuck_ops)) = Some (RCounts 0 1 1) /\
  find_by_txid 11 (fst (do_call stuck_env KActiveCount (after sconf0 stuck_ops))) = None /\
  find_by_txid 12 (fst (do_call stuck_env KActiveCount (after sconf0 stuck_ops))) = Some 1%nat.
Proof.
  split. { intros p n k q E. destruct p as [|o [|o' p]]; [| |destruct p; discriminate]; injection E as <- <- <-; (split; [split; vm_compute; discriminate|exact I]). }
  split; [split; vm_compute; discriminate|].
  split; [replace (txids (after sconf0 stuck_ops)) with [11; 12] by (vm_compute; reflexivity); repeat constructor; cbn; intuition lia|].
  split. { intros p q E. apply Z.leb_le. revert p q E. apply (prefix_check (fun p => running_count (after sconf0 p) <=? 10000)). vm_compute. reflexivity. }
  split; [vm_compute; discriminate|]. split; [apply Permutation_refl|]. vm_compute. auto.
Qed.

(** With more than 2000 active services the rest is neither counted nor removed. *)
Lemma loop_cut n vs : forall count c0 c1 c2 a, 0 <= count <= 2000 ->
  active_loop n count vs c0 c1 c2 a = active_loop n count (firstn (Z.to_nat (2000 - count)) vs) c0 c1 c2 a.
Proof.
  induction vs as [|h vs IH]; intros count c0 c1 c2 a Hc; [rewrite firstn_nil; reflexivity|].
  destruct (Z.eq_dec count 2000) as [-> |Hne].
  - change (Z.to_nat (2000 - 2000)) with 0%nat. cbn [firstn active_loop]. reflexivity.
  - replace (Z.to_nat (2000 - count)) with (S (Z.to_nat (2000 - (count + 1)))) by lia. cbn [firstn active_loop].
    destruct (Z.ltb_spec 2000 (count + 1)); [lia|].
    assert (forall A (m : M A) f g b, (forall x b', f x b' = g x b' :> agent * option (Z * Z * Z)) -> bind m f b = bind m g b) as Hb.
    { intros A m f g b Hfg. unfold bind. destruct (m b) as [b' [x|]]; [apply Hfg|reflexivity]. }
    apply Hb. intros e b1. destruct (if e <=? cf_yellow (n_conf n) then _ else _) as [[d0 d1] d2]. apply Hb. intros u b2. apply IH. lia.
Qed.
Lemma count_b_sum n a vs : (forall h, In h vs -> exists x, nth_error (a_ctx a) h = Some x) -> count_b n a vs 0 + count_b n a vs 1 + count_b n a vs 2 = zlen vs.
Proof.
  induction vs as [|h vs IH]; intros H; [reflexivity|]. rewrite !count_b_cons. destruct (H h (or_introl eq_refl)) as (x & ->).
  specialize (IH (fun g Hg => H g (or_intror Hg))). unfold zlen in *. cbn [length]. rewrite Nat2Z.inj_succ.
  destruct (bucket_cases n x) as [-> | [-> | ->]]; cbn [Z.eqb Pos.eqb]; lia.
Qed.
Theorem C49_only_2000_counted c ops n : well_used c ops -> good n -> NoDup (txids (after c ops)) ->
  (forall p q, ops = p ++ q -> running_count (after c p) <= 10000) -> 2000 < running_count (after c ops) ->
  Permutation (n_order n) (table (a_active (after c ops))) ->
  (exists c0 c1 c2, snd (do_call n KActiveCount (after c ops)) = Some (RCounts c0 c1 c2) /\ c0 + c1 + c2 = 2000) /\
  exists h x, nth_error (a_ctx (after c ops)) h = Some x /\ x_Closed x = false /\ nth_error (a_ctx (fst (do_call n KActiveCount (after c ops)))) h = Some x.
Proof.
  intros W G Nd Hc H2 Hp. destruct (sound_run c ops W) as ([R V _] & _). pose proof (tabled_run ops _ (tabled_init c) Nd Hc) as T. fold (after c ops) in T.
  set (a := after c ops) in *. pose proof (handles_perm a _ T Hp) as Pm. set (vs := handles (lra_values (a_active a) (n_order n))) in *.
  assert (forall h, In h vs -> exists x, nth_error (a_ctx a) h = Some x /\ x_Closed x = false) as Hin.
  { intros h. rewrite (Permutation_in' (eq_refl h) Pm), open_idx_in. unfold flags. intros (g & t & -> & E). cbn in E |- *. rewrite nth_error_map in E.
    destruct (nth_error (a_ctx a) g) as [x|] eqn:Eg; [|discriminate]. injection E as E1 E2. exists x. auto. }
  assert (2000 < zlen vs) as Hl.
  { unfold zlen. rewrite (Permutation_length Pm). change (2000 < zlen (open_idx 0 (flags a))). unfold flags. rewrite count_all. exact H2. }
  assert (NoDup vs) as Nv by (eapply Permutation_NoDup; [symmetry; exact Pm|apply open_idx_nodup]).
  set (k := Z.to_nat 2000). pose proof (firstn_skipn k vs) as Es. set (us := firstn k vs) in *. set (ws := skipn k vs) in *.
  assert (zlen us = 2000) as Lu by (unfold zlen, us, k in *; rewrite firstn_length; lia).
  destruct ws as [|w ws1] eqn:Ew. { rewrite app_nil_r in Es. rewrite <- Es in Hl. lia. }
  assert (forall h, In h us -> In h vs) as Hu by (intros h Hh; rewrite <- Es; apply in_or_app; auto).
  assert (In w vs) as Hw by (rewrite <- Es; apply in_or_app; right; left; reflexivity).
  assert (~ In w us) as Nw. { intros Hx. rewrite <- Es in Nv. apply NoDup_remove_2 in Nv. apply Nv. apply in_or_app. auto. }
  assert (NoDup us) as Nu by (rewrite <- Es in Nv; eapply nodup_app_l; exact Nv).
  destruct (loop_spec n us G 0 0 0 0 a ltac:(lia) Nu) as (b & E & K1 & _ & _).
  { intros h Hh. destruct (Hin h (Hu h Hh)) as (x & Ex & Cx). exists x. split; [exact Ex|]. split; [exact Cx|]. exact (R h x Ex). }
  assert (do_call n KActiveCount a = (b, Some (RCounts (0 + count_b n a us 0) (0 + count_b n a us 1) (0 + count_b n a us 2)))) as Ed.
  { cbn [do_call]. unfold fmap, get_active_count. unfold bind. fold vs. rewrite loop_cut by lia. replace (2000 - 0) with 2000 by lia. fold k us. rewrite E. reflexivity. }
  rewrite Ed. cbn [fst snd]. split.
  - eexists _, _, _. split; [reflexivity|]. rewrite !Z.add_0_l, count_b_sum; [exact Lu|]. intros h Hh. destruct (Hin h (Hu h Hh)) as (x & Ex & _). eauto.
  - destruct (Hin w Hw) as (x & Ex & Cx). exists w, x. split; [exact Ex|]. split; [exact Cx|]. apply K1; [exact Ex|]. tauto.
Qed.

(** such histories exist: [k] services started and never ended *)
Definition many_ops (k : nat) : list (env * call) := map (fun i => (env0 (Z.of_nat i) 1000000, KStartService CNil (of_string "/a") [])) (seq 0 k).
Lemma env0_good key now : good (env0 key now). Proof. split; cbn; lia. Qed.
Lemma many_used k : well_used sconf0 (many_ops k).
Proof.
  intros p n o q E. assert (In (n, o) (many_ops k)) as Hin by (rewrite E; apply in_or_app; right; left; reflexivity).
  apply in_map_iff in Hin. destruct Hin as (i & Ei & _). assert (n = env0 (Z.of_nat i) 1000000) as -> by congruence.
  assert (o = KStartService CNil (of_string "/a") []) as -> by congruence. split; [apply env0_good|exact I].
Qed.
Lemma many_state k : txids (after sconf0 (many_ops k)) = map Z.of_nat (seq 0 k) /\ running_count (after sconf0 (many_ops k)) = Z.of_nat k /\
  forall h x, nth_error (a_ctx (after sconf0 (many_ops k))) h = Some x -> x_StartTime x = 1000000.
Proof.
  induction k as [|k (I1 & I2 & I3)]; [split; [reflexivity|split; [reflexivity|intros [|h] x E; discriminate]]|].
  unfold many_ops. rewrite seq_S, !map_app. cbn [map Nat.add]. fold (many_ops k).
  destruct (sound_run sconf0 (many_ops k) (many_used k)) as (_ & rs & Er & _).
  unfold after. destruct (run_snoc (many_ops k) (env0 (Z.of_nat k) 1000000) (KStartService CNil (of_string "/a") []) (a_init sconf0) rs Er) as (-> & _). fold (after sconf0 (many_ops k)).
  destruct (start_new (env0 (Z.of_nat k) 1000000) CNil (of_string "/a") [] (after sconf0 (many_ops k)) (env0_good _ _) (or_introl eq_refl)) as (b & y & E & Eb & Cy & Ty & Sy & _).
  cbn [do_call]. unfold fmap. rewrite (bind_some _ _ _ _ _ E). cbn [ret fst]. unfold txids, running_count in *. rewrite Eb, map_app, filter_app. cbn [map filter].
  rewrite Cy. cbn [negb]. split; [rewrite I1, Ty; reflexivity|]. split.
  - unfold zlen in *. rewrite app_length. cbn [length]. lia.
  - intros h x Ex. destruct (Nat.lt_ge_cases h (length (a_ctx (after sconf0 (many_ops k))))) as [H|H].
    + rewrite nth_error_app1 in Ex by exact H. exact (I3 h x Ex).
    + rewrite nth_error_app2 in Ex by exact H. destruct (h - _)%nat as [|d]; [|destruct d; discriminate]. injection Ex as <-. exact Sy.
Qed.
Lemma many_prefix k p q : many_ops k = p ++ q -> p = many_ops (length p) /\ (length p <= k)%nat.
Proof.
  intros E. assert (length p <= k)%nat as L by (apply (f_equal (@length _)) in E; unfold many_ops in E; rewrite map_length, seq_length, app_length in E; lia).
  split; [|exact L]. replace p with (firstn (length p) (many_ops k)) at 1 by (rewrite E, firstn_app, Nat.sub_diag, firstn_all, firstn_O, app_nil_r; reflexivity).
  unfold many_ops. rewrite firstn_map. f_equal. clear - L. revert L. generalize (length p). intros m L.
  replace k with (m + (k - m))%nat at 1 by lia. rewrite seq_app, firstn_app, seq_length, Nat.sub_diag, firstn_O, app_nil_r.
  rewrite <- (seq_length m 0) at 1. apply firstn_all.
Qed.
Theorem C49_many_services_refuted : exists ops n,
  (well_used sconf0 ops /\ good n /\ NoDup (txids (after sconf0 ops)) /\ (forall p q, ops = p ++ q -> running_count (after sconf0 p) <= 10000) /\
   Permutation (n_order n) (table (a_active (after sconf0 ops))) /\ cf_stuck_remove (n_conf n) = true) /\
  running_count (after sconf0 ops) = 5000 /\ (forall h x, nth_error (a_ctx (after sconf0 ops)) h = Some x -> stuck n x) /\
  exists c0 c1 c2, snd (do_call n KActiveCount (after sconf0 ops)) = Some (RCounts c0 c1 c2) /\ c0 + c1 + c2 = 2000 /\
  exists h, running (after sconf0 ops) h /\ running (fst (do_call n KActiveCount (after sconf0 ops))) h.
Proof.
  set (k := Z.to_nat 5000). assert (Z.of_nat k = 5000) as Hk by (unfold k; apply Z2Nat.id; discriminate). clearbody k. exists (many_ops k). destruct (many_state k) as (S1 & S2 & S3).
  set (n := mkN (conf0 100 100) 404000000000 (fun _ _ => true) 0 13 7 (table (a_active (after sconf0 (many_ops k))))). exists n.
  assert (good n) as G by (split; cbn; lia).
  assert (NoDup (txids (after sconf0 (many_ops k)))) as Nd by (rewrite S1; apply FinFun.Injective_map_NoDup; [intros i j Hij; apply Nat2Z.inj; exact Hij|apply seq_NoDup]).
  assert (forall p q, many_ops k = p ++ q -> running_count (after sconf0 p) <= 10000) as Hp.
  { intros p q E. apply many_prefix in E. destruct E as (Ep & L). destruct (many_state (length p)) as (_ & Er & _). rewrite <- Ep in Er. rewrite Er. lia. }
  assert (Permutation (n_order n) (table (a_active (after sconf0 (many_ops k))))) as Pm by apply Permutation_refl.
  split; [split; [apply many_used|]; split; [exact G|]; split; [exact Nd|]; split; [exact Hp|]; split; [exact Pm|reflexivity]|].
  split; [lia|]. split.
  - intros h x E. apply S3 in E. unfold stuck, running_ms, n. cbn [n_conf n_now conf0 cf_stuck_ms]. rewrite E. vm_compute. reflexivity.
  - destruct (C49_only_2000_counted sconf0 (many_ops k) n (many_used k) G Nd Hp ltac:(lia) Pm) as ((c0 & c1 & c2 & E1 & E2) & h & x & E3 & E4 & E5).
    exists c0, c1, c2. split; [exact E1|]. split; [exact E2|]. exists h. split; exists x; auto.
Qed.

Print Assumptions C64_no_internal_panic.
Print Assumptions C64_panics_are_contained.
Print Assumptions C48_untraced_inert.
Print Assumptions C48_start_idempotent.
Print Assumptions C48_start_service_returns.
Print Assumptions C48_start_http_nil.
Print Assumptions C48_nil_context_refuted.
Print Assumptions C50_goroutine_runs.
Print Assumptions C50_goroutine_traced.
Print Assumptions C50_not_started_refuted.
Print Assumptions C49_stuck_services.
Print Assumptions C49_only_2000_counted.
Print Assumptions C49_many_services_refuted.
