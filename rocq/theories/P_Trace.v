(** Properties C40 (trace part), C41 - C44, C46, C48 - C50: the tracing API over all histories of calls. *)
From Verif Require Import GoInt M_Util M_Hash M_StrMatch M_Packs M_Steps M_Cache L_Cache M_Text M_Sampler M_Profile L_Profile S_Profile M_Trace L_Trace L_TraceRel S_Trace L_TraceInv L_TraceStart L_TraceSafe L_TraceActive M_TraceConc.
From Coq Require Import ZifyBool Permutation Relation_Operators.

(* ------------------------------------------------------------------ *)
(** a configuration and environment for the examples *)
Definition rates_off := mkRates false false 100 2 500 7 1000 15 3000.
Definition sconf0 := mkSConf [] true [] rates_off rates_off [] rates_off [] rates_off [].
Definition conf0 (keep bulk : Z) : conf := mkConf keep bulk 77 3000 8000 300000 true false false [] false sconf0.
Definition env0 (key now : Z) : env := mkN (conf0 100 100) now (fun _ _ => true) 0 key 7 [].

(* ------------------------------------------------------------------ *)
(** ** Ending: what an end call does *)

(** EndHttpService stores the status first *)
Definition with_status (k : call) (x : tctx) : tctx := match k with KEndHttp _ (Some code) => set_Status (int32 code) x | _ => x end.

Lemma end_state_upd n h x p ev a y : end_state n h x p ev (upd a h y) = end_state n h x p ev a.
Proof. unfold end_state, upd. cbn [set_ctxs a_ctx a_text a_active a_sampler a_log]. rewrite list_set_twice. reflexivity. Qed.

Lemma end_any_open n h a x : nth_error (a_ctx a) h = Some x -> x_Closed x = false -> end_any n (CTrace h) a = end_tctx n h a.
Proof.
  intros E C. unfold end_any, traced. unfold bind at 1. cbn [get_tctx]. rewrite E. rewrite (bind_some _ _ _ _ _ (read_eq _ _ _ _ E)), C. reflexivity.
Qed.
Lemma end_any_closed n h a x : nth_error (a_ctx a) h = Some x -> x_Closed x = true -> end_any n (CTrace h) a = (a, Some tt).
Proof.
  intros E C. unfold end_any, traced. unfold bind at 1. cbn [get_tctx]. rewrite E. rewrite (bind_some _ _ _ _ _ (read_eq _ _ _ _ E)), C. reflexivity.
Qed.

Lemma end_call_eq n k h a x : is_end (CTrace h) k -> nth_error (a_ctx a) h = Some x -> x_Closed x = false -> cf_bulk (n_conf n) <> 0 ->
  let y := with_status k x in
  let d := discard_of n a y in
  exists p, close (env_of n (closed_ctx y)) (d =? DISCARD_NONE) (x_Profile y) = Some p /\
    do_call n k a = (end_state n h y p (end_events n h y d) a, Some RUnit).
Proof.
  intros Hk E C Hb. cbv zeta.
  assert (forall y, exists p, close (env_of n (closed_ctx y)) (discard_of n a y =? DISCARD_NONE) (x_Profile y) = Some p) as Hc.
  { intros y. destruct (close _ _ _) as [p|] eqn:Ec; [exists p; reflexivity|]. apply close_none in Ec. change (e_bulk _) with (cf_bulk (n_conf n)) in Ec. lia. }
  assert (forall c, c = KEndService (CTrace h) \/ c = KGoEnd (CTrace h) -> exists p, close (env_of n (closed_ctx x)) (discard_of n a x =? DISCARD_NONE) (x_Profile x) = Some p /\
    do_call n c a = (end_state n h x p (end_events n h x (discard_of n a x)) a, Some RUnit)) as Hs.
  { intros c Hc'. destruct (Hc x) as (p & Ep). exists p. split; [exact Ep|].
    assert (end_service n (CTrace h) a = (end_state n h x p (end_events n h x (discard_of n a x)) a, Some tt)) as Ee.
    { unfold end_service, recovered. rewrite (end_any_open n h a x E C), (end_open _ _ _ _ E C). cbv zeta. rewrite Ep. reflexivity. }
    destruct Hc' as [-> | ->]; cbn [do_call]; unfold fmap, bind; rewrite Ee; reflexivity. }
  destruct Hk as [-> | [-> |(s & ->)]]; [apply Hs; auto|apply Hs; auto|].
  destruct s as [code|]; cbn [with_status].
  - destruct (Hc (set_Status (int32 code) x)) as (p & Ep). exists p. split; [exact Ep|].
    cbn [do_call]. unfold fmap, bind at 1, end_http_service, recovered, traced. unfold bind at 1. cbn [get_tctx]. rewrite E.
    rewrite (bind_some _ _ _ _ _ (read_eq _ _ _ _ E)), C. rewrite (bind_some _ _ _ _ _ (modify_eq _ _ _ _ E)).
    set (y := set_Status (int32 code) x). fold (upd a h y).
    assert (nth_error (a_ctx (upd a h y)) h = Some y) as Ey by (eapply nth_upd; exact E).
    rewrite (end_any_open n h _ y Ey C), (end_open _ _ _ _ Ey C). cbv zeta.
    change (discard_of n (upd a h y) y) with (discard_of n a y). fold y in Ep. rewrite Ep, end_state_upd. reflexivity.
  - destruct (Hc x) as (p & Ep). exists p. split; [exact Ep|].
    cbn [do_call]. unfold fmap, bind, end_http_service, recovered. rewrite (end_any_open n h a x E C), (end_open _ _ _ _ E C). cbv zeta. rewrite Ep. reflexivity.
Qed.

(* ------------------------------------------------------------------ *)
(** ** C41 *)

(** Over any history: a service that was ended contributed exactly one sample, one that is running none; at most one
    xlog, and only after the end. (Calls are taken one at a time; concurrent ends: below.) *)
Theorem C41_each_service_once_partial c ops : Forall (fun nk => cf_bulk (n_conf (fst nk)) <> 0) ops ->
  let a := after c ops in
  (forall h, ended a h -> samples h (a_log a) = 1%nat /\ (xlogs h (a_log a) <= 1)%nat) /\
  (forall h, running a h -> samples h (a_log a) = 0%nat /\ xlogs h (a_log a) = 0%nat).
Proof.
  intros F a. destruct (once_run c ops F) as [O1 O2 O3 O4]. fold a in O1, O2, O3, O4. split.
  - intros h (x & E & C). specialize (O1 h x E). rewrite C in O1. specialize (O3 h). lia.
  - intros h (x & E & C). specialize (O1 h x E). rewrite C in O1. specialize (O3 h). lia.
Qed.

(** the first end call ends the service and contributes the sample *)
Theorem C41_first_end n k h a : is_end (CTrace h) k -> running a h -> cf_bulk (n_conf n) <> 0 ->
  let a' := fst (do_call n k a) in
  ended a' h /\ samples h (a_log a') = S (samples h (a_log a)) /\
  (forall g, g <> h -> nth_error (a_ctx a') g = nth_error (a_ctx a) g /\ samples g (a_log a') = samples g (a_log a) /\ xlogs g (a_log a') = xlogs g (a_log a)).
Proof.
  intros Hk (x & E & C) Hb. cbv zeta. destruct (end_call_eq n k h a x Hk E C Hb) as (p & _ & ->). cbn [fst]. set (y := with_status k x).
  assert (h < length (a_ctx a))%nat as Hh by (apply nth_error_Some; congruence). split; [|split].
  - exists (set_Profile p (closed_ctx y)). split; [apply list_set_same; exact Hh|reflexivity].
  - cbn [end_state a_log]. rewrite samples_app. unfold end_events, samples at 2. cbn [filter is_meter]. rewrite Nat.eqb_refl.
    destruct (sends y (discard_of n a y)); cbn [filter is_meter length]; lia.
  - intros g Hg. cbn [end_state a_ctx a_log]. split; [apply list_set_other; congruence|]. rewrite samples_app, xlogs_app.
    assert (Nat.eqb g h = false) as Hf by (apply Nat.eqb_neq; exact Hg).
    unfold end_events, samples at 2, xlogs at 2. destruct (sends y (discard_of n a y)); cbn [filter is_meter is_xlog]; rewrite ?Hf; cbn; lia.
Qed.

(** every further end call changes nothing at all *)
Theorem C41_later_ends_inert n k h a : is_end (CTrace h) k -> ended a h -> fst (do_call n k a) = a.
Proof.
  intros Hk (x & E & C).
  destruct Hk as [-> | [-> |(s & ->)]]; cbn [do_call]; unfold fmap, bind.
  - unfold end_service, recovered. rewrite (end_any_closed _ _ _ _ E C). reflexivity.
  - unfold end_service, recovered. rewrite (end_any_closed _ _ _ _ E C). reflexivity.
  - unfold end_http_service, recovered. destruct s as [code|]; [|rewrite (end_any_closed _ _ _ _ E C); reflexivity].
    unfold traced, bind. cbn [get_tctx]. rewrite E. unfold read. rewrite E, C. reflexivity.
Qed.

Definition demo_ops : list (env * call) :=
  [(env0 11 1000000, KStartService CNil (of_string "/a") (of_string "10.0.0.1:80"));
   (env0 12 2000000, KStartService CPlain (of_string "/b") (of_string "10.0.0.2"));
   (env0 13 3000000, KAddMessage (CTrace 0) (of_string "hello"));
   (env0 14 9000000, KEndService (CTrace 0));
   (env0 15 9000000, KEndHttp (CTrace 0) (Some 200));
   (env0 16 9000000, KEndService (CTrace 0))].
Example C41_case : let a := after sconf0 demo_ops in
  ended a 0 /\ samples 0 (a_log a) = 1%nat /\ xlogs 0 (a_log a) = 1%nat /\ running a 1 /\ samples 1 (a_log a) = 0%nat.
Proof.
  cbv zeta. split; [eexists; split; [vm_compute; reflexivity|vm_compute; reflexivity]|]. split; [vm_compute; reflexivity|]. split; [vm_compute; reflexivity|].
  split; [eexists; split; [vm_compute; reflexivity|vm_compute; reflexivity]|]. vm_compute; reflexivity.
Qed.

(** without the hypothesis: with a batch size of 0 the flush panics after the service was marked as ended, and the sample is lost *)
Theorem C41_zero_batch_refuted : exists ops h, let a := after sconf0 ops in ended a h /\ samples h (a_log a) = 0%nat.
Proof.
  exists [(env0 11 1000000, KStartService CNil (of_string "/a") []); (mkN (conf0 100 0) 2000000 (fun _ _ => true) 0 12 7 [], KEndService (CTrace 0))], O.
  cbv zeta. split; [eexists; split; [vm_compute; reflexivity|vm_compute; reflexivity]|]. vm_compute; reflexivity.
Qed.

(** Concurrent ends: two goroutines that both read Closed before either sets it both contribute. *)
Theorem C41_concurrent_refuted : exists sched, let s := crun sched (cinit 2) in
  c_pcs s = [PDone; PDone] /\ c_samples s = 2%nat.
Proof. exists [0; 0; 1; 1; 0; 0; 1; 1]%nat. vm_compute. split; reflexivity. Qed.

(** what remains true of every interleaving of any number of goroutines *)
Definition pcs_inv (s : cstate) : Prop :=
  (c_closed s = false -> c_samples s = 0%nat /\ forall p, In p (c_pcs s) -> p = P0 \/ p = P1 \/ p = P2) /\
  (c_closed s = true -> (1 <= c_samples s + length (filter (fun p => match p with P3 => true | _ => false end) (c_pcs s)))%nat) /\
  (c_samples s <= length (filter (fun p => match p with PDone => true | _ => false end) (c_pcs s)))%nat.
Lemma in_set {A} (l : list A) i x p : In p (list_set l i x) -> p = x \/ In p l.
Proof.
  revert i. induction l as [|y l IH]; intros i H; [destruct H|]. destruct i; cbn [list_set] in H; destruct H as [<-|H]; cbn; auto.
  destruct (IH i H); auto.
Qed.
Lemma filter_set {A} (f : A -> bool) l i x y : nth_error l i = Some y ->
  (length (filter f (list_set l i x)) + (if f y then 1 else 0) = length (filter f l) + (if f x then 1 else 0))%nat.
Proof.
  revert i. induction l as [|z l IH]; intros i E; [destruct i; discriminate|]. destruct i; cbn [list_set filter].
  - cbn in E. injection E as ->. destruct (f x), (f y); cbn [length]; lia.
  - specialize (IH i E). destruct (f z); cbn [length]; lia.
Qed.
Lemma cstep_inv i s : pcs_inv s -> pcs_inv (cstep i s).
Proof.
  intros (I1 & I2 & I3). unfold cstep. destruct (nth_error (c_pcs s) i) as [q|] eqn:E; [|split; [exact I1|split; assumption]].
  pose proof (nth_error_In _ _ E) as Hin.
  pose proof (fun x => filter_set (fun p => match p with P3 => true | _ => false end) (c_pcs s) i x q E) as F3.
  pose proof (fun x => filter_set (fun p => match p with PDone => true | _ => false end) (c_pcs s) i x q E) as FD.
  destruct s as [cl sm pcs]; cbn [c_closed c_samples c_pcs] in *. unfold pcs_inv. cbn [c_closed c_samples c_pcs].
  destruct q; cbn [c_closed c_samples c_pcs].
  - destruct cl; [specialize (F3 PDone); specialize (FD PDone)|specialize (F3 P1); specialize (FD P1)]; cbn in F3, FD.
    + split; [discriminate|]. specialize (I2 eq_refl). split; [intros _|]; lia.
    + destruct (I1 eq_refl) as (S0 & Hp). split; [intros _; split; [exact S0|]|split; [discriminate|lia]].
      intros p Hp'. destruct (in_set _ _ _ _ Hp') as [->|Hq]; auto.
  - destruct cl; [specialize (F3 PDone); specialize (FD PDone)|specialize (F3 P2); specialize (FD P2)]; cbn in F3, FD.
    + split; [discriminate|]. specialize (I2 eq_refl). split; [intros _|]; lia.
    + destruct (I1 eq_refl) as (S0 & Hp). split; [intros _; split; [exact S0|]|split; [discriminate|lia]].
      intros p Hp'. destruct (in_set _ _ _ _ Hp') as [->|Hq]; auto.
  - specialize (F3 P3); specialize (FD P3); cbn in F3, FD. split; [discriminate|]. split; [intros _|]; lia.
  - specialize (F3 PDone); specialize (FD PDone); cbn in F3, FD. destruct cl; [|destruct (I1 eq_refl) as (_ & Hp); destruct (Hp P3 Hin) as [H|[H|H]]; discriminate].
    split; [discriminate|]. specialize (I2 eq_refl). split; [intros _|]; lia.
  - split; [exact I1|split; assumption].
Qed.
Lemma crun_inv sched : forall s, pcs_inv s -> pcs_inv (crun sched s).
Proof. induction sched as [|i sched IH]; intros s H; [exact H|]. apply IH, cstep_inv, H. Qed.
Lemma cinit_inv n : pcs_inv (cinit n).
Proof.
  unfold cinit, pcs_inv. cbn [c_closed c_samples c_pcs]. split; [intros _; split; [reflexivity|]|split; [discriminate|apply Nat.le_0_l]].
  intros p H. apply repeat_spec in H. auto.
Qed.
Lemma cstep_len i s : length (c_pcs (cstep i s)) = length (c_pcs s).
Proof.
  unfold cstep. destruct (nth_error (c_pcs s) i) as [[]|]; cbn [c_pcs]; rewrite ?list_set_length; reflexivity.
Qed.
Lemma crun_len sched : forall s, length (c_pcs (crun sched s)) = length (c_pcs s).
Proof. induction sched as [|i sched IH]; intros s; [reflexivity|]. change (crun (i :: sched) s) with (crun sched (cstep i s)). rewrite IH. apply cstep_len. Qed.

(** at least one sample and at most one per goroutine, in every interleaving *)
Theorem C41_concurrent_at_least_once_partial n sched : (0 < n)%nat -> let s := crun sched (cinit n) in
  Forall (fun p => p = PDone) (c_pcs s) -> (1 <= c_samples s <= n)%nat /\ c_closed s = true.
Proof.
  intros Hn s F. destruct (crun_inv sched _ (cinit_inv n)) as (I1 & I2 & I3). fold s in I1, I2, I3.
  assert (length (c_pcs s) = n) as L by (unfold s; rewrite crun_len; apply repeat_length).
  assert (filter (fun p => match p with P3 => true | _ => false end) (c_pcs s) = []) as F3.
  { clear -F. induction F as [|p l -> F IH]; [reflexivity|exact IH]. }
  assert (filter (fun p => match p with PDone => true | _ => false end) (c_pcs s) = c_pcs s) as FD.
  { clear -F. induction F as [|p l -> F IH]; [reflexivity|]. cbn [filter]. rewrite IH. reflexivity. }
  assert (c_closed s = true) as C.
  { destruct (c_closed s) eqn:C; [reflexivity|]. destruct (I1 eq_refl) as (_ & Hp). destruct (c_pcs s) as [|p l] eqn:Ep; [cbn in L; lia|].
    inversion_clear F. subst p. destruct (Hp PDone (or_introl eq_refl)) as [H|[H|H]]; discriminate. }
  specialize (I2 C). rewrite F3 in I2. rewrite FD, L in I3. cbn in I2. split; [lia|exact C].
Qed.
Lemma cstep_mono i s : c_closed s = true -> (forall p, In p (c_pcs s) -> p = PDone \/ p = P0) ->
  c_closed (cstep i s) = true /\ (forall p, In p (c_pcs (cstep i s)) -> p = PDone \/ p = P0) /\ c_samples (cstep i s) = c_samples s.
Proof.
  intros C Hp. unfold cstep. destruct (nth_error (c_pcs s) i) as [q|] eqn:E; [|auto].
  destruct (Hp q (nth_error_In _ _ E)) as [-> | ->]; [auto|]. cbn [c_closed c_samples c_pcs]. rewrite C. split; [reflexivity|]. split; [|reflexivity].
  intros p H. destruct (in_set _ _ _ _ H) as [->|H']; auto.
Qed.
(** goroutines that begin after another one has finished contribute nothing *)
Theorem C41_concurrent_late_inert sched s : c_closed s = true -> (forall p, In p (c_pcs s) -> p = PDone \/ p = P0) ->
  c_samples (crun sched s) = c_samples s.
Proof.
  revert s. induction sched as [|i sched IH]; intros s C Hp; [reflexivity|]. destruct (cstep_mono i s C Hp) as (C' & Hp' & E).
  change (crun (i :: sched) s) with (crun sched (cstep i s)). rewrite <- E. apply IH; assumption.
Qed.
Example C41_concurrent_case : let s := crun [0; 0; 0; 0; 1; 2; 1]%nat (cinit 3) in Forall (fun p => p = PDone) (c_pcs s) /\ c_samples s = 1%nat.
Proof. vm_compute. split; [repeat constructor|reflexivity]. Qed.

(* ------------------------------------------------------------------ *)
(** ** C42 *)
Theorem C42_active_list_exact c ops : NoDup (txids (after c ops)) ->
  (forall p q, ops = p ++ q -> running_count (after c p) <= 10000) ->
  forall txid h, find_by_txid txid (after c ops) = Some h <->
    running (after c ops) h /\ nth_error (txids (after c ops)) h = Some txid.
Proof.
  intros Nd Hc txid h. rewrite (tabled_find _ _ (tabled_run ops _ (tabled_init c) Nd Hc) Nd). fold (after c ops). unfold running, txids. split.
  - intros (x & E & T & C). split; [exists x; auto|]. rewrite (map_nth_error x_Txid _ _ E). congruence.
  - intros ((x & E & C) & T). exists x. rewrite (map_nth_error x_Txid _ _ E) in T. split; [exact E|]. split; [congruence|exact C].
Qed.
Lemma prefix_check {A} (P : list A -> bool) ops : forallb (fun i => P (firstn i ops)) (seq 0 (S (length ops))) = true ->
  forall p q, ops = p ++ q -> P p = true.
Proof.
  intros H p q ->. rewrite forallb_forall in H. specialize (H (length p)). rewrite firstn_app, Nat.sub_diag, firstn_all, firstn_O, app_nil_r in H.
  apply H. apply in_seq. rewrite app_length. lia.
Qed.
Example C42_case : NoDup (txids (after sconf0 demo_ops)) /\
  (forall p q, demo_ops = p ++ q -> running_count (after sconf0 p) <= 10000) /\
  find_by_txid 11 (after sconf0 demo_ops) = None /\ find_by_txid 12 (after sconf0 demo_ops) = Some 1%nat.
Proof.
  split; [replace (txids (after sconf0 demo_ops)) with [11; 12] by (vm_compute; reflexivity); repeat constructor; cbn; intuition lia|]. split; [|vm_compute; split; reflexivity].
  intros p q E. apply Z.leb_le. revert p q E. apply (prefix_check (fun p => running_count (after sconf0 p) <=? 10000)). vm_compute. reflexivity.
Qed.

Print Assumptions C41_each_service_once_partial.
Print Assumptions C41_first_end.
Print Assumptions C41_later_ends_inert.
Print Assumptions C41_concurrent_at_least_once_partial.
Print Assumptions C42_active_list_exact.
Print Assumptions C41_zero_batch_refuted.
