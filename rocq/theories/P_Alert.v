(** C97: alerts about services that do not finish. *)
From Verif Require Import GoInt M_Util S_Util M_Packs M_Cache M_Sampler M_Trace L_Trace S_Trace L_TraceRel L_TraceInv L_TraceSafe L_TraceActive P_Trace P_Trace3 M_Alert S_Alert L_Alert.
From Coq Require Import ZifyBool Permutation.

Lemma counted_after c ops n : well_used c ops -> good n -> NoDup (txids (after c ops)) -> (forall p q, ops = p ++ q -> running_count (after c p) <= 10000) ->
  enumerates n (after c ops) -> counted n (after c ops).
Proof.
  intros W G Nd Hc Hp. destruct (sound_run c ops W) as ([R V _] & _). pose proof (tabled_run ops _ (tabled_init c) Nd Hc) as T. constructor; assumption.
Qed.

Lemma run_app_fst ops later : forall a rs, snd (run ops a) = Some rs -> fst (run (ops ++ later) a) = fst (run later (fst (run ops a))).
Proof.
  induction ops as [|[n k] ops IH]; intros a rs R; cbn [app run] in *; [reflexivity|]. destruct (do_call n k a) as [b [r|]]; [|discriminate R].
  destruct (run ops b) as [d [qs|]] eqn:E; [|discriminate R]. specialize (IH b qs). rewrite E in IH. cbn [fst snd] in IH |- *. rewrite <- (IH eq_refl).
  destruct (run (ops ++ later) b) as [e [es|]]; reflexivity.
Qed.

(** counting the active services sends one alert for each running service that is stuck, and no other: its title, the configured level, this agent's
    object, the service's name, its running time and its goroutine; at most 2000 alerts, and none missing while at most 2000 services run *)
Theorem C97_alerts c ops n ty obj : well_used c ops -> good n -> NoDup (txids (after c ops)) ->
  (forall p q, ops = p ++ q -> running_count (after c p) <= 10000) -> enumerates n (after c ops) ->
  let a := after c ops in
  exists order ps, active_alerts n ty obj a = (fst (do_call n KActiveCount a), Some ps) /\ NoDup order /\ zlen ps <= 2000 /\
    Forall2 (fun h p => exists x, stuck_service n a h x /\ about n ty obj x p) order ps /\
    (running_count a <= 2000 -> forall h x, stuck_service n a h x -> In h order).
Proof.
  intros W G Nd Hc Hp a. destruct (alerts_all n ty obj a (counted_after c ops n W G Nd Hc Hp)) as (order & ps & H1 & H2 & H3 & H4 & H5 & _). exists order, ps. auto.
Qed.
Lemma forall2_in {A B} (R : A -> B -> Prop) l k x : Forall2 R l k -> In x l -> exists y, In y k /\ R x y.
Proof. intros F. induction F as [|u v l k Huv F IH]; [intros []|]. intros [<- | Hx]; [exists v; split; [left; reflexivity|exact Huv]|]. destruct IH as (y & Hy & Ry); [assumption|]. exists y. split; [right; exact Hy|exact Ry]. Qed.

(** stuck_service_alert_enabled=false does not switch the alert off: it is sent as a warning *)
Theorem C97_disabled_still_alerts c ops n ty obj h x : well_used c ops -> good n -> NoDup (txids (after c ops)) ->
  (forall p q, ops = p ++ q -> running_count (after c p) <= 10000) -> enumerates n (after c ops) -> running_count (after c ops) <= 2000 ->
  cf_stuck_alert (n_conf n) = false -> stuck_service n (after c ops) h x ->
  exists ps p, snd (active_alerts n ty obj (after c ops)) = Some ps /\ In p ps /\ about n ty obj x p /\ al_Level p = AlertWarn.
Proof.
  intros W G Nd Hc Hp H2 Off St. destruct (C97_alerts c ops n ty obj W G Nd Hc Hp) as (order & ps & E & _ & _ & F & Hin). rewrite E.
  destruct (forall2_in _ _ _ h F (Hin H2 h x St)) as (p & Ip & (y & (Ey & _) & Ay)). destruct St as (Ex & _). rewrite Ex in Ey. injection Ey as <-.
  exists ps, p. split; [reflexivity|]. split; [exact Ip|]. split; [exact Ay|]. destruct Ay as (_ & _ & -> & _). rewrite Off. reflexivity.
Qed.

(** a service that was stuck at a count with removal switched on is over ever after *)
Lemma counted_closed c ops n h x later : well_used c (ops ++ (n, KActiveCount) :: later) -> NoDup (txids (after c (ops ++ (n, KActiveCount) :: later))) ->
  (forall p q, ops ++ (n, KActiveCount) :: later = p ++ q -> running_count (after c p) <= 10000) -> running_count (after c ops) <= 2000 ->
  enumerates n (after c ops) -> stuck_service n (after c ops) h x -> cf_stuck_remove (n_conf n) = true ->
  exists y, nth_error (a_ctx (after c (ops ++ (n, KActiveCount) :: later))) h = Some y /\ x_Closed y = true.
Proof.
  intros W Nd Hc H2 Hp St Rm. set (b := after c (ops ++ (n, KActiveCount) :: later)).
  assert (W1 : well_used c ops) by (eapply well_used_prefix; exact W). assert (G : good n) by (apply (W ops n KActiveCount later eq_refl)).
  destruct (sound_run c ops W1) as ([R _ _] & rs & Er & _).
  assert (after c (ops ++ [(n, KActiveCount)]) = fst (do_call n KActiveCount (after c ops))) as E1 by (apply (proj1 (run_snoc ops n KActiveCount _ _ Er))).
  assert (exists y, nth_error (a_ctx (after c (ops ++ [(n, KActiveCount)]))) h = Some y /\ x_Closed y = true) as (y & Ey & Cy).
  { rewrite E1. assert (T : tabled (after c ops)).
    { assert (Hc1 : forall p q, ops = p ++ q -> running_count (after c p) <= 10000) by (intros p0 q0 Eq; apply (Hc p0 (q0 ++ (n, KActiveCount) :: later)); rewrite Eq, <- app_assoc; reflexivity).
      apply (tabled_run ops _ (tabled_init c)); [|exact Hc1].
      unfold after in Nd. rewrite (run_app_fst ops _ _ rs Er) in Nd. eapply grows_nodup; [apply run_grows|exact Nd]. }
    destruct (handles_running n (after c ops)) as (Nv & Lv & Hin); [constructor; assumption|]. destruct St as (Ex & Cx & Sx).
    set (vs := handles (lra_values (a_active (after c ops)) (n_order n))) in *.
    destruct (loop_spec n vs G 0 0 0 0 (after c ops) ltac:(lia) Nv) as (d & Ed & _ & K2 & _).
    { intros k Hk. apply Hin in Hk. destruct Hk as (w & Ew & Cw). exists w. split; [exact Ew|]. split; [exact Cw|]. exact (R k w Ew). }
    destruct (K2 h x Ex) as (w & p' & Ew & Cw & _); [apply Hin; eauto|exact Sx|exact Rm|]. exists w. split; [|exact Cw].
    cbn [do_call]. unfold fmap, get_active_count, bind. fold vs. rewrite Ed. exact Ew. }
  destruct (sound_run c (ops ++ [(n, KActiveCount)])) as (_ & rs2 & Er2 & _).
  { apply (well_used_prefix c _ later). rewrite <- app_assoc. exact W. }
  assert (b = fst (run later (after c (ops ++ [(n, KActiveCount)])))) as ->.
  { unfold b, after. replace (ops ++ (n, KActiveCount) :: later) with ((ops ++ [(n, KActiveCount)]) ++ later) by (rewrite <- app_assoc; reflexivity). eapply run_app_fst. exact Er2. }
  apply closed_run with y; assumption.
Qed.
(** a service that is removed is alerted about once: no count in any later history has an alert for it *)
Theorem C97_once c ops n h x later n2 ty obj : well_used c (ops ++ (n, KActiveCount) :: later) -> NoDup (txids (after c (ops ++ (n, KActiveCount) :: later))) ->
  (forall p q, ops ++ (n, KActiveCount) :: later = p ++ q -> running_count (after c p) <= 10000) -> running_count (after c ops) <= 2000 ->
  enumerates n (after c ops) -> stuck_service n (after c ops) h x -> cf_stuck_remove (n_conf n) = true ->
  good n2 -> let b := after c (ops ++ (n, KActiveCount) :: later) in enumerates n2 b ->
  exists order ps, snd (active_alerts n2 ty obj b) = Some ps /\ Forall2 (fun h p => exists x, stuck_service n2 b h x /\ about n2 ty obj x p) order ps /\ ~ In h order.
Proof.
  intros W Nd Hc H2 Hp St Rm G2 b Hp2. pose proof (counted_after c _ n2 W G2 Nd Hc Hp2) as Cn. fold b in Cn.
  destruct (alerts_all n2 ty obj b Cn) as (order & ps & E & _ & _ & F & _). exists order, ps. rewrite E. split; [reflexivity|]. split; [exact F|].
  intros Hi. destruct (forall2_in _ _ _ h F Hi) as (p & _ & (z & (Ez & Cz & _) & _)).
  destruct (counted_closed c ops n h x later W Nd Hc H2 Hp St Rm) as (y & Ey & Cy). fold b in Ey. congruence.
Qed.

(** With removal switched on, counting again and again alerts about every service at most once: the services of all alerts, in their order, are all different. *)
Theorem C97_never_twice c ty obj : forall ns ops, well_used c (ops ++ map (fun n => (n, KActiveCount)) ns) -> NoDup (txids (after c (ops ++ map (fun n => (n, KActiveCount)) ns))) ->
  (forall p q, ops ++ map (fun n => (n, KActiveCount)) ns = p ++ q -> running_count (after c p) <= 2000) ->
  Forall (fun n => cf_stuck_remove (n_conf n) = true) ns ->
  exists orders, length orders = length ns /\ length (count_again ty obj ns (after c ops)) = length ns /\
    (forall i n order ps, nth_error ns i = Some n -> nth_error orders i = Some order -> nth_error (count_again ty obj ns (after c ops)) i = Some ps ->
       let a := after c (ops ++ map (fun n => (n, KActiveCount)) (firstn i ns)) in
       Forall2 (fun h p => exists x, stuck_service n a h x /\ about n ty obj x p) order ps /\ (forall h x, stuck_service n a h x -> In h order)) /\
    NoDup (concat orders).
Proof.
  induction ns as [|n ns IH]; intros ops W Nd Hc Rm.
  - exists []. split; [reflexivity|]. split; [reflexivity|]. split; [intros [|i] ? ? ? E; discriminate E|constructor].
  - cbn [map] in *. set (rest := map (fun n => (n, KActiveCount)) ns) in *. apply Forall_cons_iff in Rm as (Rn & Rm).
    assert (W1 : well_used c ops) by (eapply well_used_prefix; exact W). destruct (W ops n KActiveCount rest eq_refl) as (G & Hp). cbn [sensible snd fst] in Hp.
    assert (Hc0 : forall p q, ops ++ (n, KActiveCount) :: rest = p ++ q -> running_count (after c p) <= 10000) by (intros p q E; pose proof (Hc p q E); lia).
    assert (Hc1 : forall p q, ops = p ++ q -> running_count (after c p) <= 10000) by (intros p q E; apply (Hc0 p (q ++ (n, KActiveCount) :: rest)); rewrite E, <- app_assoc; reflexivity).
    pose proof (Hc ops _ eq_refl) as H2.
    destruct (sound_run c ops W1) as (_ & rs & Er & _).
    assert (after c (ops ++ [(n, KActiveCount)]) = fst (do_call n KActiveCount (after c ops))) as E1 by (apply (proj1 (run_snoc ops n KActiveCount _ _ Er))).
    assert (Nd1 : NoDup (txids (after c ops))) by (unfold after in Nd; rewrite (run_app_fst ops _ _ rs Er) in Nd; eapply grows_nodup; [apply run_grows|exact Nd]).
    destruct (C97_alerts c ops n ty obj W1 G Nd1 Hc1 Hp) as (order & ps & Ea & No & _ & F & Hin).
    replace (ops ++ (n, KActiveCount) :: rest) with ((ops ++ [(n, KActiveCount)]) ++ rest) in W, Nd, Hc by (rewrite <- app_assoc; reflexivity).
    destruct (IH (ops ++ [(n, KActiveCount)]) W Nd Hc Rm) as (orders & L1 & L2 & K & Nc).
    assert (count_again ty obj (n :: ns) (after c ops) = ps :: count_again ty obj ns (after c (ops ++ [(n, KActiveCount)]))) as Ec
      by (cbn [count_again]; rewrite Ea, <- E1; reflexivity).
    rewrite Ec. exists (order :: orders). split; [cbn; rewrite L1; reflexivity|]. split; [cbn [length]; rewrite L2; reflexivity|]. split.
    + intros [|i] m o qs En Eo Eq.
      * cbn [nth_error firstn map] in *. injection En as <-. injection Eo as <-. injection Eq as <-. rewrite app_nil_r. cbv zeta. split; [exact F|]. apply Hin. exact H2.
      * cbn [nth_error] in En, Eo, Eq. pose proof (K i m o qs En Eo Eq) as Ki. cbn [firstn map]. rewrite <- app_assoc in Ki. exact Ki.
    + cbn [concat]. assert (forall h, In h order -> ~ In h (concat orders)) as Dj.
      { intros h Hh Hi. apply in_concat in Hi as (o & Io & Ih). apply In_nth_error in Io as (i & Eo).
        assert (exists m, nth_error ns i = Some m) as (m & En).
        { destruct (nth_error ns i) as [m|] eqn:En; [eauto|]. apply nth_error_None in En. assert (i < length orders)%nat by (apply nth_error_Some; congruence). lia. }
        assert (exists qs, nth_error (count_again ty obj ns (after c (ops ++ [(n, KActiveCount)]))) i = Some qs) as (qs & Eq).
        { destruct (nth_error (count_again ty obj ns (after c (ops ++ [(n, KActiveCount)]))) i) as [m'|] eqn:En'; [eauto|]. apply nth_error_None in En'. assert (i < length orders)%nat by (apply nth_error_Some; congruence). lia. }
        pose proof (proj1 (K i m o qs En Eo Eq)) as Ki. destruct (forall2_in _ _ _ h Ki Ih) as (p' & _ & (z & (Ez & Cz & _) & _)).
        destruct (forall2_in _ _ _ h F Hh) as (p & _ & (x & St & _)).
        rewrite <- app_assoc in Ez. cbn [app] in Ez.
        set (later := map (fun n => (n, KActiveCount)) (firstn i ns)) in *. set (tl := map (fun n => (n, KActiveCount)) (skipn i ns)).
        assert ((ops ++ [(n, KActiveCount)]) ++ rest = (ops ++ (n, KActiveCount) :: later) ++ tl) as Es.
        { unfold rest, later, tl. rewrite <- !app_assoc. cbn [app]. rewrite <- map_app, firstn_skipn. reflexivity. }
        rewrite Es in W, Nd, Hc. pose proof (well_used_prefix _ _ _ W) as W2.
        destruct (sound_run c _ W2) as (_ & rs2 & Er2 & _).
        destruct (counted_closed c ops n h x later W2) as (y & Ey & Cy); try assumption.
        - unfold after in Nd. rewrite (run_app_fst _ _ _ rs2 Er2) in Nd. eapply grows_nodup; [apply run_grows|exact Nd].
        - intros p0 q0 E. assert (running_count (after c p0) <= 2000) by (apply (Hc p0 (q0 ++ tl)); rewrite E, <- app_assoc; reflexivity). lia.
        - congruence. }
      clear - No Nc Dj. induction order as [|h order IH]; [exact Nc|]. cbn [app]. apply NoDup_cons_iff in No as (Nh & No). constructor.
      * intros Hi. apply in_app_or in Hi as [Hi|Hi]; [exact (Nh Hi)|]. apply (Dj h); [left; reflexivity|exact Hi].
      * apply IH; [exact No|]. intros k Hk. apply Dj. right. exact Hk.
Qed.

(** with stuck_service_remove_enabled=false every count alerts again about the same service *)
Theorem C97_repeats c ops h x ty obj ns : well_used c ops -> NoDup (txids (after c ops)) ->
  (forall p q, ops = p ++ q -> running_count (after c p) <= 10000) -> running_count (after c ops) <= 2000 ->
  nth_error (a_ctx (after c ops)) h = Some x -> x_Closed x = false ->
  Forall (fun n => good n /\ enumerates n (after c ops) /\ cf_stuck_remove (n_conf n) = false /\ stuck n x) ns ->
  Forall2 (fun n ps => exists p, In p ps /\ about n ty obj x p) ns (count_again ty obj ns (after c ops)).
Proof.
  intros W Nd Hc H2 Ex Cx F. destruct (sound_run c ops W) as ([R V _] & _). pose proof (tabled_run ops _ (tabled_init c) Nd Hc) as T. fold (after c ops) in T.
  assert (forall ns d, a_ctx d = a_ctx (after c ops) -> a_active d = a_active (after c ops) ->
    Forall (fun n => good n /\ enumerates n (after c ops) /\ cf_stuck_remove (n_conf n) = false /\ stuck n x) ns ->
    Forall2 (fun n ps => exists p, In p ps /\ about n ty obj x p) ns (count_again ty obj ns d)) as H; [|apply (H ns (after c ops)); auto].
  clear F ns. induction ns as [|n ns IH]; intros d D1 D2 F; [constructor|]. apply Forall_cons_iff in F as ((G & Hp & Rm & Sx) & F').
  assert (counted n d) as Cn.
  { constructor; [|destruct T as [T1 T2 T3]; constructor; unfold flags in *; rewrite ?D1, ?D2; assumption|exact G|unfold enumerates in *; rewrite D2; exact Hp].
    intros k z. rewrite D1. apply R. }
  destruct (alerts_all n ty obj d Cn) as (order & ps & E & _ & _ & Fa & Hin & K). cbn [count_again]. rewrite E. constructor.
  - destruct (forall2_in _ _ _ h Fa) as (p & Ip & (y & (Ey & _) & Ay)).
    + apply (Hin ltac:(unfold running_count in *; rewrite D1; exact H2) h x). split; [rewrite D1; exact Ex|]. split; assumption.
    + exists p. split; [exact Ip|]. rewrite D1, Ex in Ey. injection Ey as <-. exact Ay.
  - destruct (K Rm) as (K1 & K2). apply IH; [congruence|congruence|exact F'].
Qed.

Lemma snoc_split {A} (l : list A) o p x q : l ++ [o] = p ++ x :: q -> (exists q', l = p ++ x :: q' /\ q = q' ++ [o]) \/ (p = l /\ x = o /\ q = []).
Proof.
  destruct q as [|y q _] using rev_ind; intros E.
  - right. apply app_inj_tail in E as (-> & ->). auto.
  - left. exists q. rewrite app_comm_cons, app_assoc in E. apply app_inj_tail in E as (-> & ->). auto.
Qed.

(** ** A stuck service and one that is not (P_Trace3.v): one alert, a warning; the same again with removal switched off *)
Definition lax_env (now : Z) : env := mkN (mkConf 100 100 77 3000 8000 300000 false true false [] false sconf0) now (fun _ _ => true) 0 13 7 (table (a_active (after sconf0 stuck_ops))).
Definition texts (l : list alert_pack) : list (Z * gostring) := map (fun p => (al_Level p, al_Message p)) l.
Example C97_case : well_used sconf0 stuck_ops /\ good stuck_env /\ NoDup (txids (after sconf0 stuck_ops)) /\
  (forall p q, stuck_ops = p ++ q -> running_count (after sconf0 p) <= 10000) /\ running_count (after sconf0 stuck_ops) <= 2000 /\ enumerates stuck_env (after sconf0 stuck_ops) /\
  option_map texts (snd (active_alerts stuck_env (of_string "golang") 77 (after sconf0 stuck_ops))) =
    Some [(1, of_string "service: /a, elapsed: 403999, goId: 7, tctxGoId: %!d(MISSING)")] /\
  Forall (fun n => good n /\ enumerates n (after sconf0 stuck_ops)) [lax_env 404000000000; lax_env 406000000000] /\
  map texts (count_again (of_string "golang") 77 [lax_env 404000000000; lax_env 406000000000] (after sconf0 stuck_ops)) =
    [[(2, of_string "service: /a, elapsed: 403999, goId: 7, tctxGoId: %!d(MISSING)")]; [(2, of_string "service: /a, elapsed: 405999, goId: 7, tctxGoId: %!d(MISSING)")]].
Proof.
  destruct C49_case as (A & B & D & E & F & G & _). repeat (split; [assumption|]). split; [vm_compute; reflexivity|].
  split; [do 2 (apply Forall_cons; [split; [split; cbn; lia|apply Permutation_refl]|]); apply Forall_nil|]. vm_compute. reflexivity.
Qed.
(** the removed service is not alerted about again by the next count *)
Example C97_once_case : let ops := stuck_ops ++ [(stuck_env, KActiveCount)] in
  well_used sconf0 ops /\ NoDup (txids (after sconf0 ops)) /\ cf_stuck_remove (n_conf stuck_env) = true /\
  snd (active_alerts (env0 13 406000000000) (of_string "golang") 77 (after sconf0 ops)) = Some [].
Proof.
  cbv zeta. split.
  { destruct C49_case as (W & G & _ & _ & _ & Pm & _). intros p n k q E. destruct (snoc_split _ _ _ _ _ E) as [(q' & E' & ->)|(-> & Eo & ->)]; [apply (W p n k q'); exact E'|].
    assert (n = stuck_env) as -> by congruence. assert (k = KActiveCount) as -> by congruence. split; [exact G|exact Pm]. }
  split; [replace (txids _) with [11; 12] by (vm_compute; reflexivity); repeat constructor; cbn; intuition lia|]. split; [reflexivity|]. vm_compute. reflexivity.
Qed.

Print Assumptions C97_alerts.
Print Assumptions C97_disabled_still_alerts.
Print Assumptions C97_once.
Print Assumptions C97_never_twice.
Print Assumptions C97_repeats.
