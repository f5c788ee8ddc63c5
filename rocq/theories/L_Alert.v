(** Lemmas for C97. *)
From Verif Require Import GoInt M_Util S_Util L_Util M_Hash M_StrMatch M_Packs M_Steps M_Cache L_Cache M_Text M_Sampler M_Profile L_Profile S_Profile M_Trace L_Trace L_TraceRel S_Trace L_TraceInv L_TraceStart L_TraceSafe L_TraceActive L_TraceHist L_TraceFrame P_Trace P_Trace2 P_Trace3 M_Alert S_Alert.
From Coq Require Import ZifyBool Permutation.

Lemma shows_format z : shows z (format_int 10 z).
Proof.
  unfold shows. destruct (Z.ltb_spec z 0) as [H|H].
  - exists (format_int 10 (- z)). split; [replace (Z.abs z) with (- z) by lia; apply format10; lia|]. unfold format_int. replace (z <? 0) with true by lia. replace (- z <? 0) with false by lia. reflexivity.
  - exists (format_int 10 z). split; [rewrite Z.abs_eq by exact H; apply format10; exact H|reflexivity].
Qed.
Lemma about_pack n ty obj x : about n ty obj x (stuck_pack ty obj (if cf_stuck_alert (n_conf n) then 2 else 1) (stuck_message (x_ServiceName x) (running_ms n x) (x_Goid x))).
Proof.
  unfold about, stuck_pack, stuck_message. cbn [al_Time al_Tags al_Level al_ObjType al_ObjHash al_Title al_Message]. do 6 (split; [reflexivity|]).
  exists (format_int 10 (running_ms n x)), (format_int 10 (x_Goid x)). split; [apply shows_format|]. split; [apply shows_format|reflexivity].
Qed.

(** * What a stuck service's end leaves alone *)
Definition keeps_name (h : nat) (x y : tctx) : Prop := x_ServiceName y = x_ServiceName x /\ x_Goid y = x_Goid x.
Lemma fr_stuck N n h : fr N keeps_name (end_stuck n h).
Proof.
  assert (forall h x, keeps_name h x x) as Qr by (split; reflexivity).
  assert (forall h x y z, keeps_name h x y -> keeps_name h y z -> keeps_name h x z) as Qt by (intros ? ? ? ? (A1 & A2) (B1 & B2); split; congruence).
  unfold end_stuck, millis. generalize (of_string "This stuck service currently may running, not finished!"). generalize (of_string "Service currently may running, not finished!"). intros s1 s2.
  unfold end_tctx, to_xlog, tm_end, millis, profile_add, profile_close.
  fr_tac Qr Qt ltac:(intros; split; reflexivity).
Qed.
Lemma stuck_returns n h a : exists b, end_stuck n h a = (b, Some tt).
Proof. unfold end_stuck, recovered. destruct (_ a) as [b [[]|]]; eexists; reflexivity. Qed.
Lemma stuck_keeps n h a b : end_stuck n h a = (b, Some tt) -> forall k x, nth_error (a_ctx a) k = Some x -> exists y, nth_error (a_ctx b) k = Some y /\ keeps_name k x y.
Proof.
  intros E k x Ex. pose proof (fr_stuck (length (a_ctx a)) n h a (le_n _)) as (_ & F). rewrite E in F. apply (F k x); [|exact Ex]. apply nth_error_Some. congruence.
Qed.

(** * One round *)
Lemma alert_loop_state n ty obj vs : forall count c0 c1 c2 a, fst (alert_loop n ty obj count vs a) = fst (active_loop n count vs c0 c1 c2 a).
Proof.
  induction vs as [|h vs IH]; intros count c0 c1 c2 a; cbn [alert_loop active_loop]; [reflexivity|]. destruct (2000 <? count + 1); [reflexivity|].
  destruct (nth_error (a_ctx a) h) as [x|] eqn:E; [|unfold bind, read; rewrite E; reflexivity].
  rewrite !(bind_some _ _ _ _ _ (read_eq _ _ _ _ E)).
  destruct (if _ <=? cf_yellow (n_conf n) then _ else _) as [[d0 d1] d2].
  destruct (cf_stuck_ms (n_conf n) <? _).
  - destruct (stuck_returns n h a) as (b & Eb). destruct (stuck_keeps n h a b Eb h x E) as (y & Ey & _).
    rewrite !bind_assoc. rewrite !(bind_some _ _ _ _ _ Eb). rewrite bind_assoc, (bind_some _ _ _ _ _ (read_eq _ _ _ _ Ey)). rewrite bind_assoc.
    unfold bind at 1, emit at 1. rewrite bind_ret. unfold bind at 2, emit at 1. rewrite <- (IH (count + 1) d0 d1 d2).
    unfold bind. destruct (alert_loop n ty obj (count + 1) vs _) as [z [qs|]]; reflexivity.
  - rewrite !bind_ret. rewrite <- (IH (count + 1) d0 d1 d2). unfold bind. destruct (alert_loop n ty obj (count + 1) vs a) as [z [qs|]]; reflexivity.
Qed.
Lemma alert_cut n ty obj vs : forall count a, 0 <= count <= 2000 ->
  alert_loop n ty obj count vs a = alert_loop n ty obj count (firstn (Z.to_nat (2000 - count)) vs) a.
Proof.
  induction vs as [|h vs IH]; intros count a Hc; [rewrite firstn_nil; reflexivity|].
  destruct (Z.eq_dec count 2000) as [-> |Hne].
  - change (Z.to_nat (2000 - 2000)) with 0%nat. cbn [firstn alert_loop]. reflexivity.
  - replace (Z.to_nat (2000 - count)) with (S (Z.to_nat (2000 - (count + 1)))) by lia. cbn [firstn alert_loop].
    destruct (Z.ltb_spec 2000 (count + 1)); [lia|].
    assert (forall A (m : M A) f g b, (forall x b', f x b' = g x b' :> agent * option (list alert_pack)) -> bind m f b = bind m g b) as Hb.
    { intros A m f g b Hfg. unfold bind. destruct (m b) as [b' [x|]]; [apply Hfg|reflexivity]. }
    apply Hb. intros e b1. apply Hb. intros ps b2. unfold bind. rewrite (IH (count + 1) b2) by lia. reflexivity.
Qed.
Definition is_stuck (n : env) (a : agent) (h : nat) : bool :=
  match nth_error (a_ctx a) h with Some x => cf_stuck_ms (n_conf n) <? running_ms n x | None => false end.
Lemma alert_loop_spec n ty obj vs : good n -> forall count a, count + zlen vs <= 2000 -> NoDup vs ->
  (forall h, In h vs -> exists x, nth_error (a_ctx a) h = Some x /\ x_Closed x = false /\ room (x_Profile x)) ->
  exists b ps, alert_loop n ty obj count vs a = (b, Some ps) /\
    Forall2 (fun h p => exists x, nth_error (a_ctx a) h = Some x /\ about n ty obj x p) (filter (is_stuck n a) vs) ps /\
    (cf_stuck_remove (n_conf n) = false -> a_ctx b = a_ctx a /\ a_active b = a_active a).
Proof.
  intros G. induction vs as [|h vs IH]; intros count a Hc Nd Hv.
  { exists a, []. split; [reflexivity|]. split; [constructor|auto]. }
  rewrite zlen_cons in Hc. assert (0 <= zlen vs) as Hz by (unfold zlen; lia).
  inversion_clear Nd as [|? ? Hn Nd']. destruct (Hv h (or_introl eq_refl)) as (x & E & C & R).
  cbn [alert_loop]. destruct (Z.ltb_spec 2000 (count + 1)); [lia|].
  rewrite (bind_some _ _ _ _ _ (read_eq _ _ _ _ E)). fold (running_ms n x). cbn [filter]. unfold is_stuck at 1. rewrite E.
  assert (forall a', (forall k, k <> h -> nth_error (a_ctx a') k = nth_error (a_ctx a) k) ->
    exists b ps, alert_loop n ty obj (count + 1) vs a' = (b, Some ps) /\
      Forall2 (fun h p => exists x, nth_error (a_ctx a) h = Some x /\ about n ty obj x p) (filter (is_stuck n a) vs) ps /\
      (cf_stuck_remove (n_conf n) = false -> a_ctx b = a_ctx a' /\ a_active b = a_active a')) as Next.
  { intros a' Ho. destruct (IH (count + 1) a') as (b & ps & Eb & F & K); [lia|exact Nd'| |].
    { intros k Hk. rewrite (Ho k) by (intros ->; contradiction). apply Hv. right. exact Hk. }
    exists b, ps. split; [exact Eb|]. split; [|exact K].
    rewrite (filter_ext_in (is_stuck n a) (is_stuck n a')) by (intros k Hk; unfold is_stuck; rewrite (Ho k) by (intros ->; contradiction); reflexivity).
    assert (forall k, In k (filter (is_stuck n a') vs) -> In k vs) as Hs by (intros k Hk; apply filter_In in Hk; apply Hk).
    clear - F Hs Ho Hn. induction F as [|k p l qs (y & Ey & Ay) F IHF]; constructor.
    - exists y. split; [|exact Ay]. rewrite <- (Ho k); [exact Ey|]. intros ->. apply Hn, Hs. left. reflexivity.
    - apply IHF. intros j Hj. apply Hs. right. exact Hj. }
  destruct (Z.ltb_spec (cf_stuck_ms (n_conf n)) (running_ms n x)) as [Hst|Hst].
  - destruct (stuck_returns n h a) as (a1 & E1). destruct (stuck_keeps n h a a1 E1 h x E) as (y & Ey & Ny & Gy).
    rewrite bind_assoc, (bind_some _ _ _ _ _ E1). rewrite bind_assoc, (bind_some _ _ _ _ _ (read_eq _ _ _ _ Ey)). rewrite bind_assoc. unfold bind at 1, emit at 1. rewrite bind_ret.
    set (a2 := add_log _ a1).
    assert ((forall k, k <> h -> nth_error (a_ctx a2) k = nth_error (a_ctx a) k) /\ (cf_stuck_remove (n_conf n) = false -> a_ctx a2 = a_ctx a /\ a_active a2 = a_active a)) as (Ho & Hk).
    { destruct (cf_stuck_remove (n_conf n)) eqn:Hr.
      - destruct (end_stuck_spec n h a x G Hr E C R) as (b & z & p & el & Eb & Cb & _). rewrite E1 in Eb. injection Eb as ->. split; [|discriminate].
        intros k Hk. unfold a2. cbn [add_log a_ctx]. rewrite Cb. apply list_set_other. congruence.
      - unfold end_stuck in E1. rewrite Hr in E1. unfold recovered, ret in E1. injection E1 as <-. split; [reflexivity|auto]. }
    destruct (Next a2 Ho) as (b & ps & Eb & F & K). rewrite (bind_some _ _ _ _ _ Eb). unfold ret. rewrite Ny, Gy.
    eexists b, _. split; [reflexivity|]. cbn [app]. split; [constructor; [exists x; split; [exact E|apply about_pack]|exact F]|].
    intros Hr. destruct (K Hr) as (K1 & K2), (Hk Hr) as (K3 & K4). split; congruence.
  - rewrite bind_ret. destruct (Next a (fun _ _ => eq_refl)) as (b & ps & Eb & F & K). rewrite (bind_some _ _ _ _ _ Eb). unfold ret. exists b, ps. auto.
Qed.

(** * All states *)
Record counted (n : env) (a : agent) : Prop := { cn_room : roomy a; cn_tab : tabled a; cn_good : good n; cn_perm : enumerates n a }.
Lemma handles_running n a : counted n a -> let vs := handles (lra_values (a_active a) (n_order n)) in
  NoDup vs /\ zlen vs = running_count a /\ forall h, In h vs <-> exists x, nth_error (a_ctx a) h = Some x /\ x_Closed x = false.
Proof.
  intros [R T _ Hp] vs. pose proof (handles_perm a _ T Hp) as Pm. fold vs in Pm. split; [eapply Permutation_NoDup; [symmetry; exact Pm|apply open_idx_nodup]|]. split.
  - unfold zlen. rewrite (Permutation_length Pm). change (zlen (open_idx 0 (flags a)) = running_count a). unfold flags. apply count_all.
  - intros h. rewrite (Permutation_in' (eq_refl h) Pm), open_idx_in. unfold flags. split.
    + intros (g & t & -> & E). cbn in E |- *. rewrite nth_error_map in E. destruct (nth_error (a_ctx a) g) as [x|] eqn:Eg; [|discriminate].
      injection E as E1 E2. exists x. auto.
    + intros (x & E & Cx). exists h, (x_Txid x). split; [reflexivity|]. rewrite nth_error_map, E. unfold flag. cbn. rewrite Cx. reflexivity.
Qed.
Lemma alerts_all n ty obj a : counted n a ->
  exists order ps, active_alerts n ty obj a = (fst (do_call n KActiveCount a), Some ps) /\ NoDup order /\ zlen ps <= 2000 /\
    Forall2 (fun h p => exists x, stuck_service n a h x /\ about n ty obj x p) order ps /\
    (running_count a <= 2000 -> forall h x, stuck_service n a h x -> In h order) /\
    (cf_stuck_remove (n_conf n) = false -> a_ctx (fst (do_call n KActiveCount a)) = a_ctx a /\ a_active (fst (do_call n KActiveCount a)) = a_active a).
Proof.
  intros Cn. destruct (handles_running n a Cn) as (Nv & Lv & Hin). destruct Cn as [R T G Hp].
  set (vs := handles (lra_values (a_active a) (n_order n))) in *. set (k := Z.to_nat 2000). set (us := firstn k vs).
  assert (forall h, In h us -> In h vs) as Hu by (intros h Hh; rewrite <- (firstn_skipn k vs); apply in_or_app; left; exact Hh).
  assert (NoDup us) as Nu by (rewrite <- (firstn_skipn k vs) in Nv; eapply nodup_app_l; exact Nv).
  assert (zlen us <= 2000) as Lu by (unfold zlen, us, k; rewrite firstn_length; lia).
  destruct (alert_loop_spec n ty obj us G 0 a ltac:(lia) Nu) as (b & ps & E & F & K).
  { intros h Hh. apply Hu, Hin in Hh. destruct Hh as (x & Ex & Cx). exists x. split; [exact Ex|]. split; [exact Cx|]. exact (R h x Ex). }
  assert (active_alerts n ty obj a = (b, Some ps)) as Ea.
  { unfold active_alerts. fold vs. rewrite alert_cut by lia. replace (2000 - 0) with 2000 by lia. fold k us. exact E. }
  assert (fst (do_call n KActiveCount a) = b) as Eb.
  { pose proof (f_equal fst Ea) as H. cbn [fst] in H. rewrite <- H. unfold active_alerts. cbn [do_call]. unfold fmap, get_active_count, bind. fold vs.
    rewrite (alert_loop_state n ty obj vs 0 0 0 0 a). destruct (active_loop n 0 vs 0 0 0 a) as [z [[[c0 c1] c2]|]]; reflexivity. }
  exists (filter (is_stuck n a) us), ps. rewrite Eb. split; [exact Ea|]. split; [apply NoDup_filter; exact Nu|].
  split. { assert (length (filter (is_stuck n a) us) = length ps) as L by (clear - F; induction F; cbn; congruence). unfold zlen in *. rewrite <- L. assert (length (filter (is_stuck n a) us) <= length us)%nat; [|lia]. clear. induction us as [|u l IH]; cbn; [lia|]. destruct (is_stuck n a u); cbn; lia. }
  split.
  { assert (forall h, In h (filter (is_stuck n a) us) -> exists x, stuck_service n a h x) as Hs.
    { intros h Hh. apply filter_In in Hh as (H1 & H2). apply Hu, Hin in H1. destruct H1 as (x & Ex & Cx). exists x. unfold is_stuck in H2. rewrite Ex in H2. split; [exact Ex|]. split; [exact Cx|]. unfold stuck. lia. }
    clear - F Hs. induction F as [|h p l qs (x & Ex & Ax) F IH]; constructor.
    - destruct (Hs h (or_introl eq_refl)) as (y & Hy). exists y. split; [exact Hy|]. destruct Hy as (Ey & _). rewrite Ex in Ey. injection Ey as <-. exact Ax.
    - apply IH. intros j Hj. apply Hs. right. exact Hj. }
  split; [|exact K].
  intros H2 h x (Ex & Cx & Sx). apply filter_In. split.
  - assert (us = vs) as ->; [|apply Hin; eauto]. unfold us, k. apply firstn_all2. unfold zlen in Lv. lia.
  - unfold is_stuck. rewrite Ex. unfold stuck in Sx. lia.
Qed.

Definition stays_closed (h : nat) (x y : tctx) : Prop := x_Closed x = true -> x_Closed y = true.
Lemma stays_under k : closed_under k stays_closed.
Proof. constructor; unfold stays_closed; intros; cbn; auto. Qed.
Lemma closed_run ops : forall a h x, nth_error (a_ctx a) h = Some x -> x_Closed x = true -> exists y, nth_error (a_ctx (fst (run ops a))) h = Some y /\ x_Closed y = true.
Proof.
  induction ops as [|[n k] ops IH]; intros a h x E C; [exists x; auto|]. cbn [run]. pose proof (call_frame k stays_closed (stays_under k) n a) as (_ & F).
  destruct (F h x) as (y & Ey & Cy); [apply nth_error_Some; congruence|exact E|]. destruct (do_call n k a) as [b [r|]]; cbn [fst] in Ey; [|exists y; auto].
  destruct (IH b h y Ey (Cy C)) as (z & Ez & Cz). destruct (run ops b) as [d [rs|]]; exists z; auto.
Qed.
