(** Histories follow the exact ledger. *)
From Verif Require Import GoInt M_Util M_Hash M_StrMatch M_Packs M_Steps M_Cache L_Cache M_Text M_Sampler M_Profile L_Profile S_Profile M_Trace
  L_Trace L_TraceRel S_Trace L_TraceInv L_TraceStart L_TraceSafe L_TraceActive L_TraceHist S_Steps S_Sampler P_Profile P_Trace P_Trace2 P_Trace3
  S_Hash L_Hash S_Ledger L_Ledger L_Ledger2 L_Ledger3 L_Ledger4 L_Ledger5 P_Ledger S_Sweep L_StuckProfile P_StuckProfile.
From Coq Require Import ZifyBool Permutation.

Definition rep_at (n : env) (l : ledger) (h : nat) : list report := match nth_error l h with Some c => swept_report n h c | None => [] end.

Lemma loop_sweeps n vs : good n -> forall count c0 c1 c2 a l, count + zlen vs <= 2000 -> NoDup vs -> books a l ->
  (forall h, In h vs -> exists c, nth_error l h = Some c /\ over c = false) ->
  exists b r l' rs evs, active_loop n count vs c0 c1 c2 a = (b, Some r) /\ removals n l l' rs /\ books b l' /\ a_log b = a_log a ++ evs /\ tells rs evs /\
    rs = flat_map (rep_at n l) vs /\ length l' = length l /\
    (forall h, In h vs -> nth_error l' h = option_map (swept n) (nth_error l h)) /\ (forall h, ~ In h vs -> nth_error l' h = nth_error l h).
Proof.
  intros G. induction vs as [|h vs IH]; intros count c0 c1 c2 a l Hc Nd R F; cbn [active_loop].
  - exists a, (c0, c1, c2), l, [], []. rewrite app_nil_r. repeat (split; [first [reflexivity|constructor|exact R]|]). split; [intros h []|auto].
  - rewrite zlen_cons in Hc. assert (0 <= zlen vs) as Hz by (unfold zlen; lia). inversion_clear Nd as [|? ? Hn Nd']. destruct (Z.ltb_spec 2000 (count + 1)) as [|_]; [lia|].
    destruct (F h (or_introl eq_refl)) as (c & Ec & Oc). destruct (f2_nth _ _ _ R h c Ec) as (x & Ex & Mx).
    rewrite (bind_some _ _ _ _ _ (read_eq _ _ _ _ Ex)). set (el := Z.quot _ 1000000).
    assert (el = Z.quot (span (num_of c NStart) (n_now n)) 1000000) as Eel by (unfold el; rewrite <- (mt_num _ _ Mx NStart); reflexivity).
    clearbody el.
    destruct (if el <=? cf_yellow (n_conf n) then (c0 + 1, c1, c2) else if el <=? cf_red (n_conf n) then (c0, c1 + 1, c2) else (c0, c1, c2 + 1)) as [[d0 d1] d2].
    assert (exists b l1 rs evs, (if cf_stuck_ms (n_conf n) <? el then
           (end_stuck n h ;; emit (EvAlert (if cf_stuck_alert (n_conf n) then 2 else 1) (of_string "STUCK_SERVICE")))
         else ret tt) a = (b, Some tt) /\ removals n l l1 rs /\ books b l1 /\ a_log b = a_log a ++ evs /\ tells rs evs /\
         rs = swept_report n h c /\ l1 = list_set l h (swept n c)) as (b & l1 & rs & evs & E1 & Rm & Rb & Lb & Tb & Q1 & Q2).
    { generalize (of_string "STUCK_SERVICE"). intros ttl. unfold swept_report, swept, overdue. rewrite Oc, <- Eel. cbn [negb andb].
      destruct (Z.ltb_spec (cf_stuck_ms (n_conf n)) el) as [Hs|Hs].
      2: { exists a, l, [], []. rewrite app_nil_r, andb_false_r. repeat (split; [first [reflexivity|constructor|exact R]|]). symmetry. apply list_set_id. exact Ec. }
      rewrite andb_true_r. destruct (cf_stuck_remove (n_conf n)) eqn:Hr.
      - destruct (stuck_goes n h a l c G Hr R Ec) as (b & evs & Eb & Rb & Lb & Tb). eexists _, _, _, _. rewrite (bind_some _ _ _ _ _ Eb). split; [reflexivity|].
        split; [eapply one_removal; [exact Ec|split; [exact Hr|rewrite <- Eel; exact Hs]|constructor]|]. split; [exact Rb|].
        cbn [add_log a_log]. rewrite Lb. split; [rewrite <- app_assoc; reflexivity|]. split; [|split; [apply app_nil_r|reflexivity]].
        apply tells_app; [exact Tb|]. constructor. constructor.
      - eexists _, l, [], _. unfold end_stuck. rewrite Hr. unfold recovered. split; [reflexivity|]. split; [constructor|]. split; [exact R|].
        split; [reflexivity|]. split; [constructor; constructor|]. split; [reflexivity|symmetry; apply list_set_id; exact Ec]. }
    rewrite (bind_some _ _ _ _ _ E1).
    assert (forall g, g <> h -> nth_error l1 g = nth_error l g) as Ho by (intros g Hg; rewrite Q2; apply list_set_other; congruence).
    assert (nth_error l1 h = Some (swept n c)) as Hh by (rewrite Q2; eapply nth_set_lt; exact Ec).
    destruct (IH (count + 1) d0 d1 d2 b l1 ltac:(lia) Nd' Rb) as (b2 & r & l2 & rs2 & ev2 & E2 & Rm2 & Rb2 & Lb2 & T2 & P2 & N2 & K1 & K2).
    { intros g Hg. rewrite (Ho g) by (intros ->; contradiction). apply F. right. exact Hg. }
    exists b2, r, l2, (rs ++ rs2), (evs ++ ev2). split; [exact E2|]. split; [eapply removals_app; eassumption|]. split; [exact Rb2|].
    split; [rewrite Lb2, Lb, app_assoc; reflexivity|]. split; [apply tells_app; assumption|]. split.
    { cbn [flat_map]. unfold rep_at at 1. rewrite Ec, <- Q1, P2. f_equal. rewrite !flat_map_concat_map. f_equal. apply map_ext_in. intros g Hg. unfold rep_at.
      rewrite (Ho g) by (intros ->; contradiction). reflexivity. }
    split; [rewrite N2, Q2; apply list_set_length|]. split.
    + intros g [<-|Hg]; [rewrite (K2 h Hn), Hh, Ec; reflexivity|]. rewrite (K1 g Hg), (Ho g) by (intros ->; contradiction). reflexivity.
    + intros g Hg. rewrite (K2 g) by (intros Hi; apply Hg; right; exact Hi). apply Ho. intros ->. apply Hg. left. reflexivity.
Qed.

(** the visited services and all services *)
Lemma flat_map_perm {A B} (f : A -> list B) l l' : Permutation l l' -> Permutation (flat_map f l) (flat_map f l').
Proof.
  induction 1 as [|x l l' _ IH|x y l|l1 l2 l3 _ IH1 _ IH2]; cbn [flat_map]; [constructor|apply Permutation_app_head; exact IH| |eapply perm_trans; eassumption].
  rewrite !app_assoc. apply Permutation_app_tail, Permutation_app_comm.
Qed.
Lemma swept_reports_seq n l : forall i, swept_reports n i l = flat_map (fun h => match nth_error l (h - i) with Some c => swept_report n h c | None => [] end) (seq i (length l)).
Proof.
  induction l as [|c l IH]; intros i; [reflexivity|]. cbn [swept_reports length seq flat_map]. rewrite Nat.sub_diag. cbn [nth_error]. f_equal. rewrite IH.
  rewrite !flat_map_concat_map. f_equal. apply map_ext_in. intros h Hh. apply in_seq in Hh. replace (h - i)%nat with (S (h - S i)) by lia. reflexivity.
Qed.
Lemma flat_map_filter {A B} (f : A -> list B) p l : (forall x, p x = false -> f x = []) -> flat_map f (filter p l) = flat_map f l.
Proof. intros H. induction l as [|x l IH]; [reflexivity|]. cbn [filter flat_map]. destruct (p x) eqn:E; cbn [flat_map]; rewrite IH; [reflexivity|rewrite (H x E); reflexivity]. Qed.
Lemma not_overdue n c : over c = true -> overdue n c = false.
Proof. intros O. unfold overdue. rewrite O. reflexivity. Qed.
Lemma visited_reports n l vs : NoDup vs -> (forall h, In h vs <-> exists c, nth_error l h = Some c /\ over c = false) ->
  Permutation (flat_map (rep_at n l) vs) (swept_reports n 0 l).
Proof.
  intros Nd Hv. set (p := fun h => match nth_error l h with Some c => negb (over c) | None => false end).
  assert (Permutation vs (filter p (seq 0 (length l)))) as Pm.
  { apply NoDup_Permutation; [exact Nd|apply NoDup_filter, seq_NoDup|]. intros h. rewrite Hv, filter_In, in_seq. unfold p. split.
    - intros (c & E & O). rewrite E, O. split; [|reflexivity]. assert (h < length l)%nat by (apply nth_error_Some; congruence). lia.
    - intros (_ & H). destruct (nth_error l h) as [c|]; [|discriminate]. exists c. split; [reflexivity|]. destruct (over c); [discriminate|reflexivity]. }
  rewrite (flat_map_perm _ _ _ Pm), flat_map_filter.
  - rewrite swept_reports_seq. rewrite !flat_map_concat_map. erewrite map_ext_in; [reflexivity|]. intros h _. unfold rep_at. rewrite Nat.sub_0_r. reflexivity.
  - unfold p, rep_at. intros h H. destruct (nth_error l h) as [c|]; [|reflexivity]. unfold swept_report. rewrite not_overdue; [reflexivity|]. destruct (over c); [reflexivity|discriminate].
Qed.

Lemma map_nth_ext {A} (l l' : list A) : length l = length l' -> (forall i, nth_error l i = nth_error l' i) -> l = l'.
Proof.
  revert l'. induction l as [|x l IH]; intros [|y l'] L H; try discriminate L; [reflexivity|]. pose proof (H O) as H0. cbn in H0. injection H0 as ->. f_equal.
  apply IH; [cbn in L; lia|]. intros i. exact (H (S i)).
Qed.
Lemma quiet_sweep n l : cf_stuck_remove (n_conf n) = false -> map (swept n) l = l /\ forall i, swept_reports n i l = [].
Proof.
  intros Z0. assert (forall c, overdue n c = false) as Ov by (intros c; unfold overdue; rewrite Z0, andb_false_r; reflexivity).
  induction l as [|c l (IH1 & IH2)]; [auto|]. cbn [map swept_reports]. unfold swept at 1, swept_report. rewrite Ov, IH1. split; [reflexivity|]. intros i. rewrite IH2. reflexivity.
Qed.

(** one count *)
Lemma count_exact c ops n l : well_used c ops -> good n -> sensible (after c ops) (n, KActiveCount) -> books (after c ops) l ->
  (cf_stuck_remove (n_conf n) = true -> NoDup (txids (after c ops)) /\ (forall p1 p2, ops = p1 ++ p2 -> running_count (after c p1) <= 10000) /\
     running_count (after c ops) <= 2000) ->
  exists b r l' rs evs, do_call n KActiveCount (after c ops) = (b, Some r) /\ removals n l l' rs /\ books b l' /\ a_log b = a_log (after c ops) ++ evs /\ tells rs evs /\
    l' = map (swept n) l /\ Permutation rs (swept_reports n 0 l).
Proof.
  intros W G Hs R Hq. destruct (sound_run c ops W) as ([_ V _] & _). destruct (cf_stuck_remove (n_conf n)) eqn:Hr.
  - destruct (Hq eq_refl) as (Nd & Hc & H2). pose proof Hs as Hp. cbn [sensible snd fst] in Hp. clear Hq. destruct (stuck_handles c ops n W Nd Hc Hp) as (L & Nv & Hin).
    set (a := after c ops) in *. set (vs := handles (lra_values (a_active a) (n_order n))) in *.
    assert (forall h, In h vs <-> exists x, nth_error l h = Some x /\ over x = false) as Hv.
    { intros h. rewrite Hin. split.
      - intros (x & Ex & Cx). assert (h < length l)%nat as Hl by (rewrite <- (f2_len _ _ _ R); apply nth_error_Some; congruence). destruct (nth_lt _ _ Hl) as (d & Ed).
        destruct (f2_nth _ _ _ R h d Ed) as (x' & Ex' & Mx). assert (x' = x) as -> by congruence. exists d. split; [exact Ed|]. rewrite <- (mt_over _ _ Mx). exact Cx.
      - intros (d & Ed & O). destruct (f2_nth _ _ _ R h d Ed) as (x & Ex & Mx). exists x. split; [exact Ex|]. rewrite (mt_over _ _ Mx). exact O. }
    destruct (loop_sweeps n vs G 0 0 0 0 a l ltac:(lia) Nv R (fun h Hh => proj1 (Hv h) Hh)) as (b & r & l' & rs & evs & E & Rm & Rb & Lb & Tb & Q1 & Q2 & K1 & K2).
    exists b, (let '(a0, a1, a2) := r in RCounts a0 a1 a2), l', rs, evs. split.
    { cbn [do_call]. unfold fmap, get_active_count, bind. fold vs. rewrite E. destruct r as [[r0 r1] r2]. reflexivity. }
    split; [exact Rm|]. split; [exact Rb|]. split; [exact Lb|]. split; [exact Tb|]. split.
    + apply map_nth_ext; [rewrite map_length; exact Q2|]. intros h. rewrite nth_error_map. destruct (nth_error l h) as [d|] eqn:Ed.
      * destruct (over d) eqn:O; [|rewrite <- Ed; apply K1, Hv; eauto]. rewrite K2 by (rewrite Hv; intros (d' & Ed' & O'); congruence).
        rewrite Ed. cbn [option_map]. unfold swept. rewrite (not_overdue _ _ O). reflexivity.
      * rewrite K2 by (rewrite Hv; intros (d' & Ed' & O'); congruence). exact Ed.
    + rewrite Q1. apply visited_reports; assumption.
  - destruct (loop_goes n (handles (lra_values (a_active (after c ops)) (n_order n))) G 0 0 0 0 (after c ops) l R) as (b & r & l' & rs & evs & Eb & Rm & Rb & Lb & Tb).
    { rewrite <- (f2_len _ _ _ R). apply valid_handles; assumption. }
    assert (l' = l /\ rs = []) as (-> & ->) by (inversion Rm as [|? ? ? ? ? ? (Hs2 & _)]; subst; [auto|congruence]). destruct (quiet_sweep n l Hr) as (S1 & S2).
    eexists b, _, l, [], evs. split; [apply fmap_eq; exact Eb|]. rewrite S1, S2. repeat (split; [assumption || reflexivity|]). constructor.
Qed.

Lemma exact_snoc l ops rs l1 r1 : exact_run l ops rs l1 r1 -> forall n k r l2 r2, exact_step n k l1 r l2 r2 ->
  exact_run l (ops ++ [(n, k)]) (rs ++ [r]) l2 (r1 ++ r2).
Proof.
  intros H. induction H as [l|l n k ops r rs l1 r1 l2 r2 S0 H IH]; intros m j r' l3 r3 S3; cbn [app].
  - rewrite <- (app_nil_r r3). econstructor; [exact S3|constructor].
  - rewrite <- app_assoc. econstructor; [exact S0|apply IH; exact S3].
Qed.
Lemma checks_prefix c p q : checks_fit c (p ++ q) -> checks_fit c p.
Proof. intros H p1 n q1 -> Hr. apply (H p1 n (q1 ++ q)); [rewrite <- app_assoc; reflexivity|exact Hr]. Qed.

Lemma exact_books c ops : well_used c ops -> checks_fit c ops -> exists rs l reps, snd (run ops (a_init c)) = Some rs /\ ledger_run [] ops rs l reps /\
  exact_run [] ops rs l reps /\ books (after c ops) l /\ tells reps (a_log (after c ops)).
Proof.
  induction ops as [|[n k] ops IH] using rev_ind; intros W Q.
  - exists [], [], []. split; [reflexivity|]. split; [constructor|]. split; [constructor|]. split; [constructor|constructor].
  - pose proof (well_used_prefix _ _ _ W) as W0. destruct (IH W0 (checks_prefix _ _ _ Q)) as (rs & l & reps & Er & H & X & R & T). destruct (W ops n k [] eq_refl) as (G & S0).
    destruct (sound_run c ops W0) as ([_ V _] & _).
    assert (exists b r l' r2 evs, do_call n k (after c ops) = (b, Some r) /\ ledger_step n k l r l' r2 /\ exact_step n k l r l' r2 /\ books b l' /\
      a_log b = a_log (after c ops) ++ evs /\ tells r2 evs) as (b & r & l' & r2 & evs & Eb & S1 & S2 & Rb & Lb & Tb).
    { assert (k = KActiveCount \/ k <> KActiveCount) as [-> | Hk] by (destruct k; first [left; reflexivity | right; discriminate]).
      - destruct (count_exact c ops n l W0 G S0 R (Q ops n [] eq_refl)) as (b & r & l' & r2 & evs & A1 & A2 & A3 & A4 & A5 & A6 & A7). exists b, r, l', r2, evs. cbn [ledger_step exact_step]. auto 10.
      - destruct (call_steps n k (after c ops) l G S0 V R) as (b & r & l' & r2 & evs & A1 & A2 & A3). exists b, r, l', r2, evs. split; [exact A1|]. split; [exact A2|]. split; [|exact A3].
        destruct k; first [exact A2 | contradiction]. }
    destruct (run_snoc ops n k _ _ Er) as (E1 & E2). fold (after c ops) in E1, E2. rewrite Eb in E1, E2. cbn [fst snd] in E1, E2.
    exists (rs ++ [r]), l', (reps ++ r2). split; [exact E2|]. split; [eapply ledger_snoc; eassumption|]. split; [eapply exact_snoc; eassumption|]. unfold after at 1 2. rewrite E1, Lb.
    split; [exact Rb|apply tells_app; assumption].
Qed.

Lemma exact_at ops n k : forall l rs l2 reps, exact_run l (ops ++ [(n, k)]) rs l2 reps -> exists rs1 r l1 r1 r2,
  rs = rs1 ++ [r] /\ length rs1 = length ops /\ exact_run l ops rs1 l1 r1 /\ exact_step n k l1 r l2 r2 /\ reps = r1 ++ r2.
Proof.
  induction ops as [|[m j] ops IH]; intros l rs l2 reps H; cbn [app] in H.
  - inversion H as [|? ? ? ? r res la ra lb rb S1 T1]; subst. inversion T1; subst. exists [], r, l, [], ra. rewrite app_nil_r. repeat (split; [first [reflexivity|constructor]|]). split; [exact S1|reflexivity].
  - inversion H as [|? ? ? ? r res la ra lb rb S1 T1]; subst. destruct (IH _ _ _ _ T1) as (rs1 & r' & l1 & r1 & r2 & -> & L & H1 & S2 & ->).
    exists (r :: rs1), r', l1, (ra ++ r1), r2. split; [reflexivity|]. split; [cbn; congruence|]. split; [econstructor; eassumption|]. split; [exact S2|apply app_assoc].
Qed.
Lemma exact_profiles c ops : well_used c ops -> checks_fit c ops -> exists rs l reps, follows c ops rs l reps /\ exact_run [] ops rs l reps /\ profiles_told c ops l.
Proof.
  intros W Q. destruct (exact_books c ops W Q) as (rs & l & reps & H1 & H2 & X & H3 & H4). exists rs, l, reps.
  split; [split; [exact H1|split; [exact H2|split; [exact H4|symmetry; exact (f2_len _ _ _ H3)]]]|]. split; [exact X|].
  intros T n k h acc G E O On Hk D. pose proof (tidy_run _ _ _ _ _ H2 T ltac:(constructor)) as Tb.
  destruct (end_profile n k h (after c ops) l acc G Hk H3 E O D (tidy_nth _ _ _ Tb E) On) as (y & Ey & ds & Q2). exists y, ds. split; [exact Ey|exact Q2].
Qed.
Lemma quiet_checks c ops : no_removals ops -> checks_fit c ops.
Proof. intros N p n q -> Hr. rewrite (N n) in Hr by (apply in_or_app; right; left; reflexivity). discriminate. Qed.
Lemma checks_more c ops n k : checks_fit c ops -> k <> KActiveCount -> checks_fit c (ops ++ [(n, k)]).
Proof.
  intros H Hk p m q E Hr. destruct (exists_last (l := (m, KActiveCount) :: q) ltac:(discriminate)) as (q' & z & Eq). rewrite Eq, app_assoc in E.
  apply app_inj_tail in E as (E & <-). destruct q' as [|z q']; cbn [app] in Eq; [exfalso; congruence|]. injection Eq as <- _. apply (H p m q'); assumption.
Qed.
