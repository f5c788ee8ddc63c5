(** The agent follows the ledger: ending services, and whole histories. *)
From Verif Require Import GoInt M_Util M_Hash M_StrMatch M_Packs M_Steps M_Cache L_Cache M_Text M_Sampler M_Profile L_Profile S_Profile M_Trace
  L_Trace L_TraceRel S_Trace L_TraceInv L_TraceStart L_TraceSafe L_TraceActive L_TraceHist P_Trace3 S_Ledger L_Ledger L_Ledger2.
From Coq Require Import ZifyBool Permutation.

Lemma tells_app rs log rs' log' : tells rs log -> tells rs' log' -> tells (rs ++ rs') (log ++ log').
Proof. intros H H'. induction H; cbn [app]; [exact H'|constructor; exact IHtells..|]. constructor; assumption. Qed.

Lemma close_heap e ok p p' : close e ok p = Some p' -> p_heap p' = p_heap p.
Proof.
  unfold close. destruct (p_buf p); [intros E; injection E as <-; reflexivity|]. destruct ok; [|intros E; injection E as <-; reflexivity].
  unfold send_profile. destruct (send_groups _ _) as [gs|]; [|discriminate]. intros E. injection E as <-.
  generalize p. clear. induction gs as [|g gs IH]; intros p; [reflexivity|]. cbn [fold_left]. rewrite IH. apply send_profile0_frame.
Qed.

(** the end of a service that runs *)
Definition report_of (h : nat) (n : env) (o : option account) : list report := match o with Some c => [mkRep h c n] | None => [] end.
Lemma sampled_range r dr el m : 1 <= m <= 5 -> 1 <= sampling4elapsed r dr el m <= 5.
Proof. intros H. unfold sampling4elapsed, refer_to_profile_mode, DISCARD_PROFILE, DISCARD_ALL. repeat match goal with |- context [if ?b then _ else _] => destruct b end; lia. Qed.
Lemma discard_range n a x : 1 <= discard_of n a x <= 5.
Proof.
  unfold discard_of, find_xlog_discard. destruct (is_pattern _ _ _); [destruct (negb _); unfold DISCARD_NONE, DISCARD_ALL_FORCE; lia|].
  destruct (negb _); [unfold DISCARD_NONE; lia|]. unfold evaluate. destruct (_ && _); [unfold DISCARD_NONE; lia|]. cbv zeta.
  repeat match goal with
  | |- context [if ?b then sampling4elapsed _ _ _ _ else _] => destruct b
  end; repeat apply sampled_range; unfold DISCARD_NONE; lia.
Qed.
Lemma end_goes n h a l c : good n -> books a l -> nth_error l h = Some c ->
  exists b evs, end_tctx n h a = (b, Some tt) /\ books b (list_set l h (becomes (ends_now c))) /\ a_log b = a_log a ++ evs /\
    tells (report_of h n (reported (ends_now c))) evs.
Proof.
  intros G R E. destruct (f2_nth _ _ _ R h c E) as (x & Ex & Mx). unfold ends_now. destruct (over c) eqn:O.
  - exists a, []. cbn [quiet becomes reported report_of]. rewrite (list_set_id _ _ _ E), app_nil_r. split; [|split; [exact R|split; [reflexivity|constructor]]].
    apply (end_closed n h a x Ex). rewrite (mt_over _ _ Mx). exact O.
  - cbn [becomes reported report_of]. rewrite (end_open n h a x Ex) by (rewrite (mt_over _ _ Mx); exact O). cbv zeta.
    destruct (close_room (env_of n (closed_ctx x)) (discard_of n a x =? DISCARD_NONE) (x_Profile x) (good_env_of n _ G) (mt_room _ _ Mx)) as (p & Ep & Rp).
    rewrite Ep. eexists _, _. split; [reflexivity|]. split; [|split; [reflexivity|]].
    + unfold books. cbn [end_state a_ctx]. apply f2_set; [exact R|]. destruct Mx as [M1 M2 M3 M4 M5 M6 M7 M8].
      constructor; cbn [finish over did num_of txt_of stream]; try assumption; try reflexivity; [|discriminate].
      cbn [x_Profile set_Profile]. rewrite (close_heap _ _ _ _ Ep). exact M7.
    + unfold end_events.
      assert (forall d, 1 <= d <= 5 -> describes n c (the_xlog (cf_obj (n_conf n)) x d (millis_between (x_StartTime x) (n_now n)))) as D.
      { intros d Hd. unfold describes, ms. rewrite <- !(mt_num _ _ Mx), <- !(mt_txt _ _ Mx). cbn [x_num x_txt the_xlog xl_Service xl_Txid xl_Caller xl_Gxid xl_Elapsed xl_Error
          xl_Ipaddr xl_Status xl_Userid xl_UserAgent xl_Referer xl_ApicallCount xl_ApicallTime xl_XType xl_Login xl_Desc xl_Text1 xl_Text2 xl_Text3 xl_Text4 xl_Text5
          xl_ObjHash xl_SqlCount xl_SqlTime xl_HasDump xl_ThreadNameHash xl_EndTime xl_Cpu xl_Kbytes xl_Group xl_CountryCode xl_City xl_WebHash xl_WebTime
          xl_QueuingHostHash xl_QueuingTime xl_Queuing2ndHostHash xl_Queuing2ndTime xl_B3Mode xl_IgnoreGCS xl_ProfileCount xl_ProfileSize xl_DiscardType].
        destruct (mt_sql _ _ Mx) as (S1 & S2). repeat (split; [first [reflexivity | assumption | apply int32_range]|]). exact Hd. }
      pose proof (mt_num _ _ Mx NStart) as T. pose proof (mt_num _ _ Mx NError) as Er. cbn [x_num] in T, Er.
      assert (millis_between (x_StartTime x) (n_now n) = ms n c) as Em by (unfold ms; rewrite T; reflexivity).
      rewrite Em, Er. rewrite Em in D. pose proof (discard_range n a x) as Dr. destruct (sends x _); constructor; auto; constructor.
Qed.
Lemma end_any_goes n h a l c : good n -> books a l -> nth_error l h = Some c ->
  exists b evs, end_any n (CTrace h) a = (b, Some tt) /\ books b (list_set l h (becomes (ends_now c))) /\ a_log b = a_log a ++ evs /\
    tells (report_of h n (reported (ends_now c))) evs.
Proof.
  intros G R E. destruct (end_goes n h a l c G R E) as (b & evs & Ee & Rest). exists b, evs. split; [|exact Rest].
  destruct (f2_nth _ _ _ R h c E) as (x & Ex & Mx). unfold end_any, traced, bind, get_tctx. rewrite Ex. rewrite (read_eq _ _ _ _ Ex).
  destruct (x_Closed x) eqn:C; [|exact Ee]. rewrite (end_closed n h a x Ex C) in Ee. exact Ee.
Qed.

(** what a call does *)
Definition steps_to (n : env) (k : call) (a : agent) (l : ledger) : Prop :=
  exists b r l' rs evs, do_call n k a = (b, Some r) /\ ledger_step n k l r l' rs /\ books b l' /\ a_log b = a_log a ++ evs /\ tells rs evs.

Lemma goes_steps n k a l : k <> KActiveCount -> goes n k a l -> steps_to n k a l.
Proof.
  intros Hk Hg. destruct (ledger_call n k l) as [[l' r] rs] eqn:E. destruct (Hg l' r rs E) as (b & Eb & Rb & -> & Lb).
  exists b, r, l', [], []. split; [exact Eb|]. split; [destruct k; try exact E; congruence|]. split; [exact Rb|]. rewrite app_nil_r. split; [exact Lb|constructor].
Qed.
(** a context without account *)
Definition plain_call (k : call) : Prop :=
  match k with KStartService _ _ _ | KStartHttp _ _ | KInherit _ _ | KGo _ _ | KActiveCount | KResetText | KConf => False | _ => True end.
Lemma plain_ledger n k l : plain_call k -> ledger_call n k l = match account_of l (ctx_arg k) with
  | Some (h, acc) => (list_set l h (becomes (on_account n k acc)), gives (on_account n k acc), report_of h n (reported (on_account n k acc)))
  | None => (l, untraced k, []) end.
Proof. destruct k; intros H; try destruct H; reflexivity. Qed.
Lemma no_account n k a l : plain_call k -> sensible a (n, k) -> books a l -> account_of l (ctx_arg k) = None -> do_call n k a = (a, Some (untraced k)).
Proof.
  intros Hp Hs R E.
  assert (forall A B (f : A -> B) d (q : nat -> M A), fmap f (recovered d (traced (ctx_arg k) d q)) a = (a, Some (f d))) as T1.
  { intros. apply fmap_eq, recovered_eq, (traced_none a l); assumption. }
  destruct k; try exact (False_ind _ Hp); cbn [ctx_arg do_call untraced] in *; try (apply T1).
  - destruct c; try reflexivity. cbn in Hs. cbn in E. destruct (nth_error l h) eqn:En; [discriminate|]. apply nth_error_None in En. rewrite <- (f2_len _ _ _ R) in En. lia.
  - unfold end_http_service. destruct status; [apply T1|apply T1].
  - unfold end_method. destruct ptr; [apply T1|reflexivity].
  - unfold end_api_call. destruct ptr; [apply T1|reflexivity].
  - unfold set_user. apply (fmap_eq (fun _ => RUnit) _ _ _ tt), (traced_none a l); assumption.
Qed.
Lemma end_steps n k a l h c : good n -> (k = KEndService (CTrace h) \/ k = KGoEnd (CTrace h) \/ exists s, k = KEndHttp (CTrace h) s) ->
  books a l -> nth_error l h = Some c -> 
  exists b evs, do_call n k a = (b, Some RUnit) /\ books b (list_set l h (becomes (on_account n k c))) /\ a_log b = a_log a ++ evs /\
    tells (report_of h n (reported (on_account n k c))) evs.
Proof.
  intros G Hk R E. destruct (end_any_goes n h a l c G R E) as (b & evs & Ee & Rb & Lb & Tb).
  assert (fmap (fun _ => RUnit) (recovered tt (end_any n (CTrace h))) a = (b, Some RUnit)) as E1.
  { apply (fmap_eq (fun _ => RUnit) _ _ _ tt), recovered_eq, Ee. }
  destruct Hk as [-> | [-> | [[s|] ->]]]; cbn [do_call on_account]; try (exists b, evs; auto; fail).
  destruct (f2_nth _ _ _ R h c E) as (x & Ex & Mx). pose proof (mt_over _ _ Mx) as O. unfold end_http_service.
  destruct (over c) eqn:Oc.
  - exists a, []. cbn [quiet becomes reported report_of]. rewrite (list_set_id _ _ _ E), app_nil_r. split; [|split; [exact R|split; [reflexivity|constructor]]].
    apply (fmap_eq (fun _ => RUnit) _ _ _ tt), recovered_eq. unfold traced, bind, get_tctx. rewrite Ex, (read_eq _ _ _ _ Ex), O. reflexivity.
  - destruct (does_run h c _ _ tt a l (does_set_status h c (int32 s)) R E) as (b1 & E2 & Rb1 & Lb1).
    destruct (end_any_goes n h b1 _ (put_num NStatus (int32 s) c) G Rb1 (nth_set_lt _ _ _ _ E)) as (b2 & evs2 & E3 & Rb2 & Lb2 & Tb2).
    rewrite list_set_twice in Rb2. exists b2, evs2. split; [|split; [exact Rb2|split; [congruence|exact Tb2]]].
    apply (fmap_eq (fun _ => RUnit) _ _ _ tt), recovered_eq. unfold traced at 1. unfold bind at 1, get_tctx. rewrite Ex. rewrite (bind_some _ _ _ _ _ (read_eq _ _ _ _ Ex)), O.
    rewrite (bind_some _ _ _ _ _ E2). exact E3.
Qed.

(** ** GetActiveCount *)
Lemma stuck_goes n h a l c : good n -> cf_stuck_remove (n_conf n) = true -> books a l -> nth_error l h = Some c ->
  exists b evs, end_stuck n h a = (b, Some tt) /\ books b (list_set l h (becomes (ends_now (marked_stuck n c)))) /\ a_log b = a_log a ++ evs /\
    tells (report_of h n (reported (ends_now (marked_stuck n c)))) evs.
Proof.
  intros G Hr R E. unfold end_stuck. rewrite Hr.
  assert (does h c (marked_stuck n c) (st <- millis n h ;;
       hs <- send_text n KHashMsg (of_string "Service currently may running, not finished!") ;;
       profile_add n h (SPMessage (mk_single 0 0 st) hs 0 PMSG_ERROR []) ;;
       err <- read h x_Error ;;
       (if err =? 0 then (e <- send_text n KError (of_string "This stuck service currently may running, not finished!") ;;
                          modify h (set_Error e))
        else ret tt)) tt) as D.
  { unfold marked_stuck. eapply does_bind; [apply does_millis|]. eapply does_bind; [apply does_send|]. eapply does_bind; [apply does_add; exact G|].
    apply does_error_unless. }
  destruct (does_run _ _ _ _ _ _ _ D R E) as (b & Eb & Rb & Lb).
  destruct (end_goes n h b _ _ G Rb (nth_set_lt _ _ _ _ E)) as (b2 & evs & E2 & Rb2 & Lb2 & T2). rewrite list_set_twice in Rb2.
  exists b2, evs. split; [|split; [exact Rb2|split; [congruence|exact T2]]]. apply recovered_eq. revert Eb E2.
  generalize (of_string "This stuck service currently may running, not finished!"). intros s1.
  generalize (of_string "Service currently may running, not finished!"). intros s2. intros Eb E2.
  revert Eb. unfold bind at 1. intros Eb. unfold bind at 1. destruct (millis n h a) as [a1 [st|]]; [|discriminate].
  revert Eb. unfold bind at 1. intros Eb. unfold bind at 1. destruct (send_text n KHashMsg s2 a1) as [a2 [hs|]]; [|discriminate].
  revert Eb. unfold bind at 1. intros Eb. unfold bind at 1. destruct (profile_add _ _ _ a2) as [a3 [u|]]; [|discriminate].
  revert Eb. unfold bind at 1. intros Eb. unfold bind at 1. destruct (read h x_Error a3) as [a4 [er|]]; [|discriminate].
  unfold bind at 1. rewrite Eb. exact E2.
Qed.
Lemma removals_app n l l1 l2 r1 r2 : removals n l l1 r1 -> removals n l1 l2 r2 -> removals n l l2 (r1 ++ r2).
Proof. intros H. induction H as [|l h c l1 r1 E S H IH]; intros H2; [exact H2|]. rewrite <- app_assoc. econstructor; eauto. Qed.
Lemma removals_len n l l' rs : removals n l l' rs -> length l' = length l.
Proof. induction 1; [reflexivity|]. rewrite IHremovals. apply list_set_length. Qed.

Lemma loop_goes n vs : good n -> forall count c0 c1 c2 a l, books a l -> Forall (fun h => (h < length l)%nat) vs ->
  exists b r l' rs evs, active_loop n count vs c0 c1 c2 a = (b, Some r) /\ removals n l l' rs /\ books b l' /\ a_log b = a_log a ++ evs /\ tells rs evs.
Proof.
  intros G. induction vs as [|h vs IH]; intros count c0 c1 c2 a l R F; cbn [active_loop].
  - exists a, (c0, c1, c2), l, [], []. rewrite app_nil_r. repeat (split; [first [reflexivity|constructor|exact R]|]). constructor.
  - inversion_clear F as [|? ? Hh Fv]. destruct (2000 <? count + 1).
    { exists a, (c0, c1, c2), l, [], []. rewrite app_nil_r. repeat (split; [first [reflexivity|constructor|exact R]|]). constructor. }
    destruct (nth_lt _ _ Hh) as (c & Ec). destruct (f2_nth _ _ _ R h c Ec) as (x & Ex & Mx).
    rewrite (bind_some _ _ _ _ _ (read_eq _ _ _ _ Ex)). set (el := Z.quot _ 1000000).
    assert (el = Z.quot (span (num_of c NStart) (n_now n)) 1000000) as Eel by (unfold el; rewrite <- (mt_num _ _ Mx NStart); reflexivity).
    clearbody el.
    destruct (if el <=? cf_yellow (n_conf n) then (c0 + 1, c1, c2) else if el <=? cf_red (n_conf n) then (c0, c1 + 1, c2) else (c0, c1, c2 + 1)) as [[d0 d1] d2].
    assert (exists b l1 rs evs, (if cf_stuck_ms (n_conf n) <? el then
           (end_stuck n h ;; emit (EvAlert (if cf_stuck_alert (n_conf n) then 2 else 1) (of_string "STUCK_SERVICE")))
         else ret tt) a = (b, Some tt) /\ removals n l l1 rs /\ books b l1 /\ a_log b = a_log a ++ evs /\ tells rs evs) as (b & l1 & rs & evs & E1 & Rm & Rb & Lb & Tb).
    { generalize (of_string "STUCK_SERVICE"). intros ttl. destruct (Z.ltb_spec (cf_stuck_ms (n_conf n)) el) as [Hs|Hs].
      2: { exists a, l, [], []. rewrite app_nil_r. split; [reflexivity|]. split; [constructor|]. split; [exact R|]. split; [reflexivity|constructor]. }
      destruct (cf_stuck_remove (n_conf n)) eqn:Hr.
      - destruct (stuck_goes n h a l c G Hr R Ec) as (b & evs & Eb & Rb & Lb & Tb). eexists _, _, _, _. rewrite (bind_some _ _ _ _ _ Eb). split; [reflexivity|].
        split; [eapply one_removal; [exact Ec|split; [exact Hr|rewrite <- Eel; exact Hs]|constructor]|]. split; [exact Rb|].
        cbn [add_log a_log]. rewrite Lb. split; [rewrite <- app_assoc; reflexivity|]. apply tells_app; [exact Tb|]. constructor. constructor.
      - eexists _, l, [], _. unfold end_stuck. rewrite Hr. unfold recovered. split; [reflexivity|]. split; [constructor|]. split; [exact R|].
        split; [reflexivity|]. constructor. constructor. }
    rewrite (bind_some _ _ _ _ _ E1). destruct (IH (count + 1) d0 d1 d2 b l1 Rb) as (b2 & r & l2 & rs2 & ev2 & E2 & Rm2 & Rb2 & Lb2 & T2).
    { rewrite (removals_len _ _ _ _ Rm). exact Fv. }
    exists b2, r, l2, (rs ++ rs2), (evs ++ ev2). split; [exact E2|]. split; [eapply removals_app; eassumption|]. split; [exact Rb2|].
    split; [rewrite Lb2, Lb, app_assoc; reflexivity|apply tells_app; assumption].
Qed.

(** ** Every call *)
Lemma call_steps n k a l : good n -> sensible a (n, k) -> valid_table a -> books a l -> steps_to n k a l.
Proof.
  intros G Hs V R.
  assert (plain_call k -> steps_to n k a l) as P.
  { intros Hp. assert (forall r l' rs, ledger_call n k l = (l', r, rs) -> ledger_step n k l r l' rs) as Hl by (intros; destruct k; try exact (False_ind _ Hp); assumption).
    destruct (account_of l (ctx_arg k)) as [[h c]|] eqn:E.
    - destruct (get_some _ _ _ _ _ R E) as (Hc & Hn & _). pose proof (plain_ledger n k l Hp) as Hk. rewrite E in Hk.
      destruct k; try exact (False_ind _ Hp); cbn [ctx_arg] in Hc;
      try (match type of Hk with ledger_call n ?k l = _ =>
             assert (on_one k) as O by (first [exact I | exact Hs]);
             destruct (does_run _ _ _ _ _ _ _ (does_call h c n k G O Hc) R Hn) as (b & Eb & Rb & Lb);
             assert (reported (on_account n k c) = None) as Hrep by (cbn [on_account]; try reflexivity; try (destruct st as [st|]; [reflexivity|exact (False_ind _ (Hs eq_refl))]);
               destruct ptr as [ptr|]; try reflexivity; destruct (step_of c ptr) as [[]|]; reflexivity);
             rewrite Hrep in Hk; exists b, (gives (on_account n k c)); eexists _, [], [];
             split; [exact Eb|]; split; [apply Hl; exact Hk|]; split; [exact Rb|]; rewrite app_nil_r; split; [exact Lb|constructor] end);
      try (subst c0; match type of Hk with ledger_call n ?k l = _ =>
             assert (k = KEndService (CTrace h) \/ k = KGoEnd (CTrace h) \/ exists s, k = KEndHttp (CTrace h) s) as He by eauto;
             destruct (end_steps n k a l h c G He R Hn) as (b & evs & Eb & Rb & Lb & Tb);
             exists b, RUnit; eexists _, _, evs; split; [exact Eb|]; split; [apply Hl; rewrite Hk; f_equal; f_equal|split; [exact Rb|split; [exact Lb|exact Tb]]] end).
      all: cbn [on_account]; unfold ends_now, quiet; try destruct status; repeat (destruct (over _); try reflexivity).
    - exists a, (untraced k), l, [], []. split; [apply (no_account n k a l Hp Hs R E)|]. split; [|split; [exact R|rewrite app_nil_r; split; [reflexivity|constructor]]].
      apply Hl. rewrite (plain_ledger n k l Hp), E. reflexivity. }
  destruct k; try (apply P; exact I).
  - apply goes_steps; [discriminate|]. apply start_service_goes; assumption.
  - apply goes_steps; [discriminate|]. apply start_http_goes; assumption.
  - apply goes_steps; [discriminate|]. apply inherit_goes; assumption.
  - apply goes_steps; [discriminate|]. apply go_goes; assumption.
  - destruct (loop_goes n (handles (lra_values (a_active a) (n_order n))) G 0 0 0 0 a l R) as (b & r & l' & rs & evs & Eb & Rm & Rb & Lb & Tb).
    { rewrite <- (f2_len _ _ _ R). apply valid_handles; assumption. }
    eexists b, _, l', rs, evs. split; [apply fmap_eq; exact Eb|]. auto.
  - eexists _, _, l, [], []. split; [reflexivity|]. split; [reflexivity|]. split; [exact R|]. rewrite app_nil_r. split; [reflexivity|constructor].
  - eexists _, _, l, [], []. split; [reflexivity|]. split; [reflexivity|]. split; [exact R|]. rewrite app_nil_r. split; [reflexivity|constructor].
Qed.

(** ** Histories *)
Lemma ledger_snoc l ops rs l1 r1 : ledger_run l ops rs l1 r1 -> forall n k r l2 r2, ledger_step n k l1 r l2 r2 ->
  ledger_run l (ops ++ [(n, k)]) (rs ++ [r]) l2 (r1 ++ r2).
Proof.
  intros H. induction H as [l|l n k ops r rs l1 r1 l2 r2 S H IH]; intros m j r' l3 r3 S3; cbn [app].
  - rewrite <- (app_nil_r r3). econstructor; [exact S3|constructor].
  - rewrite <- app_assoc. econstructor; [exact S|apply IH; exact S3].
Qed.
Lemma history_books c ops : well_used c ops -> exists rs l reps, snd (run ops (a_init c)) = Some rs /\ ledger_run [] ops rs l reps /\
  books (after c ops) l /\ tells reps (a_log (after c ops)).
Proof.
  induction ops as [|[n k] ops IH] using rev_ind; intros W.
  - exists [], [], []. split; [reflexivity|]. split; [constructor|]. split; [constructor|constructor].
  - pose proof (well_used_prefix _ _ _ W) as W0. destruct (IH W0) as (rs & l & reps & Er & H & R & T). destruct (W ops n k [] eq_refl) as (G & S0).
    destruct (sound_run c ops W0) as ([_ V _] & _). destruct (call_steps n k (after c ops) l G S0 V R) as (b & r & l' & r2 & evs & Eb & S & Rb & Lb & Tb).
    destruct (run_snoc ops n k _ _ Er) as (E1 & E2). fold (after c ops) in E1, E2. rewrite Eb in E1, E2. cbn [fst snd] in E1, E2.
    exists (rs ++ [r]), l', (reps ++ r2). split; [exact E2|]. split; [eapply ledger_snoc; eassumption|]. unfold after at 1 2. rewrite E1, Lb.
    split; [exact Rb|apply tells_app; assumption].
Qed.
