(** What GetActiveCount sends for a service that it ends. *)
From Verif Require Import GoInt M_Util M_Hash M_StrMatch M_Packs M_Steps M_Cache L_Cache M_Text M_Sampler M_Profile L_Profile S_Profile M_Trace
  L_Trace L_TraceRel S_Trace L_TraceInv L_TraceStart L_TraceSafe L_TraceActive L_TraceHist S_Steps S_Sampler P_Profile P_Trace P_Trace2 P_Trace3
  S_Hash L_Hash S_Ledger L_Ledger L_Ledger2 L_Ledger3 L_Ledger4 L_Ledger5.
From Coq Require Import ZifyBool Permutation.

(** an open service with an error is ended *)
Lemma closing_profile n h a l acc : good n -> books a l -> nth_error l h = Some acc -> over acc = false -> num_of acc NError <> 0 ->
  tidy (did acc) -> ended_once 0 [] (did acc) ->
  exists y, nth_error (a_ctx (fst (end_tctx n h a))) h = Some y /\ sent_profile acc y.
Proof.
  intros G R E O Er Pl On. destruct (f2_nth _ _ _ R h acc E) as (x & Ex & Mx).
  destruct (end_goes n h a l acc G R E) as (b & evs & Eb & _). revert Eb.
  rewrite (end_open n h a x Ex) by (rewrite (mt_over _ _ Mx); exact O). cbv zeta.
  rewrite (discard_error n a x) by (rewrite <- (mt_num _ _ Mx NError) in Er; exact Er). change (DISCARD_NONE =? DISCARD_NONE) with true.
  destruct (close (env_of n (closed_ctx x)) true (x_Profile x)) as [p|] eqn:Cl; [|discriminate]. intros _. cbn [fst].
  assert (h < length (a_ctx a))%nat as Hh by (apply nth_error_Some; congruence).
  eexists. split; [unfold end_state; cbn [a_ctx]; apply list_set_same; exact Hh|].
  unfold sent_profile. cbn [x_Profile set_Profile]. apply (closed_profile (env_of n (closed_ctx x)) acc (x_Profile x) p).
  - apply good_env_of. exact G.
  - change (x_num NTxid x = num_of acc NTxid). apply (mt_num _ _ Mx).
  - apply (mt_prof _ _ Mx O).
  - exact Pl.
  - exact On.
  - exact Cl.
Qed.

Lemma once_snoc_add st ops : forall k open, ended_once k open ops -> ended_once k open (ops ++ [OAdd st]).
Proof.
  induction ops as [|o ops IH]; intros k open H; cbn [app]; [exact I|]. destruct o; cbn [ended_once] in *; [apply IH; exact H| |apply IH; exact H].
  destruct H as (A & B). split; [exact A|apply IH; exact B].
Qed.
Lemma marked_did n c : did (marked_stuck n c) =
  did c ++ [OAdd (SPMessage (at_ms (ms n c)) (text_id (of_string "Service currently may running, not finished!")) 0 error_level [])].
Proof. unfold marked_stuck. rewrite did_error. reflexivity. Qed.
Lemma error_unless_num e c f : f <> NError -> num_of (error_unless_set e c) f = num_of c f.
Proof. intros H. unfold error_unless_set. destruct (_ =? 0); [|reflexivity]. cbn. destruct f; try reflexivity. congruence. Qed.
Lemma marked_num n c f : f <> NError -> num_of (marked_stuck n c) f = num_of c f.
Proof. intros H. unfold marked_stuck. rewrite error_unless_num by exact H. reflexivity. Qed.
Lemma marked_over n c : over (marked_stuck n c) = over c.
Proof. unfold marked_stuck, error_unless_set. destruct (_ =? 0); reflexivity. Qed.
Lemma marked_error n c : num_of (marked_stuck n c) NError <> 0.
Proof.
  unfold marked_stuck, error_unless_set. destruct (num_of _ NError =? 0) eqn:E; [|lia]. cbn. vm_compute. discriminate.
Qed.

Lemma stuck_profile n h a l c : good n -> cf_stuck_remove (n_conf n) = true -> books a l -> nth_error l h = Some c -> over c = false ->
  tidy (did c) -> ended_once 0 [] (did c) ->
  exists b y, end_stuck n h a = (b, Some tt) /\ nth_error (a_ctx b) h = Some y /\ sent_profile (marked_stuck n c) y.
Proof.
  intros G Hr R E O Pl On. unfold end_stuck. rewrite Hr.
  assert (does h c (marked_stuck n c) (st <- millis n h ;;
       hs <- send_text n KHashMsg (of_string "Service currently may running, not finished!") ;;
       profile_add n h (SPMessage (mk_single 0 0 st) hs 0 PMSG_ERROR []) ;;
       err <- read h x_Error ;;
       (if err =? 0 then (e <- send_text n KError (of_string "This stuck service currently may running, not finished!") ;;
                          modify h (set_Error e))
        else ret tt)) tt) as D.
  { unfold marked_stuck. eapply does_bind; [apply does_millis|]. eapply does_bind; [apply does_send|]. eapply does_bind; [apply does_add; exact G|].
    apply does_error_unless. }
  destruct (does_run _ _ _ _ _ _ _ D R E) as (b & Eb & Rb & Lb). pose proof (nth_set_lt _ _ _ (marked_stuck n c) E) as Em.
  destruct (closing_profile n h b _ (marked_stuck n c) G Rb Em) as (y & Ey & Sy).
  { rewrite marked_over. exact O. } { apply marked_error. } { apply tidy_marked. exact Pl. } { rewrite marked_did. apply once_snoc_add. exact On. }
  destruct (end_goes n h b _ _ G Rb Em) as (b2 & evs & E2 & _). rewrite E2 in Ey. cbn [fst] in Ey.
  exists b2, y. split; [|auto]. apply recovered_eq. revert Eb E2. clear.
  generalize (of_string "This stuck service currently may running, not finished!"). intros s1.
  generalize (of_string "Service currently may running, not finished!"). intros s2. intros Eb E2.
  revert Eb. unfold bind at 1. intros Eb. unfold bind at 1. destruct (millis n h a) as [a1 [st|]]; [|discriminate].
  revert Eb. unfold bind at 1. intros Eb. unfold bind at 1. destruct (send_text n KHashMsg s2 a1) as [a2 [hs|]]; [|discriminate].
  revert Eb. unfold bind at 1. intros Eb. unfold bind at 1. destruct (profile_add _ _ _ a2) as [a3 [u|]]; [|discriminate].
  revert Eb. unfold bind at 1. intros Eb. unfold bind at 1. destruct (read h x_Error a3) as [a4 [er|]]; [|discriminate].
  unfold bind at 1. rewrite Eb. exact E2.
Qed.

(** the loop of GetActiveCount *)
Lemma loop_profile n vs : good n -> cf_stuck_remove (n_conf n) = true -> forall count c0 c1 c2 a l, count + zlen vs <= 2000 -> NoDup vs -> books a l ->
  (forall h, In h vs -> exists x, nth_error (a_ctx a) h = Some x /\ x_Closed x = false /\ room (x_Profile x)) ->
  forall h c, In h vs -> nth_error l h = Some c -> is_stuck n c -> over c = false -> tidy (did c) -> ended_once 0 [] (did c) ->
  exists y, nth_error (a_ctx (fst (active_loop n count vs c0 c1 c2 a))) h = Some y /\ sent_profile (marked_stuck n c) y.
Proof.
  intros G Hr. induction vs as [|g vs IH]; intros count c0 c1 c2 a l Hc Nd R Hv h c Hin El Sc O Td On; [destruct Hin|].
  rewrite zlen_cons in Hc. assert (0 <= zlen vs) as Hz by (unfold zlen; lia). inversion_clear Nd as [|? ? Hn Nd'].
  destruct (Hv g (or_introl eq_refl)) as (x & E & C & Rm). cbn [active_loop]. destruct (Z.ltb_spec 2000 (count + 1)); [lia|].
  rewrite (bind_some _ _ _ _ _ (read_eq _ _ _ _ E)). fold (running_ms n x).
  destruct (if running_ms n x <=? cf_yellow (n_conf n) then (c0 + 1, c1, c2) else if running_ms n x <=? cf_red (n_conf n) then (c0, c1 + 1, c2) else (c0, c1, c2 + 1)) as [[d0 d1] d2].
  assert (exists a' l', (forall f : unit -> M (Z * Z * Z), bind (if cf_stuck_ms (n_conf n) <? running_ms n x then
       (end_stuck n g ;; emit (EvAlert (if cf_stuck_alert (n_conf n) then 2 else 1) (of_string "STUCK_SERVICE"))) else ret tt) f a = f tt a') /\
     books a' l' /\ (forall k, k <> g -> nth_error (a_ctx a') k = nth_error (a_ctx a) k) /\ (forall k, k <> g -> nth_error l' k = nth_error l k) /\
     (g = h -> exists y, nth_error (a_ctx a') h = Some y /\ sent_profile (marked_stuck n c) y)) as (a' & l' & Hb & Rb & Ho & Hl & Hs).
  { destruct (Z.ltb_spec (cf_stuck_ms (n_conf n)) (running_ms n x)) as [Hst|Hst].
    - destruct (nth_lt l g) as (cg & Eg). { rewrite <- (f2_len _ _ _ R). apply nth_error_Some. congruence. }
      destruct (end_stuck_spec n g a x G Hr E C Rm) as (b & y0 & p & el & Eb & Cb & _).
      destruct (stuck_goes n g a l cg G Hr R Eg) as (b' & evs & Eb' & Rb' & _). assert (b' = b) as -> by congruence.
      eexists. eexists. split; [intros f; rewrite bind_assoc, (bind_some _ _ _ _ _ Eb); unfold emit, bind; reflexivity|]. cbn [add_log a_ctx].
      split; [exact Rb'|]. split; [intros k Hk; rewrite Cb; apply list_set_other; congruence|].
      split; [intros k Hk; apply list_set_other; congruence|]. intros ->. destruct (stuck_profile n h a l c G Hr R El O Td On) as (b2 & y & E2 & Ey & Sy).
      assert (b2 = b) as -> by congruence. exists y. auto.
    - exists a, l. split; [intros f; apply bind_ret|]. split; [exact R|]. split; [reflexivity|]. split; [reflexivity|]. intros ->.
      destruct (f2_nth _ _ _ R h c El) as (x' & Ex' & Mx). assert (x' = x) as -> by congruence. destruct Sc as (_ & Sc). exfalso.
      rewrite <- (mt_num _ _ Mx NStart) in Sc. change (Z.quot (span (x_num NStart x) (n_now n)) 1000000) with (running_ms n x) in Sc. lia. }
  rewrite Hb.
  assert (forall k, In k vs -> exists z, nth_error (a_ctx a') k = Some z /\ x_Closed z = false /\ room (x_Profile z)) as Hv'.
  { intros k Hk. rewrite (Ho k) by (intros ->; contradiction). apply Hv. right. exact Hk. }
  destruct (Nat.eq_dec g h) as [Eq|Ne].
  - destruct (Hs Eq) as (y & Ey & Sy). exists y. split; [|exact Sy]. subst g.
    destruct (loop_spec n vs G (count + 1) d0 d1 d2 a' ltac:(lia) Nd' Hv') as (b & Eb & K1 & _). rewrite Eb. cbn [fst].
    apply (K1 h y Ey). intros (Hi & _). contradiction.
  - destruct Hin as [Hin|Hin]; [congruence|]. apply (IH (count + 1) d0 d1 d2 a' l' ltac:(lia) Nd' Rb Hv' h c Hin); try assumption. rewrite (Hl h) by congruence. exact El.
Qed.
