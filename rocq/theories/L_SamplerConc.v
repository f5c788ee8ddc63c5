From Verif Require Import GoInt M_Util M_StrMatch L_StrMatch M_Sampler S_Sampler M_SamplerConc S_SamplerConc.

(** * Without writes the program is the function *)
Fixpoint answer (st : store) (p : prog) : Z :=
  match p with
  | Decided m => m
  | RdB f k => answer st (k (get_b f (st_conf st)))
  | RdZ f k => answer st (k (get_z f (st_conf st)))
  | RdS f k => answer st (k (get_s f (st_conf st)))
  | RdM f k => answer st (k (get_m f (st_sampler st)))
  end.
Lemma decides_quiet st p m : decides st [] p m -> m = answer st p.
Proof.
  intros D. remember [] as ws eqn:E. induction D; cbn [answer]; auto. discriminate E.
Qed.
Lemma decides_answer st ws p : decides st ws p (answer st p).
Proof. induction p; cbn [answer]; constructor; auto. Qed.

Lemma answer_pattern st f name k : answer st (pattern_p f name k) = answer st (k (is_pattern (get_s f (st_conf st)) (get_m f (st_sampler st)) name)).
Proof. unfold pattern_p, is_pattern. cbn [answer]. destruct (get_s f (st_conf st)); reflexivity. Qed.
Lemma answer_sampling st g d e mode k : answer st (sampling_p g d e mode k) = answer st (k (sampling4elapsed (group_of g (st_conf st)) d e mode)).
Proof.
  unfold sampling_p, sampling4elapsed, rate_p. cbn [answer get_z get_b].
  destruct (e <? r_Step1Ms _); cbn [answer get_z get_b]; [destruct (d >=? _); reflexivity|].
  destruct (e <? r_Step2Ms _); cbn [answer get_z get_b]; [destruct (d >=? _); reflexivity|].
  destruct (e <? r_Step3Ms _); cbn [answer get_z get_b]; destruct (d >=? _); reflexivity.
Qed.
Lemma answer_patterned st g f d e name dis mode k :
  answer st (patterned_p g f d e name dis mode k) =
  (let hit := negb dis && r_Enabled (group_of g (st_conf st)) && is_pattern (get_s f (st_conf st)) (get_m f (st_sampler st)) name in
   answer st (k (dis || hit) (if hit then sampling4elapsed (group_of g (st_conf st)) d e mode else mode))).
Proof.
  unfold patterned_p. destruct dis; cbn [negb andb orb]; [reflexivity|]. cbn [answer get_b].
  destruct (r_Enabled _); cbn [andb]; [|reflexivity]. rewrite answer_pattern.
  destruct (is_pattern _ _ _); cbn [andb]; [rewrite answer_sampling|]; reflexivity.
Qed.
Lemma answer_evaluate st d e name k :
  answer st (evaluate_p d e name k) = answer st (k (evaluate (st_conf st) (st_sampler st) d e name)).
Proof.
  unfold evaluate_p. cbn [answer get_b group_of].
  match goal with |- answer st (if _ then _ else ?r) = _ => set (rest := r) end.
  assert (R : r_Enabled (sc_Sampling (st_conf st)) && is_pattern (sc_ExcludePatterns (st_conf st)) (sp_exclude (st_sampler st)) name = false ->
              answer st rest = answer st (k (evaluate (st_conf st) (st_sampler st) d e name))).
  { intros X. unfold rest, evaluate. rewrite X. do 3 (rewrite answer_patterned; cbv beta zeta).
    cbn [get_s get_m group_of negb andb orb].
    set (h1 := r_Enabled (sc_Patterned (st_conf st)) && _). clearbody h1. destruct h1; cbn [negb andb orb]; [reflexivity|].
    set (h2 := r_Enabled (sc_Patterned2 (st_conf st)) && _). clearbody h2. destruct h2; cbn [negb andb orb]; [reflexivity|].
    set (h3 := r_Enabled (sc_Patterned3 (st_conf st)) && _). clearbody h3. destruct h3; cbn [negb andb orb]; [reflexivity|].
    cbn [answer get_b group_of]. destruct (r_Enabled (sc_Sampling (st_conf st))); [rewrite answer_sampling|]; reflexivity. }
  destruct (r_Enabled (sc_Sampling (st_conf st))) eqn:E; [|apply R; reflexivity].
  rewrite answer_pattern. cbn [get_s get_m]. destruct (is_pattern _ _ name) eqn:X; [|apply R; reflexivity].
  unfold evaluate. rewrite E, X. reflexivity.
Qed.
Lemma answer_decide st d er e name : answer st (decide_p d er e name) = find_xlog_discard (st_conf st) (st_sampler st) d er e name.
Proof.
  unfold decide_p, find_xlog_discard. destruct (er =? 0); cbn [negb]; [rewrite answer_evaluate|]; rewrite answer_pattern; cbn [get_s get_m answer];
  destruct (is_pattern _ _ name); reflexivity.
Qed.

(** * A whole reload *)
Definition writes (ws : list waction) (st : store) : store := fold_left (fun st w => write w st) ws st.
Lemma reload_all n st : writes (reload n) st = mk_store n (sampler_run n (st_sampler st)).
Proof.
  destruct n as [d e x [a1 a2 a3 a4 a5 a6 a7 a8 a9] [b1 b2 b3 b4 b5 b6 b7 b8 b9] p1 [c1 c2 c3 c4 c5 c6 c7 c8 c9] p2 [d1 d2 d3 d4 d5 d6 d7 d8 d9] p3].
  destruct st as [c s]. destruct s as [s1 s2 s3 s4 s5 m1 m2 m3 m4 m5].
  cbv [writes fold_left reload patterned_writes step_writes app map write set_b set_z set_s set_group group_of get_b get_z get_s st_conf st_sampler
    r_Enabled r_OnlyProfile r_Step1Ms r_Step1RatePct r_Step2Ms r_Step2RatePct r_Step3Ms r_Step3RatePct r_OverRatePct
    sc_DiscardServicePatterns sc_DiscardServiceShowError sc_ExcludePatterns sc_Sampling sc_Patterned sc_PatternedServicePatterns
    sc_Patterned2 sc_Patterned2ServicePatterns sc_Patterned3 sc_Patterned3ServicePatterns
    run_one sampler_run refresh sp_curExclude sp_curDiscard sp_cur1 sp_cur2 sp_cur3 sp_exclude sp_discard sp_1 sp_2 sp_3].
  destruct (beqb s1 x), (beqb s2 d), (beqb s3 p1), (beqb s4 p2), (beqb s5 p3); reflexivity.
Qed.

(** * Interleaved *)
Definition okw (l : list sconf) (w : waction) : Prop :=
  match w with
  | WB f b => exists n, In n l /\ b = get_b f n
  | WZ f z => exists n, In n l /\ z = get_z f n
  | WS f v => exists n, In n l /\ v = get_s f n
  | WMatcher _ => True
  end.
(** every variable has a value one of the configurations gives it, and the matchers are built from patterns *)
Definition inv (l : list sconf) (st : store) : Prop :=
  (forall f, exists n, In n l /\ get_b f (st_conf st) = get_b f n) /\
  (forall f, exists n, In n l /\ get_z f (st_conf st) = get_z f n) /\
  (forall f, exists n, In n l /\ get_s f (st_conf st) = get_s f n) /\
  (forall f, exists p, get_m f (st_sampler st) = comma_matcher p).

Lemma get_b_set_b f b c f' : get_b f' (set_b f b c) = b /\ f = f' \/ get_b f' (set_b f b c) = get_b f' c.
Proof. destruct f as [[]|[]|], f' as [[]|[]|]; cbn; auto. Qed.
Lemma get_b_set_z f z c f' : get_b f' (set_z f z c) = get_b f' c.
Proof. destruct f as [[] []|[] []|[]], f' as [[]|[]|]; reflexivity. Qed.
Lemma get_b_set_s f v c f' : get_b f' (set_s f v c) = get_b f' c.
Proof. destruct f, f' as [[]|[]|]; reflexivity. Qed.
Lemma get_z_set_b f b c f' : get_z f' (set_b f b c) = get_z f' c.
Proof. destruct f as [[]|[]|], f' as [[] []|[] []|[]]; reflexivity. Qed.
Lemma get_z_set_z f z c f' : get_z f' (set_z f z c) = z /\ f = f' \/ get_z f' (set_z f z c) = get_z f' c.
Proof. destruct f as [[] []|[] []|[]], f' as [[] []|[] []|[]]; cbn; auto. Qed.
Lemma get_z_set_s f v c f' : get_z f' (set_s f v c) = get_z f' c.
Proof. destruct f, f' as [[] []|[] []|[]]; reflexivity. Qed.
Lemma get_s_set_b f b c f' : get_s f' (set_b f b c) = get_s f' c.
Proof. destruct f as [[]|[]|], f'; reflexivity. Qed.
Lemma get_s_set_z f z c f' : get_s f' (set_z f z c) = get_s f' c.
Proof. destruct f as [[] []|[] []|[]], f'; reflexivity. Qed.
Lemma get_s_set_s f v c f' : get_s f' (set_s f v c) = v /\ f = f' \/ get_s f' (set_s f v c) = get_s f' c.
Proof. destruct f, f'; cbn; auto. Qed.
Lemma run_one_matchers f c s : (forall f', exists p, get_m f' s = comma_matcher p) -> forall f', exists p, get_m f' (run_one f c s) = comma_matcher p.
Proof.
  intros M f'. pose proof (M f') as (p & E). destruct f, f'; unfold run_one, refresh; cbn in *;
  match goal with |- context [beqb ?a ?b] => destruct (beqb a b) end; cbn; eauto.
Qed.
Lemma inv_write l w st : inv l st -> okw l w -> inv l (write w st).
Proof.
  intros (B & Zs & S & M) O. destruct w as [f b|f z|f v|f]; cbn [write okw] in *; (split; [|split; [|split]]);
  cbn [st_conf st_sampler]; auto; intros f'.
  - destruct (get_b_set_b f b (st_conf st) f') as [[E <-]|E]; rewrite E; auto.
  - rewrite get_z_set_b. auto.
  - rewrite get_s_set_b. auto.
  - rewrite get_b_set_z. auto.
  - destruct (get_z_set_z f z (st_conf st) f') as [[E <-]|E]; rewrite E; auto.
  - rewrite get_s_set_z. auto.
  - rewrite get_b_set_s. auto.
  - rewrite get_z_set_s. auto.
  - destruct (get_s_set_s f v (st_conf st) f') as [[E <-]|E]; rewrite E; auto.
  - apply run_one_matchers; auto.
Qed.
Lemma ok_reload l n : In n l -> Forall (okw l) (reload n).
Proof. intros I. unfold reload, patterned_writes, step_writes. cbn [app map]. repeat constructor; cbn [okw]; eauto. Qed.
Lemma ok_reloads l ns : incl ns l -> Forall (okw l) (concat (map reload ns)).
Proof.
  induction ns as [|n ns IH]; intros I; cbn [map concat]; [constructor|]. apply Forall_app. split.
  - apply ok_reload. apply I. left. reflexivity.
  - apply IH. intros x X. apply I. right. exact X.
Qed.
Lemma inv_start l c : In c l -> inv l (mk_store c (new_sampler c)).
Proof.
  intros I. split; [|split; [|split]]; intros f; cbn [st_conf st_sampler]; eauto. destruct f; cbn; eauto.
Qed.

(** what a program can read *)
Definition sees (l : list sconf) (ws : list waction) (st : store) : Prop := inv l st /\ Forall (okw l) ws.
Lemma sees_write l w ws st : sees l (w :: ws) st -> sees l ws (write w st).
Proof. intros [I F]. apply Forall_cons_iff in F. destruct F as [O F]. split; [apply inv_write; auto|exact F]. Qed.
Lemma read_b l st ws f k m : sees l ws st -> decides st ws (RdB f k) m ->
  exists n st' ws', In n l /\ sees l ws' st' /\ decides st' ws' (k (get_b f n)) m.
Proof.
  intros S D. remember (RdB f k) as p eqn:E. induction D as [| st w ws p m D IH |st ws f' k' m D IH| | |]; try discriminate E.
  - apply IH; auto. apply sees_write. exact S.
  - injection E as -> ->. destruct S as [I F]. destruct I as (B & I'). destruct (B f) as (n & In & Eq). exists n, st, ws.
    rewrite <- Eq. split; [exact In|]. split; [|exact D]. split; [split; [exact B|exact I']|exact F].
Qed.
Lemma read_z l st ws f k m : sees l ws st -> decides st ws (RdZ f k) m ->
  exists n st' ws', In n l /\ sees l ws' st' /\ decides st' ws' (k (get_z f n)) m.
Proof.
  intros S D. remember (RdZ f k) as p eqn:E. induction D as [| st w ws p m D IH | |st ws f' k' m D IH| |]; try discriminate E.
  - apply IH; auto. apply sees_write. exact S.
  - injection E as -> ->. pose proof S as [(B & Zs & I') F]. destruct (Zs f) as (n & In & Eq). exists n, st, ws.
    rewrite <- Eq. auto.
Qed.
Lemma read_pattern l st ws f name k m : sees l ws st -> decides st ws (pattern_p f name k) m ->
  exists st' ws', sees l ws' st' /\ decides st' ws' (k false) m.
Proof.
  unfold pattern_p. intros S D. match type of D with decides _ _ (RdS f ?kk) _ => set (K := kk) in D end.
  remember (RdS f K) as p eqn:E.
  induction D as [| st w ws p m D IH | | |st ws f' k' m D IH|]; try discriminate E.
  - apply IH; auto. apply sees_write. exact S.
  - injection E as -> ->. clear IH. unfold K in D. destruct (get_s f (st_conf st)) as [|b v].
    + exists st, ws. auto.
    + clear K. match type of D with decides _ _ (RdM f ?kk) _ => set (K := kk) in D end. remember (RdM f K) as p eqn:E.
      induction D as [| st w ws p m D IH | | | |st ws f' k' m D IH]; try discriminate E.
      * apply IH; auto. apply sees_write. exact S.
      * injection E as -> ->. unfold K in D. pose proof S as [(B & Zs & St & M) F]. destruct (M f) as (q & Q). rewrite Q, comma_never in D.
        exists st, ws. auto.
Qed.
Lemma read_patterned l st ws g f d e name mode k m : sees l ws st ->
  decides st ws (patterned_p g f d e name false mode k) m -> exists st' ws', sees l ws' st' /\ decides st' ws' (k false mode) m.
Proof.
  unfold patterned_p. intros S D. destruct (read_b _ _ _ _ _ _ S D) as (n & st' & ws' & I & S' & D').
  destruct (get_b (Enabled g) n); [|eauto]. exact (read_pattern _ _ _ _ _ _ _ S' D').
Qed.
Lemma read_finish l st ws d er m mode : sees l ws st ->
  decides st ws (pattern_p Discard d (fun b => Decided (if b then er else mode))) m -> m = mode.
Proof.
  intros S D. destruct (read_pattern _ _ _ _ _ _ _ S D) as (st' & ws' & S' & D'). cbn in D'. clear - D'.
  remember (Decided mode) as p eqn:E. induction D'; try discriminate E; auto. injection E as ->. reflexivity.
Qed.
Definition frm (l : list sconf) {B} (f : rates -> B) (v : B) : Prop := exists n, In n l /\ v = f (sc_Sampling n).
Lemma read_rate l st ws f (h : rates -> Z) d mode k m : (forall n, get_z f n = h (sc_Sampling n)) -> sees l ws st ->
  decides st ws (rate_p G0 f d mode k) m ->
  exists p o st' ws', frm l h p /\ frm l r_OnlyProfile o /\ sees l ws' st' /\
    decides st' ws' (k (if d >=? p then refer_to_profile_mode o else mode)) m.
Proof.
  unfold rate_p. intros H S D. destruct (read_z _ _ _ _ _ _ S D) as (n & st' & ws' & I & S' & D'). rewrite H in D'.
  destruct (d >=? h (sc_Sampling n)) eqn:E.
  - destruct (read_b _ _ _ _ _ _ S' D') as (n2 & st2 & ws2 & I2 & S2 & D2). cbn [get_b group_of] in D2.
    exists (h (sc_Sampling n)), (r_OnlyProfile (sc_Sampling n2)), st2, ws2. rewrite E. unfold frm. repeat split; eauto; apply S2.
  - exists (h (sc_Sampling n)), (r_OnlyProfile (sc_Sampling n)), st', ws'. rewrite E. unfold frm. repeat split; eauto; apply S'.
Qed.
Lemma frm_of l {B} (f : rates -> B) c : In c l -> frm l f (f (sc_Sampling c)).
Proof. unfold frm. eauto. Qed.
(** all nine settings, as read *)
Definition rates_frm (l : list sconf) (r : rates) : Prop :=
  frm l r_Enabled (r_Enabled r) /\ frm l r_OnlyProfile (r_OnlyProfile r) /\ frm l r_Step1Ms (r_Step1Ms r) /\ frm l r_Step1RatePct (r_Step1RatePct r) /\
  frm l r_Step2Ms (r_Step2Ms r) /\ frm l r_Step2RatePct (r_Step2RatePct r) /\ frm l r_Step3Ms (r_Step3Ms r) /\ frm l r_Step3RatePct (r_Step3RatePct r) /\
  frm l r_OverRatePct (r_OverRatePct r).
Lemma read_sampling l c0 en st ws d e mode k m : In c0 l -> frm l r_Enabled en -> sees l ws st ->
  decides st ws (sampling_p G0 d e mode k) m ->
  exists r st' ws', rates_frm l r /\ r_Enabled r = en /\ sees l ws' st' /\ decides st' ws' (k (sampling4elapsed r d e mode)) m.
Proof.
  intros C0 En S D. unfold sampling_p in D. pose proof (fun B (f : rates -> B) => frm_of l f c0 C0) as F0. set (r0 := sc_Sampling c0) in *.
  destruct (read_z _ _ _ _ _ _ S D) as (n1 & st1 & ws1 & I1 & S1 & D1). cbn [get_z group_of] in D1.
  pose proof (frm_of l r_Step1Ms n1 I1) as F1. set (a1 := r_Step1Ms (sc_Sampling n1)) in *.
  destruct (e <? a1) eqn:E1.
  - destruct (read_rate _ _ _ (Rate G0 N1) r_Step1RatePct _ _ _ _ (fun n => eq_refl) S1 D1) as (p & o & st' & ws' & Fp & Fo & S' & D').
    exists (mkRates en o a1 p (r_Step2Ms r0) (r_Step2RatePct r0) (r_Step3Ms r0) (r_Step3RatePct r0) (r_OverRatePct r0)), st', ws'.
    split; [repeat split; cbn; auto|]. split; [reflexivity|]. split; [exact S'|]. unfold sampling4elapsed. cbn. rewrite E1. exact D'.
  - destruct (read_z _ _ _ _ _ _ S1 D1) as (n2 & st2 & ws2 & I2 & S2 & D2). cbn [get_z group_of] in D2.
    pose proof (frm_of l r_Step2Ms n2 I2) as F2. set (a2 := r_Step2Ms (sc_Sampling n2)) in *.
    destruct (e <? a2) eqn:E2.
    + destruct (read_rate _ _ _ (Rate G0 N2) r_Step2RatePct _ _ _ _ (fun n => eq_refl) S2 D2) as (p & o & st' & ws' & Fp & Fo & S' & D').
      exists (mkRates en o a1 (r_Step1RatePct r0) a2 p (r_Step3Ms r0) (r_Step3RatePct r0) (r_OverRatePct r0)), st', ws'.
      split; [repeat split; cbn; auto|]. split; [reflexivity|]. split; [exact S'|]. unfold sampling4elapsed. cbn. rewrite E1, E2. exact D'.
    + destruct (read_z _ _ _ _ _ _ S2 D2) as (n3 & st3 & ws3 & I3 & S3 & D3). cbn [get_z group_of] in D3.
      pose proof (frm_of l r_Step3Ms n3 I3) as F3. set (a3 := r_Step3Ms (sc_Sampling n3)) in *.
      destruct (e <? a3) eqn:E3.
      * destruct (read_rate _ _ _ (Rate G0 N3) r_Step3RatePct _ _ _ _ (fun n => eq_refl) S3 D3) as (p & o & st' & ws' & Fp & Fo & S' & D').
        exists (mkRates en o a1 (r_Step1RatePct r0) a2 (r_Step2RatePct r0) a3 p (r_OverRatePct r0)), st', ws'.
        split; [repeat split; cbn; auto|]. split; [reflexivity|]. split; [exact S'|]. unfold sampling4elapsed. cbn. rewrite E1, E2, E3. exact D'.
      * destruct (read_rate _ _ _ (OverRate G0) r_OverRatePct _ _ _ _ (fun n => eq_refl) S3 D3) as (p & o & st' & ws' & Fp & Fo & S' & D').
        exists (mkRates en o a1 (r_Step1RatePct r0) a2 (r_Step2RatePct r0) a3 (r_Step3RatePct r0) p), st', ws'.
        split; [repeat split; cbn; auto|]. split; [reflexivity|]. split; [exact S'|]. unfold sampling4elapsed. cbn. rewrite E1, E2, E3. exact D'.
Qed.

(** the decision is that of a mixture *)
Lemma decide_mixed l c0 st ws d er e name m : In c0 l -> sees l ws st -> decides st ws (decide_p d er e name) m ->
  exists r, rates_frm l r /\
    m = (if negb (er =? 0) then DISCARD_NONE else if r_Enabled r then sampling4elapsed r d e DISCARD_NONE else DISCARD_NONE).
Proof.
  intros C0 S D. assert (R0 : rates_frm l (sc_Sampling c0)) by (repeat split; apply frm_of; auto).
  unfold decide_p in D. destruct (negb (er =? 0)).
  { exists (sc_Sampling c0). split; [exact R0|]. exact (read_finish _ _ _ _ _ _ _ S D). }
  unfold evaluate_p in D. cbv zeta in D.
  match type of D with decides _ _ (RdB _ (fun e => if e then _ else ?r)) _ => set (rest := r) in D end.
  assert (R : exists st' ws', sees l ws' st' /\ decides st' ws' rest m).
  { destruct (read_b _ _ _ _ _ _ S D) as (n & st' & ws' & I & S' & D'). destruct (get_b (Enabled G0) n); [|eauto].
    destruct (read_pattern _ _ _ _ _ _ _ S' D') as (st2 & ws2 & S2 & D2). eauto. }
  clear D S. destruct R as (st1 & ws1 & S & D). unfold rest in D. clear rest.
  destruct (read_patterned _ _ _ _ _ _ _ _ _ _ _ S D) as (st2 & ws2 & S2 & D2).
  destruct (read_patterned _ _ _ _ _ _ _ _ _ _ _ S2 D2) as (st3 & ws3 & S3 & D3).
  destruct (read_patterned _ _ _ _ _ _ _ _ _ _ _ S3 D3) as (st4 & ws4 & S4 & D4).
  destruct (read_b _ _ _ _ _ _ S4 D4) as (n & st5 & ws5 & I & S5 & D5). cbn [get_b group_of] in D5.
  destruct (r_Enabled (sc_Sampling n)) eqn:En.
  - assert (Fe : frm l r_Enabled true) by (exists n; auto).
    destruct (read_sampling _ c0 true _ _ _ _ _ _ _ C0 Fe S5 D5) as (r & st6 & ws6 & Fr & Er & S6 & D6).
    exists r. split; [exact Fr|]. rewrite Er. exact (read_finish _ _ _ _ _ _ _ S6 D6).
  - set (r0 := sc_Sampling c0) in *.
    exists (mkRates false (r_OnlyProfile r0) (r_Step1Ms r0) (r_Step1RatePct r0) (r_Step2Ms r0) (r_Step2RatePct r0) (r_Step3Ms r0) (r_Step3RatePct r0) (r_OverRatePct r0)).
    split. { destruct R0 as (? & ? & ? & ? & ? & ? & ? & ? & ?). repeat split; cbn; auto. exists n. auto. }
    cbn [r_Enabled]. exact (read_finish _ _ _ _ _ _ _ S5 D5).
Qed.
Lemma rates_frm_mixed l r : rates_frm l r -> rates_mixed (map sc_Sampling l) r.
Proof.
  intros (A1 & A2 & A3 & A4 & A5 & A6 & A7 & A8 & A9). repeat split;
  match goal with |- from _ ?f r => 
    match goal with H : frm l f _ |- _ => destruct H as (n & I & E); exists (sc_Sampling n); split; [apply in_map; exact I|exact E] end end.
Qed.
Lemma mixed_replace l c r : In c l -> rates_mixed (map sc_Sampling l) r -> mixed l (set_group G0 r c).
Proof.
  intros I R. assert (F : forall B (f : sconf -> B) c', f c' = f c -> from l f c') by (intros B f c' E; exists c; auto).
  assert (G : forall (g : sconf -> rates), rates_mixed (map g l) (g c))
    by (intros g; repeat split; exists (g c); (split; [apply in_map; exact I|reflexivity])).
  unfold mixed. cbn [set_group sc_DiscardServicePatterns sc_DiscardServiceShowError sc_ExcludePatterns sc_Sampling sc_Patterned
    sc_PatternedServicePatterns sc_Patterned2 sc_Patterned2ServicePatterns sc_Patterned3 sc_Patterned3ServicePatterns].
  repeat (split; [first [apply F; reflexivity | exact R | apply (G sc_Patterned) | apply (G sc_Patterned2) | apply (G sc_Patterned3)]|]).
  apply F. reflexivity.
Qed.
