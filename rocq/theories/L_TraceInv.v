(** Invariants over histories of API calls. *)
From Verif Require Import GoInt M_Util M_Hash M_StrMatch M_Packs M_Steps M_Cache L_Cache M_Text M_Sampler M_Profile L_Profile S_Profile M_Trace L_Trace L_TraceRel S_Trace.
From Coq Require Import ZifyBool Permutation.

Lemma nth_ext_map {A B} (f : A -> B) l l' : length l' = length l ->
  (forall h x, nth_error l h = Some x -> exists x', nth_error l' h = Some x' /\ f x' = f x) -> map f l' = map f l.
Proof.
  revert l'. induction l as [|x l IH]; intros l' L H; destruct l' as [|x' l']; try discriminate; [reflexivity|].
  cbn [map]. destruct (H O x eq_refl) as (y & Ey & E). injection Ey as <-. rewrite E. f_equal.
  apply IH; [injection L as L; exact L|]. intros h z Ez. exact (H (S h) z Ez).
Qed.

(** * Each service is ended once *)

Record once (a : agent) : Prop := mkOnce {
  on_ctx : forall h x, nth_error (a_ctx a) h = Some x -> samples h (a_log a) = (if x_Closed x then 1 else 0)%nat;
  on_new : forall h, (length (a_ctx a) <= h)%nat -> samples h (a_log a) = 0%nat;
  on_xlog : forall h, (xlogs h (a_log a) <= samples h (a_log a))%nat;
  on_links : forall h p, In (EvXlog h p) (a_log a) -> exists x, nth_error (a_ctx a) h = Some x /\ x_Closed x = true /\ xl_Txid p = x_Txid x }.

Lemma samples_app h l k : samples h (l ++ k) = (samples h l + samples h k)%nat.
Proof. unfold samples. rewrite filter_app, app_length. reflexivity. Qed.
Lemma xlogs_app h l k : xlogs h (l ++ k) = (xlogs h l + xlogs h k)%nat.
Proof. unfold xlogs. rewrite filter_app, app_length. reflexivity. Qed.
Lemma alerts_quiet h l : Forall is_alert l -> samples h l = 0%nat /\ xlogs h l = 0%nat.
Proof.
  induction 1 as [|e l He _ IH]; [split; reflexivity|]. destruct e; try contradiction. exact IH.
Qed.
Lemma alerts_no_xlog h p l : Forall is_alert l -> ~ In (EvXlog h p) l.
Proof. intros F H. rewrite Forall_forall in F. exact (F _ H). Qed.

Lemma once_minor N a b : minor N a b -> once a -> once b.
Proof.
  intros [_ (l & El & F) L C] [O1 O2 O3 O4]. rewrite El || idtac.
  assert (forall h, samples h (a_log b) = samples h (a_log a) /\ xlogs h (a_log b) = xlogs h (a_log a)) as Q.
  { intros h. destruct (alerts_quiet h l F) as (Q1 & Q2). rewrite El, samples_app, xlogs_app, Q1, Q2. lia. }
  constructor.
  - intros h x' E. destruct (Q h) as (-> & _).
    assert (exists x, nth_error (a_ctx a) h = Some x) as (x & Ex).
    { destruct (nth_error (a_ctx a) h) eqn:En; [eexists; reflexivity|]. apply nth_error_None in En.
      assert (h < length (a_ctx b))%nat by (apply nth_error_Some; congruence). lia. }
    destruct (C h x Ex) as (y & Ey & (S1 & _)). rewrite E in Ey. injection Ey as <-. rewrite S1. exact (O1 h x Ex).
  - intros h H. destruct (Q h) as (-> & _). apply O2. lia.
  - intros h. destruct (Q h) as (-> & ->). apply O3.
  - intros h p H. rewrite El in H. apply in_app_or in H. destruct H as [H|H]; [|destruct (alerts_no_xlog h p l F H)].
    destruct (O4 h p H) as (x & Ex & Hc & Ht). destruct (C h x Ex) as (y & Ey & (S1 & S2 & _)). exists y. split; [exact Ey|]. split; congruence.
Qed.

Lemma once_news a b : news a b -> once a -> once b.
Proof.
  intros [(x & Ex & C & _) El] [O1 O2 O3 O4]. constructor; rewrite ?El.
  - intros h y Ey. rewrite Ex in Ey. destruct (Nat.lt_ge_cases h (length (a_ctx a))) as [H|H].
    + rewrite nth_error_app1 in Ey by exact H. exact (O1 h y Ey).
    + rewrite nth_error_app2 in Ey by exact H. destruct (h - length (a_ctx a))%nat as [|d]; [|destruct d; discriminate].
      injection Ey as <-. rewrite C. apply O2. exact H.
  - intros h H. rewrite Ex, app_length in H. apply O2. cbn in H. lia.
  - exact O3.
  - intros h p H. destruct (O4 h p H) as (y & Ey & R). exists y. split; [|exact R]. rewrite Ex, nth_error_app1; [exact Ey|].
    apply nth_error_Some. congruence.
Qed.

Lemma once_closes N a b : closes N false a b -> once a -> once b.
Proof.
  intros [(h & x & x' & Ex & Cx & Ec & Cx' & T & G & Ca & _ & l & El & [(Z0 & _)|EL] & LK)] [O1 O2 O3 O4]; [discriminate|].
  assert (h < length (a_ctx a))%nat as Hh by (apply nth_error_Some; congruence).
  assert (forall k, samples k l = (if Nat.eqb k h then 1 else 0)%nat /\ (xlogs k l <= samples k l)%nat) as Q.
  { intros k. destruct EL as (el & er & [->|(p & ->)]); unfold samples, xlogs; cbn [filter is_meter is_xlog];
      destruct (Nat.eqb k h); cbn [length]; lia. }
  constructor.
  - intros k y Ey. rewrite Ec, list_set_nth in Ey. rewrite El, samples_app. destruct (Q k) as (-> & _).
    destruct (Nat.eqb_spec h k) as [<-|Hn]; cbn [andb] in Ey.
    + apply Nat.ltb_lt in Hh. rewrite Hh in Ey. injection Ey as <-. rewrite Cx', Nat.eqb_refl, (O1 h x Ex), Cx. reflexivity.
    + rewrite (O1 k y Ey). destruct (Nat.eqb_spec k h); [congruence|]. lia.
  - intros k H. rewrite Ec, list_set_length in H. rewrite El, samples_app. destruct (Q k) as (-> & _). rewrite O2 by exact H.
    destruct (Nat.eqb_spec k h); [lia|reflexivity].
  - intros k. rewrite El, samples_app, xlogs_app. destruct (Q k) as (_ & Q2). specialize (O3 k). lia.
  - intros k p H. rewrite El in H. apply in_app_or in H. rewrite Ec. destruct H as [H|H].
    + destruct (O4 k p H) as (y & Ey & Cy & Ty). rewrite list_set_nth. destruct (Nat.eqb_spec h k) as [<-|Hn]; cbn [andb]; [|exists y; auto].
      rewrite Ex in Ey. injection Ey as <-. congruence.
    + assert (k = h) as ->.
      { destruct EL as (el & er & [->|(q & ->)]); destruct H as [H|H]; try discriminate; [destruct H|]. destruct H as [H|[]]. congruence. }
      exists x'. split; [apply list_set_same; exact Hh|]. split; [exact Cx'|]. rewrite T. apply LK. exact H.
Qed.

Lemma once_effect N z a b : effect N z a b -> z = false -> once a -> once b.
Proof.
  intros [[H|(b1 & c1 & H1 & H2 & H3)]|H] -> O.
  - eapply once_minor; eassumption.
  - eapply once_minor; [exact H3|]. eapply once_news; [exact H2|]. eapply once_minor; eassumption.
  - revert O. induction H as [a|a b c _ IH H|a b c _ IH H]; intros O; [exact O|eapply once_minor; eauto|eapply once_closes; eauto].
Qed.

Lemma once_init c : once (a_init c).
Proof. constructor; cbn; [intros h x H; destruct h; discriminate|reflexivity|intros; apply le_n|intros h p []]. Qed.

(** one call, then the rest *)
Lemma run_cons n k ops a : fst (run ((n, k) :: ops) a) = fst (run ops (fst (do_call n k a))) \/
  fst (run ((n, k) :: ops) a) = fst (do_call n k a).
Proof.
  cbn [run]. destruct (do_call n k a) as [a' [r|]]; cbn [fst]; [|right; reflexivity].
  left. destruct (run ops a') as [a'' [rs|]]; reflexivity.
Qed.

(** induction over histories for an invariant of the state *)
Lemma run_ind (P : agent -> Prop) (C : env * call -> Prop) ops a :
  (forall n k b, C (n, k) -> P b -> P (fst (do_call n k b))) -> Forall C ops -> P a -> P (fst (run ops a)).
Proof.
  intros H F. revert a. induction F as [|[n k] ops Hc F IH]; intros a Ha; [exact Ha|].
  destruct (run_cons n k ops a) as [-> | ->]; [apply IH|]; apply H; assumption.
Qed.

Lemma once_run c ops : Forall (fun nk => cf_bulk (n_conf (fst nk)) <> 0) ops -> once (after c ops).
Proof.
  intros F. unfold after. revert F. intros F. refine (run_ind once _ ops _ _ F (once_init c)).
  intros n k b Hb Ho. cbn in Hb. eapply once_effect; [apply (call_effect 0); lia| |exact Ho]. unfold zb. lia.
Qed.

(** * Transaction ids never change; contexts are only added *)

Definition grows (a b : agent) : Prop := exists l, txids b = txids a ++ l.
Lemma grows_refl a : grows a a.
Proof. exists []. rewrite app_nil_r. reflexivity. Qed.
Lemma grows_trans a b c : grows a b -> grows b c -> grows a c.
Proof. intros (l & E) (k & F). exists (l ++ k). rewrite F, E, app_assoc. reflexivity. Qed.
Lemma minor_txids N a b : minor N a b -> txids b = txids a.
Proof.
  intros H. apply nth_ext_map; [exact (mn_len _ _ _ H)|]. intros h x E. destruct (mn_ctx _ _ _ H h x E) as (y & Ey & (_ & S2 & _)).
  exists y. split; assumption.
Qed.
Lemma closes_txids N z a b : closes N z a b -> txids b = txids a.
Proof.
  intros [(h & x & x' & Ex & Cx & Ec & Cx' & T & _)]. unfold txids. rewrite Ec. apply nth_ext_map; [apply list_set_length|].
  intros k y Ey. rewrite list_set_nth. destruct (Nat.eqb_spec h k) as [<-|]; cbn [andb]; [|exists y; auto].
  assert (h < length (a_ctx a))%nat as Hh by (apply nth_error_Some; congruence). apply Nat.ltb_lt in Hh. rewrite Hh.
  exists x'. split; [reflexivity|congruence].
Qed.
Lemma ends_txids N z a b : ends N z a b -> txids b = txids a.
Proof. induction 1 as [a|a b c _ IH H|a b c _ IH H]; [reflexivity|rewrite (minor_txids _ _ _ H); exact IH|rewrite (closes_txids _ _ _ _ H); exact IH]. Qed.
Lemma effect_grows N z a b : effect N z a b -> grows a b.
Proof.
  intros [[H|(b1 & c1 & H1 & [(x & E & _) _] & H3)]|H].
  - exists []. rewrite app_nil_r. exact (minor_txids _ _ _ H).
  - exists [x_Txid x]. rewrite (minor_txids _ _ _ H3), <- (minor_txids _ _ _ H1). unfold txids. rewrite E, map_app. reflexivity.
  - exists []. rewrite app_nil_r. exact (ends_txids _ _ _ _ H).
Qed.
Lemma call_grows n k a : grows a (fst (do_call n k a)).
Proof. eapply effect_grows, (call_effect 0); lia. Qed.
Lemma run_grows ops : forall a, grows a (fst (run ops a)).
Proof.
  induction ops as [|[n k] ops IH]; intros a; [apply grows_refl|].
  destruct (run_cons n k ops a) as [-> | ->]; [eapply grows_trans; [apply call_grows|apply IH]|apply call_grows].
Qed.
Lemma nodup_app_l {A} (l k : list A) : NoDup (l ++ k) -> NoDup l.
Proof.
  induction l as [|x l IH]; cbn [app]; [constructor|]. intros H. inversion_clear H as [|? ? Hn Hd]. constructor; [|auto].
  intros Hi. apply Hn. apply in_or_app. left. exact Hi.
Qed.
Lemma grows_nodup a b : grows a b -> NoDup (txids b) -> NoDup (txids a).
Proof. intros (l & E) H. rewrite E in H. apply nodup_app_l in H. exact H. Qed.

(** * The table of active services *)

(** the table's contents for the contexts of the list, numbered from [i] *)
Fixpoint opens (i : nat) (l : list (bool * Z)) : list (Z * option Z) :=
  match l with
  | [] => []
  | (c, t) :: l' => (if c then [] else [(t, Some (Z.of_nat i))]) ++ opens (S i) l'
  end.
Definition flag (x : tctx) : bool * Z := (x_Closed x, x_Txid x).
Definition flags (a : agent) := map flag (a_ctx a).

Lemma opens_app i l k : opens i (l ++ k) = opens i l ++ opens (i + length l) k.
Proof.
  revert i. induction l as [|[c t] l IH]; intros i; cbn [opens app length]; [rewrite Nat.add_0_r; reflexivity|].
  rewrite IH, <- app_assoc. replace (i + S (length l))%nat with (S i + length l)%nat by lia. reflexivity.
Qed.
Lemma opens_in i l t v : In (t, v) (opens i l) <-> exists h, nth_error l h = Some (false, t) /\ v = Some (Z.of_nat (i + h)).
Proof.
  revert i. induction l as [|[c u] l IH]; intros i; cbn [opens].
  - split; [intros []|]. intros (h & H & _). destruct h; discriminate.
  - rewrite in_app_iff, IH. split.
    + intros [H|(h & H & E)].
      * destruct c; [destruct H|]. destruct H as [H|[]]. injection H as <- <-. exists O. split; [reflexivity|]. rewrite Nat.add_0_r. reflexivity.
      * exists (S h). split; [exact H|]. rewrite E. f_equal. f_equal. lia.
    + intros ([|h] & H & E); [left|right].
      * cbn in H. injection H as -> ->. left. rewrite Nat.add_0_r in E. congruence.
      * exists h. split; [exact H|]. rewrite E. f_equal. f_equal. lia.
Qed.
Lemma opens_keys i l t : In t (map fst (opens i l)) -> In t (map snd l).
Proof.
  intros H. apply in_map_iff in H. destruct H as ((u & v) & E & H). cbn in E. subst u. apply opens_in in H. destruct H as (h & H & _).
  apply in_map_iff. exists (false, t). split; [reflexivity|]. eapply nth_error_In. exact H.
Qed.
Lemma opens_nodup l : forall i, NoDup (map snd l) -> NoDup (map fst (opens i l)).
Proof.
  induction l as [|[c t] l IH]; intros i H; cbn [opens map] in *; [constructor|]. inversion_clear H as [|? ? Hn Hd].
  destruct c; cbn [app map fst]; [apply IH, Hd|]. constructor; [|apply IH, Hd].
  cbn [snd] in Hn. intros Hin. apply Hn. eapply opens_keys. exact Hin.
Qed.
Lemma opens_close i l h t : NoDup (map snd l) -> nth_error l h = Some (false, t) ->
  opens i (list_set l h (true, t)) = adel t (opens i l).
Proof.
  revert i h. induction l as [|[c u] l IH]; intros i h Hd E; [destruct h; discriminate|].
  cbn [map] in Hd. inversion_clear Hd as [|? ? Hn Hd']. destruct h as [|h]; cbn [list_set opens].
  - cbn in E. injection E as -> ->. cbn [app adel]. rewrite Z.eqb_refl. cbn [snd] in Hn. symmetry. apply adel_absent.
    intros H. apply Hn. eapply opens_keys. exact H.
  - cbn in E. rewrite adel_app, (IH (S i) h Hd' E). f_equal.
    destruct c; [reflexivity|]. cbn [adel]. destruct (Z.eqb_spec t u) as [->|]; [|reflexivity].
    exfalso. apply Hn. apply in_map_iff. exists (false, u). split; [reflexivity|]. eapply nth_error_In. exact E.
Qed.
Lemma opens_count i l : zlen (opens i l) = zlen (filter (fun f => negb (fst f)) l).
Proof.
  revert i. induction l as [|[c t] l IH]; intros i; [reflexivity|]. cbn [opens filter fst negb].
  destruct c; cbn [app negb]; rewrite ?zlen_cons, IH; reflexivity.
Qed.
Lemma running_count_flags a : running_count a = zlen (opens 0 (flags a)).
Proof.
  rewrite opens_count. unfold running_count, flags. induction (a_ctx a) as [|x l IH]; [reflexivity|].
  cbn [map filter flag fst]. destruct (x_Closed x); cbn [negb]; rewrite ?zlen_cons, IH; reflexivity.
Qed.
Lemma flags_txids a : map snd (flags a) = txids a.
Proof. unfold flags, txids. rewrite map_map. reflexivity. Qed.

Record tabled (a : agent) : Prop := mkTabled {
  tb_wf : wf (a_active a); tb_max : lmax (a_active a) = 10000;
  tb_view : Permutation (view (a_active a)) (opens 0 (flags a)) }.

Lemma minor_flags N a b : minor N a b -> flags b = flags a.
Proof.
  intros H. apply nth_ext_map; [exact (mn_len _ _ _ H)|]. intros h x E. destruct (mn_ctx _ _ _ H h x E) as (y & Ey & (S1 & S2 & _)).
  exists y. split; [exact Ey|]. unfold flag. congruence.
Qed.
Lemma tabled_minor N a b : minor N a b -> tabled a -> tabled b.
Proof.
  intros H [T1 T2 T3]. pose proof (mn_active _ _ _ H) as E. constructor; rewrite ?E; [assumption..|].
  rewrite (minor_flags _ _ _ H). exact T3.
Qed.
Lemma map_list_set {A B} (f : A -> B) l i x : map f (list_set l i x) = list_set (map f l) i (f x).
Proof. revert i. induction l as [|y l IH]; intros i; [reflexivity|]. destruct i; cbn [list_set map]; [reflexivity|]. rewrite IH. reflexivity. Qed.
Lemma closes_flags N z a b : closes N z a b -> exists h t, nth_error (flags a) h = Some (false, t) /\ flags b = list_set (flags a) h (true, t)
  /\ a_active b = fst (lra_remove (a_active a) t).
Proof.
  intros [(h & x & x' & Ex & Cx & Ec & Cx' & T & _ & _ & Ea & _)]. exists h, (x_Txid x). split.
  - unfold flags. rewrite (map_nth_error flag _ _ Ex). unfold flag. rewrite Cx. reflexivity.
  - split; [|exact Ea]. unfold flags. rewrite Ec, map_list_set. unfold flag at 2. rewrite Cx', T. reflexivity.
Qed.
Lemma tabled_closes N z a b : closes N z a b -> NoDup (txids a) -> tabled a -> tabled b.
Proof.
  intros H Nd [T1 T2 T3]. destruct (closes_flags _ _ _ _ H) as (h & t & E & Fb & Ab).
  destruct (remove_view (a_active a) t T1) as (W & M & V & _). constructor; rewrite ?Ab; [exact W|congruence|].
  rewrite V, Fb, opens_close; [|rewrite flags_txids; exact Nd|exact E]. apply adel_perm. exact T3.
Qed.
Lemma ends_count N z a b : ends N z a b -> running_count b <= running_count a.
Proof.
  induction 1 as [a|a b c _ IH H|a b c _ IH H]; [lia| |].
  - rewrite running_count_flags, (minor_flags _ _ _ H), <- running_count_flags. exact IH.
  - destruct (closes_flags _ _ _ _ H) as (h & t & E & Fb & _). rewrite !running_count_flags, !opens_count in *. rewrite Fb.
    enough (forall l, nth_error l h = Some (false, t) -> zlen (filter (fun f : bool * Z => negb (fst f)) (list_set l h (true, t))) <= zlen (filter (fun f => negb (fst f)) l)).
    { specialize (H0 _ E). lia. }
    clear. revert h. intros h l. revert h. induction l as [|[c u] l IH]; intros h E; [destruct h; discriminate|].
    destruct h as [|h]; cbn [list_set filter fst].
    + cbn in E. injection E as -> ->. cbn [negb]. rewrite zlen_cons. lia.
    + specialize (IH h E). destruct c; cbn [negb]; rewrite ?zlen_cons; lia.
Qed.
Lemma tabled_ends N z a b : ends N z a b -> NoDup (txids a) -> tabled a -> tabled b.
Proof.
  induction 1 as [a|a b c H1 IH H|a b c H1 IH H]; intros Nd T; [exact T|eapply tabled_minor; eauto|eapply tabled_closes; eauto].
  rewrite (ends_txids _ _ _ _ H1). exact Nd.
Qed.
Lemma tabled_news a b : news a b -> NoDup (txids b) -> running_count b <= 10000 -> tabled a -> tabled b.
Proof.
  intros [(x & Ex & Cx & Ea) _] Nd Hc [T1 T2 T3].
  assert (flags b = flags a ++ [(false, x_Txid x)]) as Fb by (unfold flags; rewrite Ex, map_app; cbn; unfold flag; rewrite Cx; reflexivity).
  assert (~ In (x_Txid x) (txids a)) as Hn.
  { unfold txids in Nd. rewrite Ex, map_app in Nd. cbn [map] in Nd. apply NoDup_remove_2 in Nd. rewrite app_nil_r in Nd. exact Nd. }
  assert (alook (x_Txid x) (view (a_active a)) = None) as Al.
  { apply alook_none. intros H. apply Hn. rewrite <- flags_txids. eapply (opens_keys 0).
    eapply Permutation_in; [apply Permutation_map; exact T3|exact H]. }
  destruct (add_absent (a_active a) (x_Txid x) (Some (Z.of_nat (length (a_ctx a)))) T1 Al) as (W & M & V).
  rewrite running_count_flags, Fb, opens_app in Hc. cbn [opens app] in Hc. rewrite zlen_app in Hc. cbn in Hc.
  assert (zlen (view (a_active a)) = zlen (opens 0 (flags a))) as Lv.
  { unfold zlen. rewrite (Permutation_length T3). reflexivity. }
  rewrite T2 in V. destruct (Z.ltb_spec 10000 (zlen (view (a_active a)) + 1)); [lia|]. cbn [negb Z.eqb andb] in V. destruct V as (V & _).
  constructor; rewrite ?Ea; [exact W|congruence|]. rewrite V, Fb, opens_app. cbn [opens app].
  replace (0 + length (flags a))%nat with (length (a_ctx a)) by (unfold flags; rewrite map_length; reflexivity).
  eapply perm_trans; [apply perm_skip; exact T3|]. apply Permutation_cons_append.
Qed.
Lemma tabled_effect N z a b : effect N z a b -> NoDup (txids b) -> running_count b <= 10000 -> tabled a -> tabled b.
Proof.
  intros [[H|(b1 & c1 & H1 & H2 & H3)]|H] Nd Hc T.
  - eapply tabled_minor; eassumption.
  - eapply tabled_minor; [exact H3|]. eapply tabled_news; [exact H2| | |eapply tabled_minor; eassumption].
    + rewrite <- (minor_txids _ _ _ H3). exact Nd.
    + rewrite running_count_flags in *. rewrite <- (minor_flags _ _ _ H3). exact Hc.
  - eapply tabled_ends; [exact H| |exact T]. rewrite <- (ends_txids _ _ _ _ H). exact Nd.
Qed.
Lemma tabled_init c : tabled (a_init c).
Proof. constructor; cbn; [apply wf_new|reflexivity|constructor]. Qed.

Lemma tabled_run ops : forall a, tabled a -> NoDup (txids (fst (run ops a))) ->
  (forall p q, ops = p ++ q -> running_count (fst (run p a)) <= 10000) -> tabled (fst (run ops a)).
Proof.
  induction ops as [|[n k] ops IH]; intros a T Nd Hc; [exact T|].
  pose proof (Hc [(n, k)] ops eq_refl) as H1. cbn [run] in H1, Nd, Hc |- *.
  pose proof (call_effect 0 n k a (Nat.le_0_l _)) as Ef. destruct (do_call n k a) as [a' [r|]] eqn:Ed; cbn [fst] in *.
  - assert (fst (let (a'', o) := run ops a' in match o with Some rs => (a'', Some (r :: rs)) | None => (a'', None) end) = fst (run ops a')) as Er
      by (destruct (run ops a') as [a'' [rs|]]; reflexivity).
    rewrite Er in Nd |- *. apply IH; [|exact Nd|].
    + eapply tabled_effect; [exact Ef| |exact H1|exact T]. eapply grows_nodup; [apply run_grows|exact Nd].
    + intros p q E. specialize (Hc ((n, k) :: p) q). cbn [run app] in Hc. rewrite Ed in Hc. rewrite E in Hc. specialize (Hc eq_refl).
      destruct (run p a') as [a'' [rs|]]; exact Hc.
  - eapply tabled_effect; [exact Ef|exact Nd|exact H1|exact T].
Qed.

Lemma tabled_find a t : tabled a -> NoDup (txids a) ->
  forall h, find_by_txid t a = Some h <-> exists x, nth_error (a_ctx a) h = Some x /\ x_Txid x = t /\ x_Closed x = false.
Proof.
  intros [T1 T2 T3] Nd h. unfold find_by_txid. rewrite lra_get_view by exact T1.
  rewrite (alook_perm _ _ _ (wf_keys _ T1) T3).
  assert (NoDup (map fst (opens 0 (flags a)))) as Nk by (apply opens_nodup; rewrite flags_txids; exact Nd).
  assert (forall v, alook t (opens 0 (flags a)) = Some v <-> exists g x, nth_error (a_ctx a) g = Some x /\ x_Txid x = t /\ x_Closed x = false /\ v = Some (Z.of_nat g)) as K.
  { intros v. rewrite alook_in by exact Nk. rewrite opens_in. split.
    - intros (g & E & ->). unfold flags in E. destruct (nth_error (a_ctx a) g) as [x|] eqn:Ex.
      + rewrite (map_nth_error flag _ _ Ex) in E. unfold flag in E. injection E as E1 E2. exists g, x. auto.
      + apply nth_error_None in Ex. assert (nth_error (map flag (a_ctx a)) g = None) as En by (apply nth_error_None; rewrite map_length; exact Ex). congruence.
    - intros (g & x & Ex & Tx & Cx & ->). exists g. split; [|reflexivity]. unfold flags. rewrite (map_nth_error flag _ _ Ex). unfold flag. congruence. }
  destruct (alook t (opens 0 (flags a))) as [v|] eqn:Al.
  - destruct (proj1 (K v) eq_refl) as (g & x & Ex & Tx & Cx & ->). cbn [option_map]. rewrite Nat2Z.id. split.
    + intros [= <-]. exists x. auto.
    + intros (y & Ey & Ty & Cy). assert (Some (Some (Z.of_nat g)) = Some (Some (Z.of_nat h))) as E by (apply (proj2 (K (Some (Z.of_nat h)))); exists h, y; auto).
      injection E as E. f_equal. lia.
  - cbn. split; [discriminate|]. intros (y & Ey & Ty & Cy). destruct (K (Some (Z.of_nat h))) as (_ & K2).
    discriminate K2. exists h, y. auto.
Qed.
