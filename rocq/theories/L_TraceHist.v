(** Histories seen through their results, the links of the services and of the xlogs, the flush at the end. *)
From Verif Require Import GoInt M_Util M_StrMatch M_Packs M_Steps M_Cache M_Text M_Sampler M_Profile L_Profile S_Profile M_Trace L_Trace L_TraceRel S_Trace L_TraceInv L_TraceStart L_TraceSafe L_TraceActive.
From Coq Require Import ZifyBool.

Lemma run_split ops : forall a i n k rs r, snd (run ops a) = Some rs -> nth_error ops i = Some (n, k) -> nth_error rs i = Some r ->
  let a1 := fst (run (firstn i ops) a) in
  snd (run (firstn i ops) a) <> None /\ snd (do_call n k a1) = Some r /\ fst (run ops a) = fst (run (skipn (S i) ops) (fst (do_call n k a1))).
Proof.
  induction ops as [|[n0 k0] ops IH]; intros a i n k rs r R Ho Hr; [destruct i; discriminate|].
  cbn [run] in R |- *. destruct (do_call n0 k0 a) as [b [r0|]] eqn:D; [|discriminate].
  destruct (run ops b) as [b' [rs'|]] eqn:Rb; [|discriminate]. cbn [snd] in R. injection R as <-.
  destruct i as [|i]; cbn [nth_error firstn skipn run fst snd] in *.
  - injection Ho as -> ->. injection Hr as ->. rewrite D. cbn [fst snd]. split; [discriminate|]. split; [reflexivity|]. rewrite Rb. reflexivity.
  - specialize (IH b i n k rs' r). rewrite Rb in IH. cbn [fst snd] in IH. specialize (IH eq_refl Ho Hr). cbv zeta in IH.
    rewrite D. destruct (run (firstn i ops) b) as [c [rc|]]; cbn [fst snd] in *; [|tauto]. split; [discriminate|]. tauto.
Qed.

Lemma forall_firstn {A} (P : A -> Prop) l i : Forall P l -> Forall P (firstn i l).
Proof. intros F. revert i. induction F as [|x l Hx F IH]; intros i; [rewrite firstn_nil; constructor|]. destruct i; cbn [firstn]; [constructor|constructor; auto]. Qed.

Lemma linked_firstn c ops i : Forall (fun nk => n_key (fst nk) <> 0) ops -> linked (fst (run (firstn i ops) (a_init c))).
Proof. intros F. apply linked_run; [apply forall_firstn; exact F|apply linked_init]. Qed.

Lemma recovered_ok {A} (d : A) m a x : snd (recovered d m a) = Some x -> x <> d -> snd (m a) = Some x /\ fst (recovered d m a) = fst (m a).
Proof. unfold recovered. destruct (m a) as [b [y|]]; cbn; [intros [= ->] _; auto|congruence]. Qed.

Lemma fmap_ok {A B} (f : A -> B) m a r : snd (fmap f m a) = Some r -> exists x, snd (m a) = Some x /\ r = f x /\ fst (fmap f m a) = fst (m a).
Proof. unfold fmap, bind, ret. destruct (m a) as [b [x|]]; cbn; [intros [= <-]; exists x; auto|discriminate]. Qed.

(** GoWithTrace *)
Lemma go_call n a p xp name h : n_key n <> 0 -> linked a -> nth_error (a_ctx a) p = Some xp ->
  snd (do_call n (KGo (CTrace p) name) a) = Some (RRun (Some (CTrace h))) ->
  p <> h /\ exists y, nth_error (a_ctx (fst (do_call n (KGo (CTrace p) name) a))) h = Some y /\ x_Caller y = x_Txid xp /\ x_Gxid y = x_Gxid xp /\ x_Txid y = n_key n.
Proof.
  intros K L Ep R. cbn [do_call] in R |- *. apply fmap_ok in R. destruct R as (o & R & E & ->). injection E as <-.
  unfold go_with_trace in *. apply recovered_ok in R; [|discriminate]. destruct R as (R & ->). 
  apply bind_result in R. destruct R as (c' & R & E). cbn in E. injection E as ->.
  unfold bind at 1. destruct (start_child n (CTrace p) name a) as [b [c'|]] eqn:Es; [|discriminate]. cbn [snd] in R. injection R as ->. cbn [ret fst].
  unfold start_child, traced in Es. unfold bind at 1 in Es. cbn [get_tctx] in Es. rewrite Ep in Es.
  rewrite (bind_some _ _ _ _ _ (read_eq _ _ _ _ Ep)) in Es. unfold bind at 1 in Es.
  destruct (start0_cases n name (x_RemoteIp xp) a) as [E0|(x & E1 & F & El & _ & R0)].
  - rewrite E0 in Es. discriminate.
  - destruct (start_service0 n name (x_RemoteIp xp) a) as [a1 [g|]]; [|discriminate]. cbn [fst snd] in *. destruct R0 as [R0|R0]; [discriminate|]. injection R0 as ->.
    assert (linked a1) as L1.
    { intros i y Ey. rewrite E1 in Ey. refine (linked_snoc a x L _ i y Ey). destruct F as (_ & -> & _). exact K. }
    pose proof (child_links n a p xp name a1 x Ep (L p xp Ep) L E1 F L1) as H. cbv zeta in H. rewrite Es in H. cbn [fst snd] in H.
    destruct H as (_ & H). destruct (H _ eq_refl) as (Eh & y & Ey & H1 & H2 & H3 & _). injection Eh as ->.
    split; [assert (p < length (a_ctx a))%nat by (apply nth_error_Some; congruence); lia|].
    exists y. auto.
Qed.
Lemma go_call_invalid n a p name : nth_error (a_ctx a) p = None -> snd (do_call n (KGo (CTrace p) name) a) = Some (RRun (Some (CTrace p))).
Proof.
  intros Ep. cbn [do_call]. unfold fmap, go_with_trace, start_child, traced, recovered, bind. cbn [get_tctx]. rewrite Ep. reflexivity.
Qed.

(** StartNewInheritanceService *)
Lemma inherit_call n a c p xp h : n_key n <> 0 -> linked a -> nth_error (a_ctx a) p = Some xp ->
  snd (do_call n (KInherit c p) a) = Some (RCtx (CTrace h)) ->
  p <> h /\ exists y, nth_error (a_ctx (fst (do_call n (KInherit c p) a))) h = Some y /\ x_Caller y = x_Txid xp /\ x_Gxid y = x_Gxid xp.
Proof.
  intros K L Ep R. cbn [do_call] in R |- *. apply fmap_ok in R. destruct R as (o & R & E & ->). injection E as <-.
  unfold start_inheritance in *. apply recovered_ok in R; [|discriminate]. destruct R as (R & ->).
  rewrite (bind_some _ _ _ _ _ (read_eq _ _ _ _ Ep)) in R |- *. unfold bind at 1 in R. unfold bind at 1.
  destruct (start0_cases n (x_ServiceName xp) (x_RemoteIp xp) a) as [E0|(x & E1 & F & El & _ & R0)].
  - rewrite E0 in R. discriminate.
  - destruct (start_service0 n (x_ServiceName xp) (x_RemoteIp xp) a) as [a1 [g|]]; [|discriminate]. cbn [fst snd] in *. destruct R0 as [R0|R0]; [discriminate|]. injection R0 as ->.
    assert (linked a1) as L1.
    { intros i y Ey. rewrite E1 in Ey. refine (linked_snoc a x L _ i y Ey). destruct F as (_ & -> & _). exact K. }
    pose proof (inherit_links n a p xp a1 x K Ep (L p xp Ep) L E1 L1) as H. cbv zeta in H. destruct H as (_ & H).
    destruct (H _ R) as (Eh & y & Ey & H1 & H2 & _). injection Eh as ->.
    split; [|exists y; auto]. assert (p < length (a_ctx a))%nat by (apply nth_error_Some; congruence). lia.
Qed.

(** root services *)
Lemma start0_bind_fresh {B} n name addr (f : nat -> M B) a r : snd (bind (start_service0 n name addr) f a) = Some r ->
  exists b x, a_ctx b = a_ctx a ++ [x] /\ fresh_ctx n x /\ snd (f (length (a_ctx a)) b) = Some r /\ fst (bind (start_service0 n name addr) f a) = fst (f (length (a_ctx a)) b).
Proof.
  unfold bind. destruct (start0_cases n name addr a) as [E0|(x & E1 & F & El & _ & R0)]; [rewrite E0; discriminate|].
  destruct (start_service0 n name addr a) as [a1 [g|]]; [|discriminate]. cbn [fst snd] in *. destruct R0 as [R0|R0]; [discriminate|]. injection R0 as ->.
  intros R. exists a1, x. auto.
Qed.

Lemma root_tail {B} n a b x (m : M B) : n_key n <> 0 -> a_ctx b = a_ctx a ++ [x] -> fresh_ctx n x -> rel (minor (length (a_ctx b))) m ->
  exists y, nth_error (a_ctx (fst (m b))) (length (a_ctx a)) = Some y /\ x_Caller y = 0 /\ x_Gxid y = n_key n /\ x_Txid y = n_key n.
Proof.
  intros K Eb (F1 & F2 & F3 & _) R.
  destruct (minor_keeps _ _ _ (R b) eq_refl (length (a_ctx a)) x) as (y & Ey & Gy & Cy & Ty).
  - rewrite Eb. apply nth_snoc.
  - congruence.
  - exists y. split; [exact Ey|]. split; [congruence|]. split; congruence.
Qed.

Lemma root_call n a k h : n_key n <> 0 ->
  match k with KStartService c _ _ | KStartHttp c _ => c <> CTrace h | _ => False end ->
  snd (do_call n k a) = Some (RCtx (CTrace h)) ->
  exists y, nth_error (a_ctx (fst (do_call n k a))) h = Some y /\ x_Caller y = 0 /\ x_Gxid y = n_key n /\ x_Txid y = n_key n.
Proof.
  intros K Hk R. destruct k; try contradiction; cbn [do_call] in R |- *; apply fmap_ok in R; destruct R as (o & R & E & ->); injection E as <-.
  - unfold start_service in *. apply recovered_ok in R; [|discriminate]. destruct R as (R & ->).
    set (c' := match c with CNil => CPlain | _ => c end) in *. assert (c' <> CTrace h) as Hc by (unfold c'; destruct c; congruence || discriminate).
    unfold bind at 1 in R. unfold bind at 1. pose proof (get_tctx_state c' a) as G. destruct (get_tctx c' a) as [b [[g|]|]]; cbn [fst] in G; subst b.
    + cbn in R. congruence.
    + apply start0_bind_fresh in R. destruct R as (b & x & Eb & F & R & ->).
      apply bind_result in R. destruct R as (? & _ & R). cbn in R. injection R as <-. eapply root_tail; [exact K|exact Eb|exact F|rel_tac].
    + discriminate.
  - unfold start_http_service in *. apply recovered_ok in R; [|discriminate]. destruct R as (R & ->). destruct c as [| |g]; [discriminate|..];
    (unfold bind at 1 in R; unfold bind at 1; match goal with |- context [get_tctx ?c a] => pose proof (get_tctx_state c a) as G; destruct (get_tctx c a) as [b [[i|]|]]; cbn [fst] in G; subst b; [cbn in R; congruence| |discriminate] end;
     destruct req as [rq|]; [|discriminate]; apply start0_bind_fresh in R; destruct R as (b & x & Eb & F & R & ->);
     assert (h = length (a_ctx a)) as -> by (repeat (apply bind_result in R; destruct R as (? & _ & R)); cbn in R; congruence);
     eapply root_tail; [exact K|exact Eb|exact F|];
     rel_tac; try apply rel_headers).
Qed.

(** every xlog sent carries the ids of its service *)
Definition xlinks (a : agent) : Prop := forall h p, In (EvXlog h p) (a_log a) ->
  exists x, nth_error (a_ctx a) h = Some x /\ x_Gxid x <> 0 /\ xl_Txid p = x_Txid x /\ xl_Gxid p = x_Gxid x /\ xl_Caller p = x_Caller x.
Definition keeps_at (N : nat) (a b : agent) : Prop := forall h x, (h < N)%nat -> nth_error (a_ctx a) h = Some x -> x_Gxid x <> 0 ->
  exists y, nth_error (a_ctx b) h = Some y /\ x_Gxid y = x_Gxid x /\ x_Caller y = x_Caller x /\ x_Txid y = x_Txid x.
(** xlogs sent by services below [N] *)
Definition xlinks_at (N : nat) (a : agent) : Prop := forall h p, In (EvXlog h p) (a_log a) -> (h < N)%nat /\
  exists x, nth_error (a_ctx a) h = Some x /\ x_Gxid x <> 0 /\ xl_Txid p = x_Txid x /\ xl_Gxid p = x_Gxid x /\ xl_Caller p = x_Caller x.
Lemma xlinks_iff a : xlinks a <-> xlinks_at (length (a_ctx a)) a.
Proof.
  split; intros H h p Hin; destruct (H h p Hin) as (x & Hx).
  - split; [apply nth_error_Some; destruct Hx as (-> & _); discriminate|exists x; exact Hx].
  - exact Hx.
Qed.
Lemma xlinks_grow N N' a : (N <= N')%nat -> xlinks_at N a -> xlinks_at N' a.
Proof. intros L H h p Hin. destruct (H h p Hin) as (Hh & R). split; [lia|exact R]. Qed.
Lemma xlinks_keeps N a b l : keeps_at N a b -> a_log b = a_log a ++ l -> (forall h p, ~ In (EvXlog h p) l) -> xlinks_at N a -> xlinks_at N b.
Proof.
  intros K El Hl X h p Hin. rewrite El in Hin. apply in_app_or in Hin. destruct Hin as [Hin|Hin]; [|destruct (Hl h p Hin)].
  destruct (X h p Hin) as (Hh & x & E & G & T1 & T2 & T3). destruct (K h x Hh E G) as (y & Ey & Gy & Cy & Ty). split; [exact Hh|]. exists y.
  split; [exact Ey|]. split; [congruence|]. split; [congruence|]. split; congruence.
Qed.
Lemma xlinks_minor N a b : minor N a b -> xlinks_at N a -> xlinks_at N b.
Proof.
  intros H. destruct (mn_log _ _ _ H) as (l & El & F). apply (xlinks_keeps N a b l); [|exact El|intros h p; apply alerts_no_xlog; exact F].
  intros h x L E G. exact (minor_keeps_le _ _ _ H h x L E G).
Qed.
Lemma xlinks_news N a b : news a b -> xlinks_at N a -> xlinks_at N b.
Proof.
  intros H. apply (xlinks_keeps N a b []); [|rewrite app_nil_r; exact (nw_log _ _ H)|intros h p []].
  intros h x _ E G. exact (news_keeps _ _ H h x E G).
Qed.
Lemma xlinks_closes N z a b : closes N z a b -> N = length (a_ctx a) -> linked a -> xlinks_at N a -> xlinks_at N b.
Proof.
  intros H HN L X. pose proof (closes_keeps _ _ _ _ H) as K.
  destruct H as [(h & x & x' & Ex & Cx & Ec & Cx' & T & G & Ca & _ & l & El & EL & LK)].
  assert (h < length (a_ctx a))%nat as Hh by (apply nth_error_Some; congruence).
  intros k p Hin. rewrite El in Hin. apply in_app_or in Hin. destruct Hin as [Hin|Hin].
  - destruct (X k p Hin) as (Hk & y & E & Gy & T1 & T2 & T3). destruct (K k y E Gy) as (w & Ew & Gw & Cw & Tw). split; [exact Hk|]. exists w.
    split; [exact Ew|]. split; [congruence|]. split; [congruence|]. split; congruence.
  - assert (k = h) as ->.
    { destruct EL as [(_ & ->)|(el & er & [-> |(q & ->)])]; [destruct Hin| |]; cbn in Hin; intuition congruence. }
    destruct (LK p Hin) as (P1 & P2 & P3). split; [lia|]. exists x'. split; [rewrite Ec; apply list_set_same; exact Hh|].
    pose proof (L h x Ex). split; [congruence|]. split; [congruence|]. split; congruence.
Qed.
Lemma linked_closes N z a b : closes N z a b -> linked a -> linked b.
Proof.
  intros [(h & x & x' & Ex & Cx & Ec & Cx' & T & G & _)] L k y Ey. rewrite Ec, list_set_nth in Ey.
  destruct (Nat.eqb h k && _); [injection Ey as <-; rewrite G; exact (L h x Ex)|exact (L k y Ey)].
Qed.
Lemma closes_len N z a b : closes N z a b -> length (a_ctx b) = length (a_ctx a).
Proof. intros [(h & x & x' & _ & _ & -> & _)]. apply list_set_length. Qed.
Lemma xlinks_effect z a b : effect (length (a_ctx a)) z a b -> linked a -> xlinks a -> xlinks b.
Proof.
  intros H L X. apply xlinks_iff in X. destruct H as [[H|(b1 & c1 & H1 & H2 & H3)]|H].
  - apply xlinks_iff. rewrite (mn_len _ _ _ H). eapply xlinks_minor; eassumption.
  - apply xlinks_iff. eapply xlinks_grow; [|eapply xlinks_minor; [exact H3|eapply xlinks_news; [exact H2|eapply xlinks_minor; eassumption]]].
    rewrite (mn_len _ _ _ H3). destruct H2 as [(x & -> & _) _]. rewrite app_length, (mn_len _ _ _ H1). lia.
  - remember (length (a_ctx a)) as N eqn:HN. enough (linked b /\ xlinks_at N b /\ length (a_ctx b) = N) as (_ & H0 & E) by (apply xlinks_iff; rewrite E; exact H0).
    induction H as [a|a b c _ IH H|a b c _ IH H].
    + auto.
    + destruct (IH HN L X) as (Lb & Xb & Eb). split; [eapply linked_minor; [exact H|congruence|exact Lb]|]. split; [eapply xlinks_minor; eassumption|rewrite (mn_len _ _ _ H); exact Eb].
    + destruct (IH HN L X) as (Lb & Xb & Eb). split; [eapply linked_closes; eassumption|]. split; [eapply xlinks_closes; [exact H|congruence|exact Lb|exact Xb]|rewrite (closes_len _ _ _ _ H); exact Eb].
Qed.
Lemma xlinks_run c ops : Forall (fun nk => n_key (fst nk) <> 0) ops -> linked (after c ops) /\ xlinks (after c ops).
Proof.
  intros F. refine (run_ind (fun a => linked a /\ xlinks a) _ ops _ _ F _).
  - intros n k b Hk (L & X). cbn in Hk. split; [apply linked_call; assumption|]. eapply xlinks_effect; [apply call_effect, le_n|exact L|exact X].
  - split; [apply linked_init|]. intros h p [].
Qed.

(** * The flush *)
Definition pack_of (n : env) (x : tctx) (g : list nat) : profile_pack :=
  mk_profile_pack 0 (cf_obj (n_conf n)) (text_hash (x_ServiceName x)) (x_Txid x) (steps_to_bytes (map (deref (p_heap (x_Profile x))) g))
    (int32 (millis_between (x_StartTime x) (n_now n))).
Lemma send_all e gs : forall p, Forall (fun g : list nat => g <> []) gs ->
  let p' := fold_left (fun p g => send_profile0 e g p) gs p in
  p_sent p' = p_sent p ++ map (fun g => mk_profile_pack 0 (e_obj e) (e_service e) (e_txid e) (steps_to_bytes (map (deref (p_heap p)) g)) (int32 (e_elapsed e))) gs.
Proof.
  induction gs as [|g gs IH]; intros p F; cbn [fold_left map]; [symmetry; apply app_nil_r|]. inversion_clear F as [|? ? Hg Fg].
  rewrite IH by exact Fg. unfold send_profile0. destruct g as [|i g]; [congruence|]. cbn [p_sent p_heap]. rewrite <- app_assoc. reflexivity.
Qed.
Lemma close_flush n x : 1 <= cf_bulk (n_conf n) -> forall p, close (env_of n (closed_ctx x)) true (x_Profile x) = Some p ->
  exists gs, concat gs = p_buf (x_Profile x) /\ Forall (fun g => 1 <= zlen g <= cf_bulk (n_conf n)) gs /\
    p_sent p = p_sent (x_Profile x) ++ map (pack_of n x) gs.
Proof.
  intros Hb p. unfold close. destruct (p_buf (x_Profile x)) as [|i l] eqn:Eb.
  - intros [= <-]. exists []. split; [reflexivity|]. split; [constructor|]. symmetry; apply app_nil_r.
  - unfold send_profile. change (e_bulk _) with (cf_bulk (n_conf n)). destruct (send_groups_ok _ (i :: l) Hb) as (gs & -> & Ec & F & _). intros [= <-].
    exists gs. split; [exact Ec|]. split; [exact F|]. rewrite send_all; [reflexivity|]. eapply Forall_impl; [|exact F]. intros g Hg ->. change (zlen (@nil nat)) with 0 in Hg. lia.
Qed.
Lemma close_keep n x p : close (env_of n (closed_ctx x)) false (x_Profile x) = Some p -> p = x_Profile x.
Proof. unfold close. destruct (p_buf (x_Profile x)); congruence. Qed.
