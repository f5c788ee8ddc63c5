(** With sensible profile settings no call panics: every profile always has room for one more step. *)
From Verif Require Import GoInt M_Util M_Hash M_StrMatch M_Packs M_Steps M_Cache L_Cache M_Text M_Sampler M_Profile L_Profile S_Profile M_Trace L_Trace L_TraceRel S_Trace L_TraceInv L_TraceStart.
From Coq Require Import ZifyBool Permutation.

Definition room (p : prof) : Prop := zlen (p_buf p) < p_len p.

Lemma send_profile0_frame e g p : p_buf (send_profile0 e g p) = p_buf p /\ p_len (send_profile0 e g p) = p_len p /\ p_heap (send_profile0 e g p) = p_heap p.
Proof. unfold send_profile0. destruct g; cbn; auto. Qed.
Lemma send_profile_some e l p : 1 <= e_bulk e -> exists p', send_profile e l p = Some p' /\ p_buf p' = p_buf p /\ p_len p' = p_len p /\ p_heap p' = p_heap p.
Proof.
  intros H. unfold send_profile. destruct (send_groups_ok (e_bulk e) l H) as (gs & -> & _). eexists. split; [reflexivity|].
  revert p. induction gs as [|g gs IH]; intros p; [auto|]. cbn [fold_left]. destruct (IH (send_profile0 e g p)) as (-> & -> & ->). apply send_profile0_frame.
Qed.
Lemma process_room e a p : good_env e -> room p -> exists p', process e a p = Some p' /\ room p'.
Proof.
  intros (G1 & G2) R. unfold room in R. unfold process. destruct (Z.leb_spec (p_len p) (zlen (p_buf p))); [lia|].
  cbv zeta. rewrite zlen_app. change (zlen [a]) with 1. destruct (Z.leb_spec (p_len p) (zlen (p_buf p) + 1)).
  - destruct (Z.ltb_spec (e_keep e) 0); [lia|].
    destruct (send_profile_some e (p_buf p ++ [a]) (mkProf (p_heap p) (e_keep e) [] (p_cur p) (p_par p) (p_count p) (p_size p) (p_sent p)) G2)
      as (p' & -> & Eb & El & _). exists p'. split; [reflexivity|]. unfold room. rewrite Eb, El. cbn. lia.
  - eexists. split; [reflexivity|]. unfold room. cbn. rewrite zlen_app. change (zlen [a]) with 1. lia.
Qed.
Lemma add_room e st p : good_env e -> room p -> exists p', add e st p = Some p' /\ room p'.
Proof. intros G R. apply process_room; [exact G|exact R]. Qed.
Lemma pop_room e a st p : good_env e -> room p -> exists p', pop e a st p = Some p' /\ room p'.
Proof.
  intros G R. unfold pop. destruct (deref (p_heap p) a); [|exists p; auto]. apply process_room; [exact G|exact R].
Qed.
Lemma close_room e ok p : good_env e -> room p -> exists p', close e ok p = Some p' /\ room p'.
Proof.
  intros (_ & G) R. unfold close. destruct (p_buf p) eqn:E; [exists p; auto|]. rewrite <- E. destruct ok; [|exists p; auto].
  destruct (send_profile_some e (p_buf p) p G) as (p' & -> & Eb & El & _). exists p'. split; [reflexivity|]. unfold room. rewrite Eb, El. exact R.
Qed.

Definition roomy (a : agent) : Prop := forall h x, nth_error (a_ctx a) h = Some x -> room (x_Profile x).
Definition not_panic (e : aevent) : Prop := e <> EvAlert 3 (of_string "Panic").

Definition safe_q {A} (N : nat) (m : M A) (Q : A -> nat -> Prop) : Prop :=
  forall a, (N <= length (a_ctx a))%nat -> roomy a ->
  exists a' x, m a = (a', Some x) /\ roomy a' /\ (length (a_ctx a) <= length (a_ctx a'))%nat /\ Q x (length (a_ctx a')) /\
    exists l, a_log a' = a_log a ++ l /\ Forall not_panic l.
Definition safe {A} (N : nat) (m : M A) : Prop := safe_q N m (fun _ _ => True).

Lemma safe_same {A} N (m : M A) (Q : A -> nat -> Prop) x : (forall a, (N <= length (a_ctx a))%nat -> m a = (a, Some x) /\ Q x (length (a_ctx a))) -> safe_q N m Q.
Proof.
  intros H a L R. destruct (H a L) as (E & HQ). exists a, x. split; [exact E|]. split; [exact R|]. split; [apply le_n|]. split; [exact HQ|].
  exists []. rewrite app_nil_r. split; [reflexivity|constructor].
Qed.
Lemma safe_ret {A} N (x : A) : safe N (ret x).
Proof. apply (safe_same _ _ _ x). intros a _. split; [reflexivity|exact I]. Qed.
Lemma safe_bind_q {A B} N (m : M A) (f : A -> M B) Q R : safe_q N m Q ->
  (forall x N', (N <= N')%nat -> Q x N' -> safe_q N' (f x) R) -> safe_q N (bind m f) R.
Proof.
  intros Hm Hf a L Ra. destruct (Hm a L Ra) as (b & x & E & Rb & Lb & Qx & l & El & Fl).
  destruct (Hf x (length (a_ctx b)) ltac:(lia) Qx b (le_n _) Rb) as (c & y & E2 & Rc & Lc & Qy & l2 & El2 & Fl2).
  exists c, y. split; [rewrite (bind_some _ _ _ _ _ E); exact E2|]. split; [exact Rc|]. split; [lia|]. split; [exact Qy|].
  exists (l ++ l2). rewrite El2, El, app_assoc. split; [reflexivity|apply Forall_app; split; assumption].
Qed.
Lemma safe_bind {A B} N (m : M A) (f : A -> M B) R : safe N m -> (forall x N', (N <= N')%nat -> safe_q N' (f x) R) -> safe_q N (bind m f) R.
Proof. intros Hm Hf. eapply safe_bind_q; [exact Hm|]. intros x N' L _. apply Hf. exact L. Qed.
Lemma safe_weaken {A} N (m : M A) Q : safe_q N m Q -> safe N m.
Proof. intros H a L R. destruct (H a L R) as (b & x & E & Rb & Lb & _ & Hl). exists b, x. auto 10. Qed.
Lemma nth_lt {A} (l : list A) h : (h < length l)%nat -> exists x, nth_error l h = Some x.
Proof. intros H. destruct (nth_error l h) eqn:E; [eexists; reflexivity|]. apply nth_error_None in E. lia. Qed.
Lemma safe_read {A} N h (f : tctx -> A) : (h < N)%nat -> safe N (read h f).
Proof.
  intros H a L R. destruct (nth_lt (a_ctx a) h ltac:(lia)) as (x & E). rewrite (read_eq _ _ _ _ E).
  exists a, (f x). split; [reflexivity|]. split; [exact R|]. split; [apply le_n|]. split; [exact I|]. exists []. rewrite app_nil_r. split; [reflexivity|constructor].
Qed.
Lemma roomy_upd a h x : roomy a -> room (x_Profile x) -> roomy (upd a h x).
Proof.
  intros R Hx k y E. cbn in E. rewrite list_set_nth in E. destruct (Nat.eqb h k && _); [injection E as <-; exact Hx|exact (R k y E)].
Qed.
Lemma upd_len a h x : length (a_ctx (upd a h x)) = length (a_ctx a).
Proof. apply list_set_length. Qed.
Lemma safe_upd {A} N h (m : M A) : (h < N)%nat ->
  (forall a x, nth_error (a_ctx a) h = Some x -> room (x_Profile x) -> exists y r, m a = (upd a h y, Some r) /\ room (x_Profile y)) -> safe N m.
Proof.
  intros H Hm a L R. destruct (nth_lt (a_ctx a) h ltac:(lia)) as (x & E). destruct (Hm a x E (R h x E)) as (y & r & Em & Ry).
  exists (upd a h y), r. split; [exact Em|]. split; [apply roomy_upd; assumption|]. rewrite upd_len. split; [apply le_n|]. split; [exact I|].
  exists []. rewrite app_nil_r. split; [reflexivity|constructor].
Qed.
Lemma safe_modify N h f : (h < N)%nat -> (forall x, x_Profile (f x) = x_Profile x) -> safe N (modify h f).
Proof.
  intros H Hf. apply (safe_upd N h); [exact H|]. intros a x E R. exists (f x), tt. split; [apply modify_eq; exact E|]. rewrite Hf. exact R.
Qed.
Lemma safe_send N n k name : safe N (send_text n k name).
Proof.
  intros a L R. rewrite send_text_eq. eexists _, _. split; [reflexivity|]. split; [exact R|]. split; [apply le_n|]. split; [exact I|].
  exists []. rewrite app_nil_r. split; [reflexivity|constructor].
Qed.
Lemma safe_profile_op {A} N h (f : tctx -> option (prof * A)) : (h < N)%nat ->
  (forall x, room (x_Profile x) -> exists p r, f x = Some (p, r) /\ room p) -> safe N (profile_op h f).
Proof.
  intros H Hf. apply (safe_upd N h); [exact H|]. intros a x E R. destruct (Hf x R) as (p & r & Ef & Rp).
  exists (set_Profile p x), r. split; [unfold profile_op; rewrite E, Ef; reflexivity|exact Rp].
Qed.
Lemma good_env_of n x : good n -> good_env (env_of n x).
Proof. intros (G1 & G2). split; assumption. Qed.
Lemma safe_add N n h st : good n -> (h < N)%nat -> safe N (profile_add n h st).
Proof.
  intros G H. apply safe_profile_op; [exact H|]. intros x R. destruct (add_room (env_of n x) st _ (good_env_of n x G) R) as (p & -> & Rp).
  exists p, tt. split; [reflexivity|exact Rp].
Qed.
Lemma safe_push N h st : (h < N)%nat -> safe N (profile_push h st).
Proof. intros H. apply safe_profile_op; [exact H|]. intros x R. eexists _, _. split; [reflexivity|exact R]. Qed.
Lemma safe_pop N n h p st : good n -> (h < N)%nat -> safe N (profile_pop n h p st).
Proof.
  intros G H. apply safe_profile_op; [exact H|]. intros x R. destruct (pop_room (env_of n x) p st _ (good_env_of n x G) R) as (q & -> & Rq).
  exists q, tt. split; [reflexivity|exact Rq].
Qed.
Lemma safe_close N n h ok : good n -> (h < N)%nat -> safe N (profile_close n h ok).
Proof.
  intros G H. apply safe_profile_op; [exact H|]. intros x R. destruct (close_room (env_of n x) ok _ (good_env_of n x G) R) as (q & -> & Rq).
  exists q, tt. split; [reflexivity|exact Rq].
Qed.
Lemma safe_emit N e : not_panic e -> safe N (emit e).
Proof.
  intros H a L R. eexists _, _. split; [reflexivity|]. split; [exact R|]. split; [apply le_n|]. split; [exact I|]. exists [e]. split; [reflexivity|]. constructor; [exact H|constructor].
Qed.
Lemma safe_recovered {A} N (d : A) m Q : safe_q N m Q -> safe_q N (recovered d m) Q.
Proof. intros H a L R. destruct (H a L R) as (b & x & E & Rest). exists b, x. split; [unfold recovered; rewrite E; reflexivity|exact Rest]. Qed.
Lemma safe_get_tctx N c : c <> CNil -> safe_q N (get_tctx c) (fun o L => match o with Some h => (h < L)%nat /\ c = CTrace h | None => True end).
Proof.
  intros H a L R. destruct c as [| |h]; [congruence| |].
  - exists a, None. split; [reflexivity|]. split; [exact R|]. split; [apply le_n|]. split; [exact I|]. exists []. rewrite app_nil_r. split; [reflexivity|constructor].
  - cbn [get_tctx]. eexists _, _. split; [reflexivity|]. split; [exact R|]. split; [apply le_n|]. split; [|exists []; rewrite app_nil_r; split; [reflexivity|constructor]].
    destruct (nth_error (a_ctx a) h) eqn:E; [|exact I]. split; [|reflexivity]. apply nth_error_Some. congruence.
Qed.
Lemma safe_traced {A} N c (d : A) k : (forall h N', (N <= N')%nat -> (h < N')%nat -> c = CTrace h -> safe N' (k h)) -> safe N (traced c d k).
Proof.
  intros H. unfold traced. destruct c as [| |h]; [apply safe_ret|..];
    (eapply safe_bind_q; [apply safe_get_tctx; discriminate|]; intros [g|] N' L HQ; [destruct HQ as (Hg & Ec); apply H; assumption|apply safe_ret]).
Qed.
Lemma safe_for_each {A} N (l : list A) f : (forall x N', (N <= N')%nat -> safe N' (f x)) -> safe N (for_each l f).
Proof.
  intros H. revert N H. induction l as [|x l IH]; intros N H; cbn [for_each]; [apply safe_ret|].
  apply safe_bind; [apply H, le_n|]. intros _ N' L. apply IH. intros y N'' L'. apply H. lia.
Qed.

Ltac safe_tac :=
  repeat first
    [ progress intros
    | apply safe_ret | apply safe_send
    | apply safe_read; lia | apply safe_push; lia
    | apply safe_add; [assumption|lia] | apply safe_pop; [assumption|lia] | apply safe_close; [assumption|lia]
    | apply safe_modify; [lia|intros; reflexivity]
    | apply safe_recovered | apply safe_traced | apply safe_for_each
    | apply safe_bind
    | match goal with |- safe_q _ (match ?x with _ => _ end) _ => destruct x end
    | match goal with |- safe _ (match ?x with _ => _ end) => destruct x end ].

Lemma new_room keep p : 1 <= keep -> new_prof keep = Some p -> room p.
Proof. intros H. unfold new_prof. destruct (Z.ltb_spec keep 0); [discriminate|]. intros [= <-]. unfold room. cbn. lia. Qed.

Lemma safe_start0 N n name addr : good n -> safe_q N (start_service0 n name addr) (fun h L => (h < L)%nat).
Proof.
  intros G a L R. destruct (new_tctx (cf_keep (n_conf n)) (n_key n) (n_now n)) as [x0|] eqn:E.
  2: { unfold new_tctx, new_prof in E. destruct G as (G1 & _). destruct (Z.ltb_spec (cf_keep (n_conf n)) 0); [lia|discriminate]. }
  rewrite (start0_eq _ _ _ _ _ E). cbv zeta. destruct (new_tctx_fields _ _ _ _ E) as (_ & _ & _ & _ & Np & _).
  destruct (add_room (env_of n (new_link n x0)) (goroutine_step n) (x_Profile x0) (good_env_of n _ G) (new_room _ _ (proj1 G) Np)) as (p & -> & Rp).
  eexists _, _. split; [reflexivity|]. cbn [a_ctx a_log]. rewrite app_length. cbn [length]. split.
  - intros h y Ey. cbn [a_ctx] in Ey. destruct (Nat.lt_ge_cases h (length (a_ctx a))) as [H|H].
    + rewrite nth_error_app1 in Ey by exact H. exact (R h y Ey).
    + rewrite nth_error_app2 in Ey by exact H. destruct (h - length (a_ctx a))%nat as [|d]; [|destruct d; discriminate]. injection Ey as <-. exact Rp.
  - split; [lia|]. split; [lia|]. exists []. rewrite app_nil_r. split; [reflexivity|constructor].
Qed.

Lemma safe_start_service N n c name ip : good n -> safe N (start_service n c name ip).
Proof.
  intros G. apply safe_recovered. cbv zeta. eapply safe_bind_q; [apply safe_get_tctx; destruct c; discriminate|].
  intros [h|] N' L HQ; [apply safe_ret|]. eapply safe_bind_q; [apply safe_start0; exact G|]. intros h N2 L2 Hh. cbn beta in Hh. safe_tac.
Qed.
Lemma safe_headers N n r h : good n -> (h < N)%nat -> safe N (profile_http_headers n r h).
Proof. intros G H. unfold profile_http_headers, millis. safe_tac. Qed.
Lemma safe_start_http N n c req : good n -> req <> None -> safe N (start_http_service n c req).
Proof.
  intros G Hr. apply safe_recovered. destruct req as [r|]; [|congruence]. destruct c as [| |h]; [apply safe_ret|..];
    (eapply safe_bind_q; [apply safe_get_tctx; discriminate|]; intros [g|] N' L HQ; [apply safe_ret|];
     eapply safe_bind_q; [apply safe_start0; exact G|]; intros g N2 L2 Hh; cbn beta in Hh;
     repeat (apply safe_bind; [first [apply safe_send | apply safe_modify; [lia|intros; reflexivity] | apply safe_headers; [exact G|lia]]|intros ? ? ?]); apply safe_ret).
Qed.
Lemma safe_inherit N n c p : good n -> (p < N)%nat -> safe N (start_inheritance n c p).
Proof.
  intros G H. apply safe_recovered. apply safe_bind; [apply safe_read; exact H|]. intros xp N1 L1.
  eapply safe_bind_q; [apply safe_start0; exact G|]. intros h N2 L2 Hh. cbn beta in Hh.
  apply safe_bind; [|intros; apply safe_ret]. unfold inherit_tctx. safe_tac.
Qed.
Lemma safe_child N n c name : good n -> safe N (start_child n c name).
Proof.
  intros G. unfold start_child. apply safe_traced. intros p N1 L1 Hp Ec. apply safe_bind; [apply safe_read; exact Hp|]. intros ip N2 L2.
  eapply safe_bind_q; [apply safe_start0; exact G|]. intros h N3 L3 Hh. cbn beta in Hh. unfold millis. safe_tac.
Qed.
Lemma safe_go N n c name : good n -> safe N (go_with_trace n c name).
Proof. intros G. apply safe_recovered. apply safe_bind; [apply safe_child; exact G|]. intros; apply safe_ret. Qed.

Lemma panic_meter h e b : not_panic (EvMeter h e b). Proof. discriminate. Qed.
Lemma panic_xlog h p : not_panic (EvXlog h p). Proof. discriminate. Qed.
Lemma panic_stuck l : not_panic (EvAlert l (of_string "STUCK_SERVICE")). Proof. intros H. injection H. discriminate. Qed.

Lemma safe_end_tctx N n h : good n -> (h < N)%nat -> safe N (end_tctx n h).
Proof.
  intros G H a L R. destruct (nth_lt (a_ctx a) h ltac:(lia)) as (x & E). destruct (x_Closed x) eqn:C.
  - rewrite (end_closed _ _ _ _ E C). exists a, tt. split; [reflexivity|]. split; [exact R|]. split; [apply le_n|]. split; [exact I|]. exists []. rewrite app_nil_r. split; [reflexivity|constructor].
  - rewrite (end_open _ _ _ _ E C). cbv zeta.
    destruct (close_room (env_of n (closed_ctx x)) (discard_of n a x =? DISCARD_NONE) (x_Profile x) (good_env_of n _ G) (R h x E)) as (p & -> & Rp).
    eexists _, _. split; [reflexivity|]. split; [|split; [|split; [exact I|]]].
    + intros k y Ey. cbn [end_state a_ctx] in Ey. rewrite list_set_nth in Ey. destruct (Nat.eqb h k && _); [injection Ey as <-; exact Rp|exact (R k y Ey)].
    + cbn [end_state a_ctx]. rewrite list_set_length. apply le_n.
    + cbn [end_state a_log]. eexists. split; [reflexivity|]. unfold end_events. constructor; [apply panic_meter|].
      destruct (sends x _); [|constructor]. constructor; [apply panic_xlog|constructor].
Qed.
Lemma safe_end_any N n c : good n -> safe N (end_any n c).
Proof.
  intros G. unfold end_any. apply safe_traced. intros h N' L H _. apply safe_bind; [apply safe_read; exact H|]. intros [|] N2 L2; [apply safe_ret|].
  apply safe_end_tctx; [exact G|lia].
Qed.
Lemma safe_end_http N n c s : good n -> safe N (end_http_service n c s).
Proof.
  intros G. apply safe_recovered. destruct s as [code|]; [|apply safe_end_any; exact G]. apply safe_traced. intros h N' L H _.
  apply safe_bind; [apply safe_read; exact H|]. intros [|] N2 L2; [apply safe_ret|]. apply safe_bind; [apply safe_modify; [lia|reflexivity]|].
  intros _ N3 L3. apply safe_end_any. exact G.
Qed.
Lemma safe_end_stuck N n h : good n -> (h < N)%nat -> safe N (end_stuck n h).
Proof.
  intros G H. apply safe_recovered. destruct (cf_stuck_remove (n_conf n)); [|apply safe_ret]. unfold millis.
  generalize (of_string "This stuck service currently may running, not finished!"). intros msg.
  apply safe_bind; [apply safe_read; exact H|intros st N1 L1]. apply safe_bind; [apply safe_send|intros hs N2 L2].
  apply safe_bind; [apply safe_add; [exact G|lia]|intros _ N3 L3]. apply safe_bind; [apply safe_read; lia|intros er N4 L4].
  apply safe_bind; [|intros _ N5 L5; apply safe_end_tctx; [exact G|lia]].
  destruct (er =? 0); [|apply safe_ret]. apply safe_bind; [apply safe_send|]. intros e N5 L5. apply safe_modify; [lia|reflexivity].
Qed.
Lemma safe_active_loop n vs : good n -> forall N count c0 c1 c2, Forall (fun h => (h < N)%nat) vs -> safe N (active_loop n count vs c0 c1 c2).
Proof.
  intros G. induction vs as [|h vs IH]; intros N count c0 c1 c2 F; cbn [active_loop]; [apply safe_ret|].
  inversion_clear F as [|? ? Hh Fv]. destruct (2000 <? count + 1); [apply safe_ret|].
  apply safe_bind; [apply safe_read; exact Hh|intros el N1 L1].
  destruct (if el <=? cf_yellow (n_conf n) then (c0 + 1, c1, c2) else if el <=? cf_red (n_conf n) then (c0, c1 + 1, c2) else (c0, c1, c2 + 1)) as [[d0 d1] d2].
  apply safe_bind.
  - destruct (cf_stuck_ms (n_conf n) <? el); [|apply safe_ret]. apply safe_bind; [apply safe_end_stuck; [exact G|lia]|]. intros _ N2 L2. apply safe_emit, panic_stuck.
  - intros _ N2 L2. apply IH. eapply Forall_impl; [|exact Fv]. intros k Hk. cbn beta in *. lia.
Qed.

(** all entries of the table are existing contexts *)
Definition valid_table (a : agent) : Prop := wf (a_active a) /\
  forall t v, In (t, v) (view (a_active a)) -> exists h, v = Some (Z.of_nat h) /\ (h < length (a_ctx a))%nat.

Lemma valid_handles a it : valid_table a -> Permutation it (table (a_active a)) ->
  Forall (fun h => (h < length (a_ctx a))%nat) (handles (lra_values (a_active a) it)).
Proof.
  intros (W & V) Hp. apply Forall_forall. intros h H. unfold handles in H. apply in_map_iff in H. destruct H as (v & E & H).
  unfold lra_values, non_nil in H. apply filter_In in H. destruct H as (H & Hn). apply in_map_iff in H. destruct H as ((t & v') & Ev & H).
  cbn in Ev. subst v'. pose proof (Permutation_in _ (entries_of_perm _ _ W Hp) H) as Hv. destruct (V t v Hv) as (g & -> & Hg).
  rewrite Nat2Z.id in E. subst h. exact Hg.
Qed.
Lemma valid_minor N a b : minor N a b -> valid_table a -> valid_table b.
Proof. intros H (W & V). unfold valid_table. rewrite (mn_active _ _ _ H), (mn_len _ _ _ H). split; assumption. Qed.
Lemma valid_closes N z a b : closes N z a b -> valid_table a -> valid_table b.
Proof.
  intros [(h & x & x' & _ & _ & Ec & _ & _ & _ & _ & Ea & _)] (W & V). destruct (remove_view (a_active a) (x_Txid x) W) as (W' & _ & Vw & _).
  unfold valid_table. rewrite Ea, Ec, list_set_length. split; [exact W'|]. intros t v H. apply (V t v). rewrite Vw, adel_filter in H. apply filter_In in H. apply H.
Qed.
Lemma vset_in k v m t u : In (t, u) (vset k v m) -> In (t, u) m \/ u = v.
Proof.
  induction m as [|(k' & v') m IH]; cbn [vset]; [intros []|]. destruct (k =? k').
  - intros [H|H]; [right; congruence|left; right; exact H].
  - intros [H|H]; [left; left; exact H|]. destruct (IH H) as [H'|H']; [left; right; exact H'|right; exact H'].
Qed.
Lemma valid_news a b : news a b -> valid_table a -> valid_table b.
Proof.
  intros [(x & Ex & _ & Ea) _] (W & V). unfold valid_table. rewrite Ea, Ex, app_length. cbn [length]. set (v0 := Some (Z.of_nat (length (a_ctx a)))).
  assert (exists h, v0 = Some (Z.of_nat h) /\ (h < length (a_ctx a) + 1)%nat) as Hv0 by (exists (length (a_ctx a)); split; [reflexivity|lia]).
  assert (forall t v, In (t, v) (view (a_active a)) -> exists h, v = Some (Z.of_nat h) /\ (h < length (a_ctx a) + 1)%nat) as V'.
  { intros t v H. destruct (V t v H) as (h & -> & L). exists h. split; [reflexivity|lia]. }
  destruct (alook (x_Txid x) (view (a_active a))) eqn:Al.
  - destruct (add_present (a_active a) (x_Txid x) v0 W) as (W' & Vw & _); [congruence|]. split; [exact W'|]. intros t v H. rewrite Vw in H.
    apply vset_in in H. destruct H as [H| ->]; [exact (V' t v H)|exact Hv0].
  - destruct (add_absent (a_active a) (x_Txid x) v0 W Al) as (W' & _ & Vw). split; [exact W'|].
    assert (forall t v, In (t, v) ((x_Txid x, v0) :: view (a_active a)) -> exists h, v = Some (Z.of_nat h) /\ (h < length (a_ctx a) + 1)%nat) as V2.
    { intros t v [H|H]; [injection H as <- <-; exact Hv0|exact (V' t v H)]. }
    destruct (negb _ && _).
    + destruct Vw as (l & o & El & Ev & _). intros t v H. apply (V2 t v). rewrite El. apply in_or_app. left. rewrite <- Ev. exact H.
    + destruct Vw as (Ev & _). intros t v H. rewrite Ev in H. exact (V2 t v H).
Qed.
Lemma valid_effect N z a b : effect N z a b -> valid_table a -> valid_table b.
Proof.
  intros [[H|(b1 & c1 & H1 & H2 & H3)]|H] V.
  - eapply valid_minor; eassumption.
  - eapply valid_minor; [exact H3|]. eapply valid_news; [exact H2|]. eapply valid_minor; eassumption.
  - revert V. induction H as [a|a b c _ IH H|a b c _ IH H]; intros V; [exact V|eapply valid_minor; eauto|eapply valid_closes; eauto].
Qed.
Lemma valid_init c : valid_table (a_init c).
Proof. split; [apply wf_new|]. intros t v []. Qed.

Lemma safe_pmessage N n c l m e p : good n -> safe N (add_pmessage_step n c l m e p).
Proof. intros G. unfold add_pmessage_step, millis. safe_tac. Qed.
Lemma safe_start_method0 N n h f m p : good n -> (h < N)%nat -> safe N (start_method0 n h f m p).
Proof. intros G H. unfold start_method0, add_params, millis. safe_tac. Qed.
Lemma safe_start_api0 N n h m ad : (h < N)%nat -> safe N (start_api_call0 n h m ad).
Proof. intros H. unfold start_api_call0, millis. safe_tac. Qed.

Lemma safe_at {A B} (f : A -> B) (m : M A) a : safe (length (a_ctx a)) m -> roomy a ->
  exists a' r, fmap f m a = (a', Some r) /\ roomy a' /\ exists l, a_log a' = a_log a ++ l /\ Forall not_panic l.
Proof.
  intros H R. destruct (H a (le_n _) R) as (b & x & E & Rb & _ & _ & Hl). exists b, (f x).
  split; [unfold fmap; rewrite (bind_some _ _ _ _ _ E); reflexivity|]. auto.
Qed.

Lemma safe_call n k a : good n -> sensible a (n, k) -> valid_table a -> roomy a ->
  exists a' r, do_call n k a = (a', Some r) /\ roomy a' /\ exists l, a_log a' = a_log a ++ l /\ Forall not_panic l.
Proof.
  intros G Hs V R. unfold sensible in Hs. destruct k; cbn [do_call fst snd] in *;
    [..| change (get_active_count n) with (fun b => active_loop n 0 (handles (lra_values (a_active b) (n_order n))) 0 0 0 b) | | ].
  25: { match goal with |- context [fmap ?f _ a] => 
          change (fmap f (fun b => active_loop n 0 (handles (lra_values (a_active b) (n_order n))) 0 0 0 b) a)
            with (fmap f (active_loop n 0 (handles (lra_values (a_active a) (n_order n))) 0 0 0) a) end.
        apply safe_at; [|exact R]. apply safe_active_loop; [exact G|]. apply valid_handles; assumption. }
  all: try (apply safe_at; [|exact R]).
  - apply safe_start_service; exact G.
  - apply safe_start_http; assumption.
  - apply safe_inherit; assumption.
  - apply safe_go; exact G.
  - unfold go_begin. destruct c; [apply safe_ret..|]. apply safe_modify; [exact Hs|reflexivity].
  - apply safe_recovered, safe_end_any; exact G.
  - apply safe_recovered, safe_end_any; exact G.
  - apply safe_end_http; exact G.
  - unfold is_stream. safe_tac.
  - unfold set_as_stream. safe_tac.
  - unfold mark_as_error. apply safe_recovered, safe_traced. intros h N' L H _. apply safe_bind; [apply safe_read; exact H|intros er N1 L1].
    apply safe_bind; [|intros; apply safe_pmessage; exact G]. safe_tac.
  - unfold mark_as_error_forcibly. safe_tac.
  - unfold set_service_name. safe_tac.
  - unfold add_step. destruct st as [st|]; [|congruence]. safe_tac.
  - unfold add_message_step, millis. safe_tac.
  - unfold add_hashed_message_step, millis. safe_tac.
  - apply safe_pmessage; exact G.
  - apply safe_recovered, safe_traced. intros. apply safe_start_method0; assumption.
  - apply safe_recovered, safe_traced. intros. apply safe_start_method0; assumption.
  - unfold end_method, read_step, millis. safe_tac.
  - apply safe_recovered, safe_traced. intros. apply safe_bind; [apply safe_start_api0; assumption|intros; apply safe_ret].
  - apply safe_recovered, safe_traced. intros h N' L H _. apply safe_bind; [apply safe_start_api0; assumption|]. intros p N1 L1. safe_tac.
  - unfold end_api_call, read_step, millis. apply safe_recovered. destruct ptr as [p|]; [|apply safe_ret]. apply safe_traced. intros h N' L H _.
    apply safe_bind; [apply safe_read; exact H|]. intros [[]|] N1 L1; try apply safe_ret.
    apply safe_bind; [apply safe_read; lia|intros now N2 L2]. cbv zeta. apply safe_bind; [apply safe_modify; [lia|reflexivity]|intros _ N3 L3].
    apply safe_bind; [|intros; apply safe_pop; [exact G|lia]]. destruct err as [msg|]; [|apply safe_ret].
    apply safe_bind; [apply safe_send|intros e N4 L4]. apply safe_bind; [apply safe_modify; [lia|]|intros; apply safe_ret].
    intros x. destruct (x_Error x =? 0); reflexivity.
  - unfold set_user. safe_tac.
  - eexists _, _. split; [reflexivity|]. split; [exact R|]. exists []. rewrite app_nil_r. split; [reflexivity|constructor].
  - eexists _, _. split; [reflexivity|]. split; [exact R|]. exists []. rewrite app_nil_r. split; [reflexivity|constructor].
Qed.
