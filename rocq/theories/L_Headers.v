(** Every call adds profile packs at the end of those already sent, with the header of the call's time and the service's transaction. *)
From Verif Require Import GoInt M_Util M_Hash M_Packs M_Steps M_Cache M_Text M_Profile M_Sampler M_Trace L_Trace S_Trace L_TraceRel P_Trace P_Trace2 P_Counts.
Import M_Trace.

Definition header_of (n : env) (pk : profile_pack) : Prop := pp_Time pk = 0 /\ pp_ObjHash pk = cf_obj (n_conf n).
Definition sends_on (n : env) (a a' : agent) : Prop :=
  (forall h, exists new, packs_of h a' = packs_of h a ++ new /\ Forall (fun pk => header_of n pk /\ txid_of a' h = Some (pp_Txid pk)) new) /\
  (forall h t, txid_of a h = Some t -> txid_of a' h = Some t).

Lemma so_refl n a : sends_on n a a.
Proof. split; [intros h; exists []; rewrite app_nil_r; split; [reflexivity|constructor]|auto]. Qed.
Lemma so_trans n a b c : sends_on n a b -> sends_on n b c -> sends_on n a c.
Proof.
  intros (A1 & A2) (B1 & B2). split; [|auto]. intros h. destruct (A1 h) as (x & Ex & Fx). destruct (B1 h) as (y & Ey & Fy).
  exists (x ++ y). split; [rewrite Ey, Ex, app_assoc; reflexivity|]. apply Forall_app. split; [|exact Fy]. eapply Forall_impl; [|exact Fx]. cbv beta. intros pk (H1 & H2). auto.
Qed.
Lemma so_ctx n a a' : a_ctx a' = a_ctx a -> sends_on n a a'.
Proof. intros E. unfold sends_on, packs_of, txid_of. rewrite E. apply (so_refl n a). Qed.
(** one context is replaced *)
Lemma so_upd n a a' h x x' new : nth_error (a_ctx a) h = Some x -> a_ctx a' = list_set (a_ctx a) h x' -> x_Txid x' = x_Txid x ->
  p_sent (x_Profile x') = p_sent (x_Profile x) ++ new -> Forall (fun pk => header_of n pk /\ pp_Txid pk = x_Txid x) new -> sends_on n a a'.
Proof.
  intros E Ec Et Ep F. assert (h < length (a_ctx a))%nat as Hh by (apply nth_error_Some; congruence).
  assert (nth_error (a_ctx a') h = Some x') as E' by (rewrite Ec; apply list_set_same; exact Hh).
  assert (forall i, i <> h -> nth_error (a_ctx a') i = nth_error (a_ctx a) i) as Eo by (intros i Hi; rewrite Ec; apply list_set_other; congruence).
  split.
  - intros i. destruct (Nat.eq_dec i h) as [-> | Hi].
    + exists new. unfold packs_of, txid_of. rewrite E, E'. split; [exact Ep|]. cbn [option_map]. rewrite Et. eapply Forall_impl; [|exact F]. cbv beta. intros pk (H1 & H2). split; [exact H1|congruence].
    + exists []. unfold packs_of, txid_of. rewrite (Eo i Hi), app_nil_r. split; [reflexivity|constructor].
  - intros i t. unfold txid_of. destruct (Nat.eq_dec i h) as [-> | Hi]; [rewrite E, E'; cbn [option_map]; rewrite Et; auto|rewrite (Eo i Hi); auto].
Qed.

Definition so (n : env) {A} (m : M A) : Prop := forall a, sends_on n a (fst (m a)).
Lemma so_ret n {A} (x : A) : so n (ret x). Proof. intros a. apply so_refl. Qed.
Lemma so_panic n {A} : so n (@panic A). Proof. intros a. apply so_refl. Qed.
Lemma so_bind n {A B} (m : M A) (f : A -> M B) : so n m -> (forall x, so n (f x)) -> so n (bind m f).
Proof.
  intros Hm Hf a. unfold bind. specialize (Hm a). destruct (m a) as [a1 [x|]]; [|exact Hm]. cbn [fst] in *. eapply so_trans; [exact Hm|]. exact (Hf x a1).
Qed.
Lemma so_recovered n {A} (d : A) m : so n m -> so n (recovered d m).
Proof.
  intros H a. unfold recovered. specialize (H a). destruct (m a) as [a1 [x|]]; [exact H|]. cbn [fst] in *. eapply so_trans; [exact H|]. apply so_ctx. reflexivity.
Qed.
Lemma so_state n {A} (m : M A) : (forall a, a_ctx (fst (m a)) = a_ctx a) -> so n m.
Proof. intros H a. apply so_ctx, H. Qed.
Lemma so_send n k name m : so m (send_text n k name).
Proof. apply so_state. intros a. unfold send_text. destruct (text_send _ _ _ _) as [[t h]|]; reflexivity. Qed.
Lemma so_read n {A} h (f : tctx -> A) : so n (read h f).
Proof. apply so_state. intros a. rewrite read_state. reflexivity. Qed.
Lemma so_get_tctx n c : so n (get_tctx c).
Proof. apply so_state. intros a. rewrite get_tctx_state. reflexivity. Qed.
Lemma so_traced n {A} c (d : A) k : (forall h, so n (k h)) -> so n (traced c d k).
Proof.
  intros H. unfold traced. destruct c; [apply so_ret| |]; (apply so_bind; [apply so_get_tctx|intros [g|]; [apply H|apply so_ret]]).
Qed.
Lemma so_emit n e : so n (emit e). Proof. apply so_state. reflexivity. Qed.
Lemma so_for_each n {A} (l : list A) f : (forall x, so n (f x)) -> so n (for_each l f).
Proof. intros H. induction l as [|x l IH]; cbn [for_each]; [apply so_ret|]. apply so_bind; [apply H|intros _; exact IH]. Qed.
Lemma so_modify n h f : (forall x, x_Txid (f x) = x_Txid x /\ x_Profile (f x) = x_Profile x) -> so n (modify h f).
Proof.
  intros F a. unfold modify. destruct (nth_error (a_ctx a) h) as [x|] eqn:E; cbn [fst]; [|apply so_refl].
  destruct (F x) as (F1 & F2). eapply so_upd with (x' := f x) (new := []); [exact E|reflexivity|exact F1| |constructor]. rewrite F2, app_nil_r. reflexivity.
Qed.
Definition heads (n : env) (x : tctx) (p : prof) : Prop :=
  exists new, p_sent p = p_sent (x_Profile x) ++ new /\ Forall (fun pk => header_of n pk /\ pp_Txid pk = x_Txid x) new.
Lemma so_profile n {A} h (f : tctx -> option (prof * A)) : (forall x p r, f x = Some (p, r) -> heads n x p) -> so n (profile_op h f).
Proof.
  intros F a. unfold profile_op. destruct (nth_error (a_ctx a) h) as [x|] eqn:E; cbn [fst]; [|apply so_refl].
  destruct (f x) as [[p r]|] eqn:Ef; cbn [fst]; [|apply so_refl]. destruct (F _ _ _ Ef) as (new & E1 & E2).
  eapply so_upd with (x' := set_Profile p x) (new := new); [exact E|reflexivity|reflexivity|exact E1|exact E2].
Qed.

Lemma fold_heads n x e gs : forall p0, e_obj e = cf_obj (n_conf n) -> e_txid e = x_Txid x ->
  exists new, p_sent (fold_left (fun p g => send_profile0 e g p) gs p0) = p_sent p0 ++ new /\ Forall (fun pk => header_of n pk /\ pp_Txid pk = x_Txid x) new.
Proof.
  induction gs as [|g gs IH]; intros p0 Ho Ht; [exists []; rewrite app_nil_r; split; [reflexivity|constructor]|]. cbn [fold_left].
  destruct (IH (send_profile0 e g p0) Ho Ht) as (new & En & Fn). destruct g as [|j g]; [exists new; split; [exact En|exact Fn]|].
  cbn [send_profile0 p_sent] in En. rewrite <- app_assoc in En. eexists. split; [exact En|]. constructor; [|exact Fn]. split; [split; [reflexivity|exact Ho]|exact Ht].
Qed.
Lemma send_heads n x e l p0 p : e_obj e = cf_obj (n_conf n) -> e_txid e = x_Txid x -> p_sent p0 = p_sent (x_Profile x) -> send_profile e l p0 = Some p -> heads n x p.
Proof.
  intros Ho Ht E0. unfold send_profile. destruct (send_groups _ _) as [gs|]; [|discriminate]. intros H. injection H as <-. unfold heads. rewrite <- E0. apply fold_heads; assumption.
Qed.
Lemma process_heads n x e i p0 p : e_obj e = cf_obj (n_conf n) -> e_txid e = x_Txid x -> p_sent p0 = p_sent (x_Profile x) -> process e i p0 = Some p -> heads n x p.
Proof.
  intros Ho Ht E0. unfold process. destruct (p_len p0 <=? zlen (p_buf p0)); [discriminate|]. cbv zeta. destruct (p_len p0 <=? _).
  - destruct (e_keep e <? 0); [discriminate|]. intros H. eapply send_heads; [exact Ho|exact Ht| |exact H]. exact E0.
  - intros H. injection H as <-. exists []. rewrite app_nil_r. split; [exact E0|constructor].
Qed.
Lemma so_add n h st : so n (profile_add n h st).
Proof.
  apply so_profile. intros x p r E. unfold unit_op in E. destruct (add (env_of n x) st (x_Profile x)) as [p'|] eqn:Ea; [|discriminate]. injection E as <- _.
  unfold add in Ea. eapply process_heads; [| | |exact Ea]; reflexivity.
Qed.
Lemma so_push n h st : so n (profile_push h st).
Proof. apply so_profile. intros x p r E. injection E as <- _. exists []. rewrite app_nil_r. split; [reflexivity|constructor]. Qed.
Lemma so_pop n h i st : so n (profile_pop n h i st).
Proof.
  apply so_profile. intros x p r E. unfold unit_op in E. destruct (pop (env_of n x) i st (x_Profile x)) as [p'|] eqn:Ea; [|discriminate]. injection E as <- _.
  unfold pop in Ea. destruct (deref _ i); [eapply process_heads; [| | |exact Ea]; reflexivity|]. injection Ea as <-. exists []. rewrite app_nil_r. split; [reflexivity|constructor].
Qed.
Lemma so_end n h : so n (end_tctx n h).
Proof.
  intros a. destruct (nth_error (a_ctx a) h) as [x|] eqn:E.
  2:{ unfold end_tctx, bind, read. rewrite E. apply so_refl. }
  destruct (x_Closed x) eqn:C; [rewrite (end_closed _ _ _ _ E C); apply so_refl|].
  rewrite (end_open _ _ _ _ E C). cbv zeta. set (d := discard_of n a x).
  assert (forall p ev, heads n x p -> sends_on n a (end_state n h x p ev a)) as Hp.
  { intros p ev (new & E1 & E2). eapply so_upd with (x' := set_Profile p (closed_ctx x)) (new := new); [exact E|reflexivity|reflexivity|exact E1|exact E2]. }
  destruct (close _ _ _) as [p|] eqn:Ec; cbn [fst]; apply Hp.
  - assert (forall p1, Some (x_Profile x) = Some p1 -> heads n x p1) as Same by (intros p1 H; injection H as <-; exists []; rewrite app_nil_r; split; [reflexivity|constructor]).
    unfold close in Ec. destruct (p_buf (x_Profile x)); [auto|]. destruct (d =? DISCARD_NONE); [|auto]. eapply send_heads; [| | |exact Ec]; reflexivity.
  - exists []. rewrite app_nil_r. split; [reflexivity|constructor].
Qed.
Lemma so_alloc n : so n (alloc n).
Proof.
  intros a. unfold alloc. destruct (new_tctx _ _ _) as [x|] eqn:E; cbn [fst]; [|apply so_refl].
  assert (p_sent (x_Profile x) = []) as P0.
  { unfold new_tctx, new_prof in E. destruct (cf_keep (n_conf n) <? 0); [discriminate|]. injection E as <-. reflexivity. }
  split.
  - intros h. exists []. split; [|constructor]. rewrite app_nil_r. unfold packs_of. cbn [set_ctxs a_ctx].
    destruct (Nat.lt_ge_cases h (length (a_ctx a))) as [L|L]; [rewrite nth_error_app1 by exact L; reflexivity|].
    rewrite (proj2 (nth_error_None (a_ctx a) h) L). destruct (nth_error (a_ctx a ++ [x]) h) as [y|] eqn:Ey; [|reflexivity].
    rewrite nth_error_app2 in Ey by exact L. destruct (h - length (a_ctx a))%nat as [|j]; [injection Ey as <-; exact P0|destruct j; discriminate Ey].
  - intros h t. unfold txid_of. cbn [set_ctxs a_ctx]. intros H. destruct (nth_error (a_ctx a) h) as [y|] eqn:Ey; [|discriminate H].
    rewrite nth_error_app1 by (apply nth_error_Some; congruence). rewrite Ey. exact H.
Qed.
Lemma so_fmap n {A B} (f : A -> B) m : so n m -> so n (fmap f m).
Proof. intros H. unfold fmap. apply so_bind; [exact H|intros; apply so_ret]. Qed.

Ltac so1 := lazymatch goal with
  | |- so _ (ret _) => apply so_ret
  | |- so _ panic => apply so_panic
  | |- so _ (end_tctx _ _) => apply so_end
  | |- so _ (get_tctx _) => apply so_get_tctx
  | |- so _ (alloc _) => apply so_alloc
  | |- so _ (recovered _ _) => apply so_recovered
  | |- so _ (traced _ _ _) => apply so_traced; intros ?
  | |- so _ (for_each _ _) => apply so_for_each; intros ?
  | |- so _ (emit _) => apply so_emit
  | |- so _ (send_text _ _ _) => apply so_send
  | |- so _ (profile_add _ _ _) => apply so_add
  | |- so _ (profile_push _ _) => apply so_push
  | |- so _ (profile_pop _ _ _ _) => apply so_pop
  | |- so _ (bind _ _) => apply so_bind; [|intros ?]
  | |- so _ (read _ _) => apply so_read
  | |- so _ (modify _ _) => apply so_modify; intros ?; try (split; reflexivity)
  | |- so _ (if ?b then _ else _) => destruct b
  | |- so _ (match ?o with _ => _ end) => destruct o
  | |- so _ (fun _ => _) => apply so_state; intros ?; reflexivity end.
Ltac so_tac := unfold millis, tm_start, tm_end; repeat so1.

Lemma so_start0 n name addr : so n (start_service0 n name addr).
Proof. unfold start_service0. so_tac. Qed.
Lemma so_pmessage n c l m e p : so n (add_pmessage_step n c l m e p).
Proof. unfold add_pmessage_step. so_tac. Qed.
Lemma so_stuck n h : so n (end_stuck n h).
Proof. unfold end_stuck. so_tac. Qed.
Lemma so_inherit n h ph : so n (inherit_tctx n h ph).
Proof. unfold inherit_tctx. so_tac. Qed.
Lemma so_child n c name : so n (start_child n c name).
Proof. unfold start_child, millis. repeat (lazymatch goal with |- so _ (start_service0 _ _ _) => apply so_start0 | |- so _ (inherit_tctx _ _ _) => apply so_inherit | _ => so1 end). Qed.
Lemma so_headers n r h : so n (profile_http_headers n r h).
Proof. unfold profile_http_headers. so_tac. Qed.
Lemma so_method0 n h f m ps : so n (start_method0 n h f m ps).
Proof. unfold start_method0, add_params. so_tac. Qed.
Lemma so_active n vs : forall c c0 c1 c2, so n (active_loop n c vs c0 c1 c2).
Proof.
  induction vs as [|h vs IH]; intros c c0 c1 c2; cbn [active_loop]; [apply so_ret|]. destruct (2000 <? c + 1); [apply so_ret|].
  apply so_bind; [so_tac|]. intros el. destruct (if el <=? _ then _ else _) as [[d0 d1] d2]. apply so_bind; [|intros; apply IH].
  destruct (_ <? el); [|apply so_ret]. apply so_bind; [apply so_stuck|intros; so_tac].
Qed.

Ltac so2 := lazymatch goal with
  | |- so _ (start_service0 _ _ _) => apply so_start0
  | |- so _ (add_pmessage_step _ _ _ _ _ _) => apply so_pmessage
  | |- so _ (inherit_tctx _ _ _) => apply so_inherit
  | |- so _ (start_child _ _ _) => apply so_child
  | |- so _ (profile_http_headers _ _ _) => apply so_headers
  | |- so _ (start_method0 _ _ _ _ _) => apply so_method0
  | |- so _ (modify _ _) => apply so_modify; let x := fresh in intros x; try (split; reflexivity); destruct (x_Error x =? 0); split; reflexivity
  | _ => so1 end.
Lemma so_any n c : so n (end_any n c).
Proof. unfold end_any. so_tac. Qed.
Lemma so_add_given n h st : so n (profile_op h (fun x => unit_op (add (env_of n x) st (x_Profile x)))).
Proof. exact (so_add n h st). Qed.

Lemma so_call n k : so n (do_call n k).
Proof.
  destruct k; cbn [do_call]; try (apply so_fmap).
  - unfold start_service. repeat so2.
  - unfold start_http_service. repeat so2.
  - unfold start_inheritance. repeat so2.
  - unfold go_with_trace. repeat so2.
  - unfold go_begin. repeat so2.
  - unfold end_service. apply so_recovered, so_any.
  - unfold end_service. apply so_recovered, so_any.
  - unfold end_http_service. repeat (lazymatch goal with |- so _ (end_any _ _) => apply so_any | _ => so2 end).
  - unfold is_stream. repeat so2.
  - unfold set_as_stream. repeat so2.
  - unfold mark_as_error. repeat so2.
  - unfold mark_as_error_forcibly. repeat so2.
  - unfold set_service_name. repeat so2.
  - unfold add_step. repeat so2.
  - unfold add_message_step, millis. repeat so2.
  - unfold add_hashed_message_step, millis. repeat so2.
  - apply so_pmessage.
  - unfold start_method. repeat so2.
  - unfold start_custom_method. repeat so2.
  - unfold end_method, read_step, millis. repeat so2.
  - unfold start_api_call, start_api_call0, millis. repeat so2.
  - unfold start_api_call_prop, start_api_call0, millis. repeat so2.
  - unfold end_api_call, read_step, millis. cbv zeta. repeat so2.
  - unfold set_user. repeat so2.
  - unfold get_active_count. intros a. apply so_active.
  - apply so_state. reflexivity.
  - apply so_state. reflexivity.
Qed.
