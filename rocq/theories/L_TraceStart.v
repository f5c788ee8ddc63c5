(** Starting services: exact results, and the links between a service and those it starts. *)
From Verif Require Import GoInt M_Util M_Hash M_StrMatch M_Packs M_Steps M_Cache L_Cache M_Text M_Sampler M_Profile L_Profile S_Profile M_Trace L_Trace L_TraceRel S_Trace L_TraceInv.
From Coq Require Import ZifyBool Permutation Relation_Operators.

Definition goroutine_step (n : env) : step := message_step (of_string "goroutine:" ++ format_int 10 (n_goid n)) 0.
Definition new_link (n : env) (x0 : tctx) : tctx := set_Goid (n_goid n) (set_Gxid (x_Txid x0) x0).
Definition new_named (n : env) (name addr : gostring) (p : prof) (x0 : tctx) : tctx :=
  set_RemoteIp (normalize_ip addr) (set_ServiceHash (text_hash name) (set_ServiceName name (set_Profile p (new_link n x0)))).

Lemma set_snoc {A} (l : list A) x y : list_set (l ++ [x]) (length l) y = l ++ [y].
Proof. induction l as [|z l IH]; [reflexivity|]. cbn [app length list_set]. rewrite IH. reflexivity. Qed.

Lemma start0_eq n name addr a x0 : new_tctx (cf_keep (n_conf n)) (n_key n) (n_now n) = Some x0 ->
  start_service0 n name addr a =
  let h := length (a_ctx a) in
  let act := fst (lra_add (a_active a) (x_Txid x0) (Some (Z.of_nat h))) in
  match add (env_of n (new_link n x0)) (goroutine_step n) (x_Profile x0) with
  | Some p => (mkA (after_send n KService name (a_text a)) (a_ctx a ++ [new_named n name addr p x0]) act (a_sampler a) (a_log a), Some h)
  | None => (mkA (a_text a) (a_ctx a ++ [new_link n x0]) act (a_sampler a) (a_log a), None)
  end.
Proof.
  intros E0. cbv zeta. unfold start_service0. set (h := length (a_ctx a)).
  assert (forall t act (x : tctx) (f : tctx -> tctx), modify h f (mkA t (a_ctx a ++ [x]) act (a_sampler a) (a_log a)) =
    (mkA t (a_ctx a ++ [f x]) act (a_sampler a) (a_log a), Some tt)) as Hm.
  { intros t act x f. unfold modify. cbn [a_ctx]. unfold h. rewrite nth_snoc. unfold set_ctxs. cbn [a_text a_ctx a_active a_sampler a_log].
    rewrite set_snoc. reflexivity. }
  erewrite bind_some; [|unfold alloc; rewrite E0; reflexivity]. fold h.
  unfold tm_start. rewrite bind_assoc. erewrite bind_some; [|unfold read, set_ctxs; cbn [a_ctx]; unfold h; rewrite nth_snoc; reflexivity].
  erewrite bind_some; [|reflexivity]. unfold set_active, set_ctxs. cbn [a_text a_ctx a_active a_sampler a_log].
  rewrite (bind_some _ _ _ _ _ (Hm _ _ _ _)), (bind_some _ _ _ _ _ (Hm _ _ _ _)). fold (new_link n x0).
  unfold profile_add at 1, profile_op. unfold bind at 1. cbn [a_ctx]. unfold h at 1. rewrite nth_snoc.
  change (x_Profile (new_link n x0)) with (x_Profile x0). fold (goroutine_step n).
  destruct (add (env_of n (new_link n x0)) (goroutine_step n) (x_Profile x0)) as [p|]; cbn [unit_op option_map]; [|reflexivity].
  unfold set_ctxs. cbn [a_text a_ctx a_active a_sampler a_log]. replace (list_set (a_ctx a ++ [new_link n x0]) h (set_Profile p (new_link n x0))) with (a_ctx a ++ [set_Profile p (new_link n x0)]) by (unfold h; rewrite set_snoc; reflexivity).
  rewrite (bind_some _ _ _ _ _ (Hm _ _ _ _)), (bind_some _ _ _ _ _ (send_text_eq _ _ _ _)). unfold set_text. cbn [a_text a_ctx a_active a_sampler a_log].
  rewrite (bind_some _ _ _ _ _ (Hm _ _ _ _)), (bind_some _ _ _ _ _ (Hm _ _ _ _)). reflexivity.
Qed.

Lemma start0_none n name addr a : new_tctx (cf_keep (n_conf n)) (n_key n) (n_now n) = None -> start_service0 n name addr a = (a, None).
Proof. intros E. unfold start_service0, alloc, bind. rewrite E. reflexivity. Qed.

(** a freshly started context *)
Definition fresh_ctx (n : env) (x : tctx) : Prop :=
  x_Txid x = n_key n /\ x_Gxid x = n_key n /\ x_Caller x = 0 /\ x_Closed x = false /\ x_Error x = 0.

(** whatever happens, a new context has its own id as global id *)
Lemma start0_cases n name addr a : let r := start_service0 n name addr a in
  (r = (a, None)) \/
  exists x, a_ctx (fst r) = a_ctx a ++ [x] /\ fresh_ctx n x /\ a_log (fst r) = a_log a /\
    a_active (fst r) = fst (lra_add (a_active a) (x_Txid x) (Some (Z.of_nat (length (a_ctx a))))) /\
    (snd r = None \/ snd r = Some (length (a_ctx a))).
Proof.
  cbv zeta. destruct (new_tctx (cf_keep (n_conf n)) (n_key n) (n_now n)) as [x0|] eqn:E; [|left; apply start0_none; exact E].
  right. rewrite (start0_eq _ _ _ _ _ E). cbv zeta. destruct (new_tctx_fields _ _ _ _ E) as (F1 & F2 & F3 & F4 & _ & _ & F7).
  destruct (add _ _ _) as [p|]; cbn [fst snd a_ctx a_log a_active];
    (eexists; split; [reflexivity|]; split; [unfold fresh_ctx; cbn; auto|]; split; [reflexivity|]; split; [reflexivity|auto]).
Qed.

(** * Links *)

(** all contexts have a nonzero global id *)
Definition linked (a : agent) : Prop := forall h x, nth_error (a_ctx a) h = Some x -> x_Gxid x <> 0.

(** links of old contexts are kept *)
Definition keeps_links (a b : agent) : Prop := forall h x, nth_error (a_ctx a) h = Some x -> x_Gxid x <> 0 ->
  exists y, nth_error (a_ctx b) h = Some y /\ x_Gxid y = x_Gxid x /\ x_Caller y = x_Caller x /\ x_Txid y = x_Txid x.
Lemma keeps_links_refl a : keeps_links a a.
Proof. intros h x E _. exists x. auto. Qed.
Lemma keeps_links_trans a b c : keeps_links a b -> keeps_links b c -> keeps_links a c.
Proof.
  intros H1 H2 h x E G. destruct (H1 h x E G) as (y & Ey & Gy & Cy & Ty).
  destruct (H2 h y Ey) as (z & Ez & Gz & Cz & Tz); [congruence|]. exists z. split; [exact Ez|]. repeat split; congruence.
Qed.
Lemma minor_keeps N a b : minor N a b -> N = length (a_ctx a) -> keeps_links a b.
Proof.
  intros H -> h x E G. destruct (mn_ctx _ _ _ H h x E) as (y & Ey & (_ & S2 & S3)). exists y.
  assert (h < length (a_ctx a))%nat as L by (apply nth_error_Some; congruence). destruct (S3 L) as (S4 & S5). auto.
Qed.
Lemma minor_weaken N N' a b : minor N a b -> (N' <= N)%nat -> minor N' a b.
Proof.
  intros [A1 A2 A3 A4] H. constructor; [assumption..|]. intros h x E. destruct (A4 h x E) as (y & Ey & (S1 & S2 & S3)).
  exists y. split; [exact Ey|]. split; [exact S1|]. split; [exact S2|]. intros L. apply S3. lia.
Qed.
Lemma minor_keeps_le N a b : minor N a b -> forall h x, (h < N)%nat -> nth_error (a_ctx a) h = Some x -> x_Gxid x <> 0 ->
  exists y, nth_error (a_ctx b) h = Some y /\ x_Gxid y = x_Gxid x /\ x_Caller y = x_Caller x /\ x_Txid y = x_Txid x.
Proof.
  intros H h x L E G. destruct (mn_ctx _ _ _ H h x E) as (y & Ey & (_ & S2 & S3)). destruct (S3 L) as (S4 & S5). exists y. auto.
Qed.
Lemma closes_keeps N z a b : closes N z a b -> keeps_links a b.
Proof.
  intros [(h & x & x' & Ex & Cx & Ec & Cx' & T & G & Ca & _)] k y Ey Gy. rewrite Ec, list_set_nth.
  destruct (Nat.eqb_spec h k) as [<-|]; cbn [andb]; [|exists y; auto].
  assert (h < length (a_ctx a))%nat as Hh by (apply nth_error_Some; congruence). apply Nat.ltb_lt in Hh. rewrite Hh.
  exists x'. rewrite Ex in Ey. injection Ey as <-. auto.
Qed.
Lemma ends_keeps N z a b : ends N z a b -> N = length (a_ctx a) -> keeps_links a b /\ length (a_ctx b) = length (a_ctx a).
Proof.
  induction 1 as [a|a b c _ IH H|a b c _ IH H]; intros HN.
  - split; [apply keeps_links_refl|reflexivity].
  - destruct (IH HN) as (K & L). split; [|rewrite (mn_len _ _ _ H); exact L].
    eapply keeps_links_trans; [exact K|]. eapply minor_keeps; [exact H|congruence].
  - destruct (IH HN) as (K & L). split; [eapply keeps_links_trans; [exact K|eapply closes_keeps; exact H]|].
    destruct H as [(h & x & x' & _ & _ & Ec & _)]. rewrite Ec, list_set_length. exact L.
Qed.
Lemma news_keeps a b : news a b -> keeps_links a b.
Proof.
  intros [(x & E & _) _] h y Ey _. exists y. rewrite E, nth_error_app1; [auto|]. apply nth_error_Some. congruence.
Qed.
Lemma effect_keeps z a b : effect (length (a_ctx a)) z a b -> keeps_links a b.
Proof.
  intros [[H|(b1 & c1 & H1 & H2 & H3)]|H].
  - eapply minor_keeps; [exact H|reflexivity].
  - intros h x E G. destruct (minor_keeps _ _ _ H1 eq_refl h x E G) as (y & Ey & Gy & Cy & Ty).
    destruct (news_keeps _ _ H2 h y Ey) as (w & Ew & Gw & Cw & Tw); [congruence|].
    assert (h < length (a_ctx a))%nat as L by (apply nth_error_Some; congruence).
    destruct (minor_keeps_le _ _ _ H3 h w L Ew) as (v & Ev & Gv & Cv & Tv); [congruence|]. exists v. repeat split; congruence.
  - eapply ends_keeps; [exact H|reflexivity].
Qed.
Lemma call_keeps n k a : keeps_links a (fst (do_call n k a)).
Proof. eapply effect_keeps, call_effect, le_n. Qed.
Lemma run_keeps ops : forall a, keeps_links a (fst (run ops a)).
Proof.
  induction ops as [|[n k] ops IH]; intros a; [apply keeps_links_refl|].
  destruct (run_cons n k ops a) as [-> | ->]; [eapply keeps_links_trans; [apply call_keeps|apply IH]|apply call_keeps].
Qed.

(** a state whose contexts are old ones plus one new context *)
Lemma linked_snoc a x : linked a -> x_Gxid x <> 0 -> forall h y, nth_error (a_ctx a ++ [x]) h = Some y -> x_Gxid y <> 0.
Proof.
  intros L G h y E. destruct (Nat.lt_ge_cases h (length (a_ctx a))) as [H|H].
  - rewrite nth_error_app1 in E by exact H. exact (L h y E).
  - rewrite nth_error_app2 in E by exact H. destruct (h - length (a_ctx a))%nat as [|d]; [|destruct d; discriminate]. injection E as <-. exact G.
Qed.
Lemma linked_minor N a b : minor N a b -> N = length (a_ctx a) -> linked a -> linked b.
Proof.
  intros H HN L h y E. destruct (nth_error (a_ctx a) h) as [x|] eqn:Ex.
  - destruct (minor_keeps _ _ _ H HN h x Ex (L h x Ex)) as (z & Ez & Gz & _). rewrite E in Ez. injection Ez as <-. rewrite Gz. exact (L h x Ex).
  - apply nth_error_None in Ex. assert (h < length (a_ctx b))%nat by (apply nth_error_Some; congruence). rewrite (mn_len _ _ _ H) in H0. lia.
Qed.

(** after [start_service0], [f] gets the new handle *)
Lemma start0_then {B} n name addr a (f : nat -> M B) : n_key n <> 0 -> linked a ->
  (forall b x, a_ctx b = a_ctx a ++ [x] -> fresh_ctx n x -> a_log b = a_log a -> linked b -> linked (fst (f (length (a_ctx a)) b))) ->
  linked (fst (bind (start_service0 n name addr) f a)).
Proof.
  intros K L Hf. destruct (start0_cases n name addr a) as [E|(x & E1 & F & El & _ & R)].
  - unfold bind. rewrite E. exact L.
  - assert (linked (fst (start_service0 n name addr a))) as L1.
    { intros h y E. rewrite E1 in E. eapply linked_snoc; [exact L| |exact E]. destruct F as (_ & -> & _). exact K. }
    unfold bind. destruct (start_service0 n name addr a) as [b [h|]]; cbn [fst snd] in *; [|exact L1].
    destruct R as [R|R]; [discriminate|]. injection R as ->. eapply Hf; eassumption.
Qed.
Lemma linked_rel {A} (m : M A) b : rel (minor (length (a_ctx b))) m -> linked b -> linked (fst (m b)).
Proof. intros H L. eapply linked_minor; [apply H|reflexivity|exact L]. Qed.
Lemma linked_recovered {A} (d : A) m a : linked (fst (m a)) -> linked (fst (recovered d m a)).
Proof. intros H. unfold recovered. destruct (m a) as [a' [x|]]; exact H. Qed.

Lemma linked_start_service n c name ip a : n_key n <> 0 -> linked a -> linked (fst (start_service n c name ip a)).
Proof.
  intros K L. unfold start_service. apply linked_recovered. unfold bind at 1. pose proof (get_tctx_state (match c with CNil => CPlain | _ => c end) a) as G.
  destruct (get_tctx _ a) as [b [[h|]|]]; cbn in G; subst b; [exact L| |exact L].
  apply start0_then; [exact K|exact L|]. intros b x _ _ _ Lb. apply linked_rel; [rel_tac|exact Lb].
Qed.
Lemma linked_start_http n c req a : n_key n <> 0 -> linked a -> linked (fst (start_http_service n c req a)).
Proof.
  intros K L. unfold start_http_service. apply linked_recovered. destruct c as [| |h]; [exact L|..];
  (unfold bind at 1; match goal with |- context [get_tctx ?c a] => pose proof (get_tctx_state c a) as G; destruct (get_tctx c a) as [b [[g|]|]]; cbn in G; subst b; [exact L| |exact L] end;
   destruct req as [r|]; [|exact L]; apply start0_then; [exact K|exact L|]; intros b x _ _ _ Lb; apply linked_rel; [|exact Lb];
   repeat (apply rel_bind; [first [apply rel_send | apply rel_modify; intros; unfold same; cbn; tauto | apply rel_headers]|intros ?]); apply rel_ret).
Qed.

Lemma profile_op_cases {A} h (f : tctx -> option (prof * A)) a x : nth_error (a_ctx a) h = Some x ->
  profile_op h f a = (a, None) \/ exists p r, profile_op h f a = (upd a h (set_Profile p x), Some r).
Proof. intros E. unfold profile_op. rewrite E. destruct (f x) as [[p r]|]; [right; exists p, r; reflexivity|left; reflexivity]. Qed.

(** the part of StartNewInheritanceService after the new context exists *)
Lemma inherit_links n a p xp b x : n_key n <> 0 -> nth_error (a_ctx a) p = Some xp -> x_Gxid xp <> 0 -> linked a ->
  a_ctx b = a_ctx a ++ [x] -> linked b ->
  let r := (inherit_tctx n (length (a_ctx a)) p ;; ret (CTrace (length (a_ctx a)))) b in
  linked (fst r) /\ (forall c, snd r = Some c -> c = CTrace (length (a_ctx a)) /\
    exists y, nth_error (a_ctx (fst r)) (length (a_ctx a)) = Some y /\ x_Caller y = x_Txid xp /\ x_Gxid y = x_Gxid xp /\ x_Closed y = x_Closed x).
Proof.
  intros K Ep Gp L Eb Lb. cbv zeta. set (h := length (a_ctx a)).
  assert (p < h)%nat as Hp by (apply nth_error_Some; congruence).
  assert (nth_error (a_ctx b) p = Some xp) as Ebp by (rewrite Eb, nth_error_app1; assumption).
  assert (nth_error (a_ctx b) h = Some x) as Ebh by (rewrite Eb; apply nth_snoc).
  unfold inherit_tctx. rewrite bind_assoc, (bind_some _ _ _ _ _ (read_eq _ _ _ _ Ebp)).
  rewrite bind_assoc, (bind_some _ _ _ _ _ (modify_eq _ _ _ _ Ebh)).
  set (x1 := set_XType _ _). fold (upd b h x1). set (b1 := upd b h x1).
  assert (nth_error (a_ctx b1) h = Some x1) as E1h by (eapply nth_upd; exact Ebh).
  assert (nth_error (a_ctx b1) p = Some xp) as E1p by (unfold b1; cbn; rewrite list_set_other by lia; exact Ebp).
  assert (linked b1) as L1.
  { intros k y Ey. unfold b1 in Ey. cbn in Ey. rewrite list_set_nth in Ey. destruct (Nat.eqb h k && _); [injection Ey as <-; exact Gp|exact (Lb k y Ey)]. }
  rewrite bind_assoc.
  destruct (profile_op_cases h (fun x => unit_op (add (env_of n x) (message_step (of_string "scouter inheritance step") 0) (x_Profile x))) b1 x1 E1h) as [Ea|(pr & u & Ea)].
  { rewrite (bind_none _ _ _ _ Ea). cbn [fst snd]. split; [exact L1|intros c Hc; discriminate Hc]. }
  rewrite (bind_some _ _ _ _ _ Ea). set (x2 := set_Profile pr x1). set (b2 := upd b1 h x2).
  assert (nth_error (a_ctx b2) h = Some x2) as E2h by (eapply nth_upd; exact E1h).
  assert (nth_error (a_ctx b2) p = Some xp) as E2p by (unfold b2; cbn; rewrite list_set_other by lia; exact E1p).
  rewrite bind_assoc, (bind_some _ _ _ _ _ (read_eq _ _ _ _ E2p)), (bind_some _ _ _ _ _ (modify_eq _ _ _ _ E2h)).
  set (x3 := inherit_fields _ _ _). fold (upd b2 h x3). cbn [fst snd ret].
  split.
  - intros k y Ey. cbn [upd set_ctxs a_ctx] in Ey. rewrite list_set_nth in Ey. destruct (Nat.eqb h k && _); [injection Ey as <-; exact Gp|].
    unfold b2 in Ey. cbn [upd set_ctxs a_ctx] in Ey. rewrite list_set_nth in Ey. destruct (Nat.eqb h k && _); [injection Ey as <-; exact Gp|exact (L1 k y Ey)].
  - intros c [= <-]. split; [reflexivity|]. exists x3. split; [eapply nth_upd; exact E2h|]. cbn. auto.
Qed.

Lemma linked_inherit n c p a : n_key n <> 0 -> linked a -> linked (fst (start_inheritance n c p a)).
Proof.
  intros K L. unfold start_inheritance. apply linked_recovered. unfold bind at 1, read at 1.
  destruct (nth_error (a_ctx a) p) as [xp|] eqn:Ep; [|exact L]. apply start0_then; [exact K|exact L|].
  intros b x Eb _ _ Lb. apply (inherit_links n a p xp b x K Ep (L p xp Ep) L Eb Lb).
Qed.

(** the part of GoWithTrace after the new context exists *)
Lemma child_links n a p xp name b x : nth_error (a_ctx a) p = Some xp -> x_Gxid xp <> 0 -> linked a ->
  a_ctx b = a_ctx a ++ [x] -> fresh_ctx n x -> linked b ->
  let r := (modify (length (a_ctx a)) (set_XType XTYPE_BACK_THREAD2) ;;
    ptx <- read p x_Txid ;;
    pgx <- read p x_Gxid ;;
    modify (length (a_ctx a)) (fun x => set_Gxid pgx (set_Caller ptx x)) ;;
    (if pgx =? 0 then modify (length (a_ctx a)) (set_Gxid ptx) ;; modify p (set_Gxid ptx) else ret tt) ;;
    tx <- read (length (a_ctx a)) x_Txid ;;
    st <- millis n p ;;
    hs <- send_text n KApicall name ;;
    profile_add n p (SAsync (mk_single 0 0 st) tx hs 0) ;;
    ret (CTrace (length (a_ctx a)))) b in
  linked (fst r) /\ (forall c, snd r = Some c -> c = CTrace (length (a_ctx a)) /\
    exists y, nth_error (a_ctx (fst r)) (length (a_ctx a)) = Some y /\ x_Caller y = x_Txid xp /\ x_Gxid y = x_Gxid xp /\ x_Txid y = n_key n /\ x_Closed y = false).
Proof.
  intros Ep Gp L Eb F Lb. cbv zeta. set (h := length (a_ctx a)).
  assert (p < h)%nat as Hp by (apply nth_error_Some; congruence).
  assert (nth_error (a_ctx b) p = Some xp) as Ebp by (rewrite Eb, nth_error_app1; assumption).
  assert (nth_error (a_ctx b) h = Some x) as Ebh by (rewrite Eb; apply nth_snoc).
  rewrite (bind_some _ _ _ _ _ (modify_eq _ _ _ _ Ebh)). set (x1 := set_XType _ _). fold (upd b h x1). set (b1 := upd b h x1).
  assert (nth_error (a_ctx b1) h = Some x1) as E1h by (eapply nth_upd; exact Ebh).
  assert (nth_error (a_ctx b1) p = Some xp) as E1p by (unfold b1; cbn; rewrite list_set_other by lia; exact Ebp).
  rewrite (bind_some _ _ _ _ _ (read_eq _ _ _ _ E1p)), (bind_some _ _ _ _ _ (read_eq _ _ _ _ E1p)), (bind_some _ _ _ _ _ (modify_eq _ _ _ _ E1h)).
  set (x2 := set_Gxid _ _). fold (upd b1 h x2). set (b2 := upd b1 h x2).
  assert (nth_error (a_ctx b2) h = Some x2) as E2h by (eapply nth_upd; exact E1h).
  destruct (Z.eqb_spec (x_Gxid xp) 0) as [Z0|_]; [contradiction|]. rewrite bind_ret.
  assert (linked b2) as L2.
  { intros k y Ey. unfold b2 in Ey. cbn [upd set_ctxs a_ctx] in Ey. rewrite list_set_nth in Ey. destruct (Nat.eqb h k && _); [injection Ey as <-; exact Gp|].
    unfold b1 in Ey. cbn [upd set_ctxs a_ctx] in Ey. rewrite list_set_nth in Ey. destruct (Nat.eqb h k && _); [injection Ey as <-|exact (Lb k y Ey)].
    exact (Lb h x Ebh). }
  match goal with |- linked (fst (?m b2)) /\ _ =>
    assert (rel (minor (length (a_ctx b2))) m) as R by (unfold millis, profile_add; rel_tac);
    assert (forall c, snd (m b2) = Some c -> c = CTrace h) as Hc
  end.
  { intros c Ec. repeat (apply bind_result in Ec; destruct Ec as (? & _ & Ec)). cbn in Ec. congruence. }
  split; [apply linked_rel; assumption|]. intros c Ec. split; [exact (Hc c Ec)|].
  destruct (minor_keeps _ _ _ (R b2) eq_refl h x2 E2h Gp) as (y & Ey & Gy & Cy & Ty). exists y. split; [exact Ey|].
  destruct F as (F1 & _ & _ & F4 & _). destruct (mn_ctx _ _ _ (R b2) h x2 E2h) as (y' & Ey' & (S1 & _)). rewrite Ey in Ey'. injection Ey' as <-.
  rewrite Cy, Gy, Ty, S1. cbn. auto.
Qed.

Lemma linked_go n c name a : n_key n <> 0 -> linked a -> linked (fst (go_with_trace n c name a)).
Proof.
  intros K L. unfold go_with_trace. apply linked_recovered.
  assert (linked (fst (start_child n c name a))) as H.
  { unfold start_child, traced. destruct c as [| |p]; [exact L|exact L|]. unfold bind at 1. cbn [get_tctx].
    destruct (nth_error (a_ctx a) p) as [xp|] eqn:Ep; [|exact L]. rewrite (bind_some _ _ _ _ _ (read_eq _ _ _ _ Ep)).
    apply start0_then; [exact K|exact L|]. intros b x Eb F _ Lb. apply (child_links n a p xp name b x Ep (L p xp Ep) L Eb F Lb). }
  unfold bind. destruct (start_child n c name a) as [b [x|]]; exact H.
Qed.

Lemma linked_effect_other n k a : match k with KStartService _ _ _ | KStartHttp _ _ | KInherit _ _ | KGo _ _ => False | _ => True end ->
  length (a_ctx (fst (do_call n k a))) = length (a_ctx a).
Proof.
  intros H.
  assert (forall {A B} (f : A -> B) (m : M A), rel (fun b c => length (a_ctx c) = length (a_ctx b)) m -> length (a_ctx (fst (fmap f m a))) = length (a_ctx a)) as Hf.
  { intros A B f m R. unfold fmap, bind. specialize (R a). destruct (m a) as [a' [x|]]; exact R. }
  assert (forall {A} (m : M A), rel (ends 0 (zb n)) m -> rel (fun b c => length (a_ctx c) = length (a_ctx b)) m) as He.
  { intros A m R b. specialize (R b). clear -R. induction R as [a|a b c _ IH H|a b c _ IH H]; [reflexivity|rewrite (mn_len _ _ _ H); exact IH|].
    destruct H as [(h & x & x' & _ & _ & Ec & _)]. rewrite Ec, list_set_length. exact IH. }
  assert (forall {A} (m : M A), rel (minor 0) m -> rel (fun b c => length (a_ctx c) = length (a_ctx b)) m) as Hm.
  { intros A m R b. exact (mn_len _ _ _ (R b)). }
  destruct k; try contradiction; cbn [do_call]; try reflexivity; apply Hf.
  - apply Hm. unfold go_begin. rel_tac.
  - apply He, rel_end_service.
  - apply He, rel_end_service.
  - apply He, rel_end_http.
  - apply Hm. unfold is_stream. rel_tac.
  - apply Hm. unfold set_as_stream. rel_tac.
  - apply Hm. unfold mark_as_error. rel_tac.
  - apply Hm. unfold mark_as_error_forcibly. rel_tac.
  - apply Hm. unfold set_service_name. rel_tac.
  - apply Hm. unfold add_step, profile_add. rel_tac.
  - apply Hm. unfold add_message_step, millis, profile_add. rel_tac.
  - apply Hm. unfold add_hashed_message_step, millis, profile_add. rel_tac.
  - apply Hm. apply rel_pmessage.
  - apply Hm. unfold start_method. apply rel_recovered, rel_traced. intros. apply rel_start_method0.
  - apply Hm. unfold start_custom_method. apply rel_recovered, rel_traced. intros. apply rel_start_method0.
  - apply Hm. unfold end_method, read_step, millis, profile_pop. rel_tac.
  - apply Hm. unfold start_api_call. apply rel_recovered, rel_traced. intros. apply rel_bind; [apply rel_start_api0|intros; apply rel_ret].
  - apply Hm. unfold start_api_call_prop. apply rel_recovered, rel_traced. intros h. apply rel_bind; [apply rel_start_api0|intros p].
    apply rel_fix_gxid; [intros; unfold same; cbn; intuition lia|reflexivity|intros u; rel_tac].
  - apply Hm. unfold end_api_call, read_step, millis, profile_pop. rel_tac.
    apply rel_modify. intros y. destruct (x_Error y =? 0); unfold same; cbn; tauto.
  - apply Hm. unfold set_user. rel_tac.
  - apply He. intros b. apply rel_active_loop.
Qed.

Lemma linked_call n k a : n_key n <> 0 -> linked a -> linked (fst (do_call n k a)).
Proof.
  intros K L.
  assert (forall {A B} (f : A -> B) (m : M A), linked (fst (m a)) -> linked (fst (fmap f m a))) as Hf.
  { intros A B f m R. unfold fmap, bind. destruct (m a) as [a' [x|]]; exact R. }
  assert (match k with KStartService _ _ _ | KStartHttp _ _ | KInherit _ _ | KGo _ _ => False | _ => True end -> linked (fst (do_call n k a))) as Ho.
  { intros H. pose proof (linked_effect_other n k a H) as Len. pose proof (call_keeps n k a) as Kp. intros h y Ey.
    destruct (nth_error (a_ctx a) h) as [x|] eqn:Ex.
    - destruct (Kp h x Ex (L h x Ex)) as (z & Ez & Gz & _). rewrite Ey in Ez. injection Ez as <-. rewrite Gz. exact (L h x Ex).
    - apply nth_error_None in Ex. assert (h < length (a_ctx (fst (do_call n k a))))%nat by (apply nth_error_Some; congruence). lia. }
  destruct k; try (apply Ho; exact I); cbn [do_call]; apply Hf;
    [apply linked_start_service|apply linked_start_http|apply linked_inherit|apply linked_go]; assumption.
Qed.
Lemma linked_init c : linked (a_init c).
Proof. intros h x E. destruct h; discriminate. Qed.
Lemma linked_run ops a : Forall (fun nk => n_key (fst nk) <> 0) ops -> linked a -> linked (fst (run ops a)).
Proof. intros F L. refine (run_ind linked _ ops _ _ F L). intros n k b H. apply linked_call. exact H. Qed.
