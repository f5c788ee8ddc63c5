(** How one call changes the agent's state: contexts are only added, opened contexts are closed at most once, and
    only the end of a service produces samples and xlogs. *)
From Verif Require Import GoInt M_Util M_Hash M_StrMatch M_Packs M_Steps M_Cache L_Cache M_Text M_Sampler M_Profile L_Profile M_Trace L_Trace.
From Coq Require Import ZifyBool Permutation.

Definition is_alert (e : aevent) : Prop := match e with EvAlert _ _ => True | _ => False end.

(** context [h] before and after; for contexts below [N] the links are kept too *)
Definition same (N h : nat) (x x' : tctx) : Prop :=
  x_Closed x' = x_Closed x /\ x_Txid x' = x_Txid x /\
  ((h < N)%nat -> (x_Gxid x <> 0 -> x_Gxid x' = x_Gxid x) /\ x_Caller x' = x_Caller x).

Record minor (N : nat) (a a' : agent) : Prop := mkMinor {
  mn_active : a_active a' = a_active a;
  mn_log : exists l, a_log a' = a_log a ++ l /\ Forall is_alert l;
  mn_len : length (a_ctx a') = length (a_ctx a);
  mn_ctx : forall h x, nth_error (a_ctx a) h = Some x -> exists x', nth_error (a_ctx a') h = Some x' /\ same N h x x' }.

Lemma same_refl N h x : same N h x x.
Proof. unfold same. tauto. Qed.
Lemma same_trans N h x y z : same N h x y -> same N h y z -> same N h x z.
Proof.
  intros (A1 & A2 & A3) (B1 & B2 & B3). split; [congruence|]. split; [congruence|].
  intros L. destruct (A3 L) as (G1 & C1), (B3 L) as (G2 & C2). split; [|congruence].
  intros H. rewrite G2; rewrite G1; auto.
Qed.

Lemma minor_refl N a : minor N a a.
Proof.
  constructor; [reflexivity|exists []; rewrite app_nil_r; split; [reflexivity|constructor]|reflexivity|].
  intros h x E. exists x. split; [exact E|apply same_refl].
Qed.
Lemma minor_trans N a b c : minor N a b -> minor N b c -> minor N a c.
Proof.
  intros [A1 (l & A2 & F1) A3 A4] [B1 (k & B2 & F2) B3 B4]. constructor; [congruence| |congruence|].
  - exists (l ++ k). split; [rewrite B2, A2, app_assoc; reflexivity|apply Forall_app; split; assumption].
  - intros h x E. destruct (A4 h x E) as (y & Ey & Sy), (B4 h y Ey) as (z & Ez & Sz).
    exists z. split; [exact Ez|exact (same_trans _ _ _ _ _ Sy Sz)].
Qed.

Definition rel (R : agent -> agent -> Prop) {A} (m : M A) : Prop := forall a, R a (fst (m a)).

Lemma rel_ret N {A} (x : A) : rel (minor N) (ret x).
Proof. intros a. apply minor_refl. Qed.
Lemma rel_panic N {A} : rel (minor N) (@panic A).
Proof. intros a. apply minor_refl. Qed.
Lemma rel_bind N {A B} (m : M A) (f : A -> M B) : rel (minor N) m -> (forall x, rel (minor N) (f x)) -> rel (minor N) (bind m f).
Proof.
  intros Hm Hf a. unfold bind. specialize (Hm a). destruct (m a) as [a' [x|]]; [|exact Hm].
  eapply minor_trans; [exact Hm|apply Hf].
Qed.
Lemma rel_read N {A} h (f : tctx -> A) : rel (minor N) (read h f).
Proof. intros a. unfold read. destruct (nth_error (a_ctx a) h); apply minor_refl. Qed.
Lemma minor_upd N a h x x' : nth_error (a_ctx a) h = Some x -> same N h x x' -> minor N a (upd a h x').
Proof.
  intros E S0. constructor; cbn; [reflexivity|exists []; rewrite app_nil_r; split; [reflexivity|constructor]|apply list_set_length|].
  intros h' y Ey. rewrite list_set_nth. destruct (Nat.eqb_spec h h') as [<-|]; cbn [andb].
  - assert (h < length (a_ctx a))%nat as L by (apply nth_error_Some; congruence).
    apply Nat.ltb_lt in L. rewrite L. exists x'. split; [reflexivity|congruence].
  - exists y. split; [exact Ey|apply same_refl].
Qed.
Lemma rel_modify N h f : (forall x, same N h x (f x)) -> rel (minor N) (modify h f).
Proof. intros H a. unfold modify. destruct (nth_error (a_ctx a) h) eqn:E; [|apply minor_refl]. eapply minor_upd; [exact E|apply H]. Qed.
Lemma rel_send N n k name : rel (minor N) (send_text n k name).
Proof.
  intros a. rewrite send_text_eq. constructor; cbn; [reflexivity|exists []; rewrite app_nil_r; split; [reflexivity|constructor]|reflexivity|].
  intros h x E. exists x. split; [exact E|apply same_refl].
Qed.
Lemma rel_profile_op N {A} h (f : tctx -> option (prof * A)) : rel (minor N) (profile_op h f).
Proof.
  intros a. unfold profile_op. destruct (nth_error (a_ctx a) h) eqn:E; [|apply minor_refl].
  destruct (f t) as [[p r]|]; [|apply minor_refl]. eapply minor_upd; [exact E|]. unfold same; cbn. tauto.
Qed.
Lemma rel_get_tctx N c : rel (minor N) (get_tctx c).
Proof. intros a. unfold get_tctx. destruct c; apply minor_refl. Qed.
Lemma minor_alert N a l t : minor N a (add_log (EvAlert l t) a).
Proof.
  constructor; cbn; [reflexivity|exists [EvAlert l t]; split; [reflexivity|constructor; [exact I|constructor]]|reflexivity|].
  intros h x E. exists x. split; [exact E|apply same_refl].
Qed.
Lemma rel_alert N l t : rel (minor N) (emit (EvAlert l t)).
Proof. intros a. apply minor_alert. Qed.
Lemma rel_recovered N {A} (d : A) m : rel (minor N) m -> rel (minor N) (recovered d m).
Proof.
  intros H a. unfold recovered. specialize (H a). destruct (m a) as [a' [x|]]; [exact H|].
  eapply minor_trans; [exact H|apply minor_alert].
Qed.
Lemma rel_traced N {A} c (d : A) k : (forall h, rel (minor N) (k h)) -> rel (minor N) (traced c d k).
Proof.
  intros H. unfold traced. destruct c; [apply rel_ret| |]; (apply rel_bind; [apply rel_get_tctx|intros [i|]; [apply H|apply rel_ret]]).
Qed.
Lemma rel_for_each N {A} (l : list A) f : (forall x, rel (minor N) (f x)) -> rel (minor N) (for_each l f).
Proof. intros H. induction l as [|x l IH]; cbn [for_each]; [apply rel_ret|apply rel_bind; [apply H|intros _; exact IH]]. Qed.

Ltac rel_tac :=
  repeat first
    [ progress intros
    | apply rel_ret | apply rel_panic | apply rel_read | apply rel_send | apply rel_profile_op | apply rel_get_tctx | apply rel_alert
    | apply rel_recovered | apply rel_traced | apply rel_for_each
    | apply rel_bind
    | apply rel_modify; intros; unfold same; cbn; tauto
    | match goal with |- rel _ (match ?x with _ => _ end) => destruct x end ].

Lemma rel_pmessage N n c l m e p : rel (minor N) (add_pmessage_step n c l m e p).
Proof. unfold add_pmessage_step, millis, profile_add. rel_tac. Qed.
Lemma rel_start_method0 N n h f m p : rel (minor N) (start_method0 n h f m p).
Proof. unfold start_method0, add_params, millis, profile_add, profile_push. rel_tac. Qed.
Lemma rel_start_api0 N n h m ad : rel (minor N) (start_api_call0 n h m ad).
Proof. unfold start_api_call0, millis, profile_push. rel_tac. Qed.

(** [if gxid = 0 then gxid := txid] *)
Lemma rel_fix_gxid N {A} h (f : tctx -> tctx) (k : unit -> M A) : (forall x, same 0 h x (f x)) ->
  (forall x, x_Gxid x = 0 -> x_Caller (f x) = x_Caller x) -> (forall u, rel (minor N) (k u)) ->
  rel (minor N) (gx <- read h x_Gxid ;; (bind (if gx =? 0 then modify h f else ret tt) k)).
Proof.
  intros H0 Hf Hk a. unfold bind at 1, read. destruct (nth_error (a_ctx a) h) as [x|] eqn:E; [|apply minor_refl].
  destruct (Z.eqb_spec (x_Gxid x) 0) as [G|G].
  - unfold bind. rewrite (modify_eq _ _ _ _ E). eapply minor_trans; [|apply Hk].
    eapply (minor_upd N); [exact E|]. destruct (H0 x) as (S1 & S2 & _). split; [exact S1|]. split; [exact S2|].
    intros _. split; [congruence|]. apply Hf. exact G.
  - apply Hk.
Qed.

(** * Starting *)

Record news (a a' : agent) : Prop := mkNews {
  nw_ctx : exists x, a_ctx a' = a_ctx a ++ [x] /\ x_Closed x = false /\
           a_active a' = fst (lra_add (a_active a) (x_Txid x) (Some (Z.of_nat (length (a_ctx a)))));
  nw_log : a_log a' = a_log a }.

Definition starts (N : nat) (a a' : agent) : Prop :=
  minor N a a' \/ exists b c, minor N a b /\ news b c /\ minor N c a'.

Lemma starts_after N a b c : starts N a b -> minor N b c -> starts N a c.
Proof.
  intros [H|(b1 & c1 & H1 & H2 & H3)] Hm; [left; eapply minor_trans; eassumption|].
  right. exists b1, c1. split; [exact H1|]. split; [exact H2|]. eapply minor_trans; eassumption.
Qed.
Lemma starts_before N a b c : minor N a b -> starts N b c -> starts N a c.
Proof.
  intros Hm [H|(b1 & c1 & H1 & H2 & H3)]; [left; eapply minor_trans; eassumption|].
  right. exists b1, c1. split; [eapply minor_trans; eassumption|]. split; assumption.
Qed.
Lemma rel_starts_bind N {A B} (m : M A) (f : A -> M B) : rel (starts N) m -> (forall x, rel (minor N) (f x)) -> rel (starts N) (bind m f).
Proof.
  intros Hm Hf a. unfold bind. specialize (Hm a). destruct (m a) as [a' [x|]]; [|exact Hm]. eapply starts_after; [exact Hm|apply Hf].
Qed.
Lemma rel_bind_starts N {A B} (m : M A) (f : A -> M B) : rel (minor N) m -> (forall x, rel (starts N) (f x)) -> rel (starts N) (bind m f).
Proof.
  intros Hm Hf a. unfold bind. specialize (Hm a). destruct (m a) as [a' [x|]]; [|left; exact Hm]. eapply starts_before; [exact Hm|apply Hf].
Qed.
Lemma rel_starts_minor N {A} (m : M A) : rel (minor N) m -> rel (starts N) m.
Proof. intros H a. left. apply H. Qed.
Lemma rel_starts_recovered N {A} (d : A) m : rel (starts N) m -> rel (starts N) (recovered d m).
Proof.
  intros H a. unfold recovered. specialize (H a). destruct (m a) as [a' [x|]]; [exact H|].
  eapply starts_after; [exact H|apply minor_alert].
Qed.

Lemma nth_snoc {A} (l : list A) x : nth_error (l ++ [x]) (length l) = Some x.
Proof. apply (nth_mid l [] x). Qed.

Lemma new_tctx_fields keep key now x : new_tctx keep key now = Some x ->
  x_Closed x = false /\ x_Txid x = key /\ x_Gxid x = 0 /\ x_Caller x = 0 /\ new_prof keep = Some (x_Profile x) /\ x_StartTime x = now /\ x_Error x = 0.
Proof.
  unfold new_tctx. destruct (new_prof keep) as [p|]; [|discriminate]. intros [= <-]. cbn. tauto.
Qed.

(** the new service is context number [length (a_ctx a)]; older contexts (all below [N]) are not touched *)
Lemma rel_start0 N n name addr a : (N <= length (a_ctx a))%nat -> starts N a (fst (start_service0 n name addr a)).
Proof.
  intros HN. unfold start_service0, alloc. unfold bind at 1.
  destruct (new_tctx (cf_keep (n_conf n)) (n_key n) (n_now n)) as [x|] eqn:E; [|left; apply minor_refl].
  destruct (new_tctx_fields _ _ _ _ E) as (C & T & _).
  set (h := length (a_ctx a)). set (b := set_ctxs (a_ctx a ++ [x]) a).
  assert (nth_error (a_ctx b) h = Some x) as Eb by apply nth_snoc.
  unfold tm_start. rewrite bind_assoc, (bind_some _ _ _ _ _ (read_eq _ _ _ _ Eb)).
  erewrite bind_some by reflexivity.
  set (c := set_active _ b).
  right. exists a, c. split; [apply minor_refl|]. split.
  - constructor; [|reflexivity]. exists x. split; [reflexivity|]. split; [exact C|reflexivity].
  - match goal with |- minor N c (fst (?m c)) => cut (rel (minor N) m); [intros R; apply R|] end.
    assert (forall i x y, (N <= i)%nat -> same 0 i x y -> same N i x y) as W.
    { intros i u v Hi (S1 & S2 & _). split; [exact S1|]. split; [exact S2|]. intros; lia. }
    apply rel_bind; [apply rel_modify; intros; apply W; [exact HN|unfold same; cbn; intuition lia]|].
    unfold profile_add. rel_tac.
Qed.

Lemma at_bind N {A B} (m : M A) (f : A -> M B) a : starts N a (fst (m a)) ->
  (forall x, snd (m a) = Some x -> rel (minor N) (f x)) -> starts N a (fst (bind m f a)).
Proof.
  intros Hm Hf. unfold bind. destruct (m a) as [a' [x|]]; [|exact Hm]. eapply starts_after; [exact Hm|]. apply (Hf x eq_refl).
Qed.
Lemma at_same N {A B} (m : M A) (f : A -> M B) a : fst (m a) = a ->
  (forall x, snd (m a) = Some x -> starts N a (fst (f x a))) -> starts N a (fst (bind m f a)).
Proof.
  intros Hm Hf. unfold bind. destruct (m a) as [a' [x|]]; cbn in Hm; subst a'; [apply (Hf x eq_refl)|left; apply minor_refl].
Qed.
Lemma at_recovered N {A} (d : A) m a : starts N a (fst (m a)) -> starts N a (fst (recovered d m a)).
Proof.
  intros H. unfold recovered. destruct (m a) as [a' [x|]]; [exact H|]. eapply starts_after; [exact H|apply minor_alert].
Qed.
Lemma at_minor N {A} (m : M A) a : rel (minor N) m -> starts N a (fst (m a)).
Proof. intros H. left. apply H. Qed.
Lemma get_tctx_state c a : fst (get_tctx c a) = a.
Proof. destruct c; reflexivity. Qed.
Lemma read_state {A} h (f : tctx -> A) a : fst (read h f a) = a.
Proof. unfold read. destruct (nth_error (a_ctx a) h); reflexivity. Qed.

Lemma minor_len N a b : minor N a b -> length (a_ctx b) = length (a_ctx a).
Proof. intros H. exact (mn_len _ _ _ H). Qed.

Lemma bind_result {A B} (m : M A) (f : A -> M B) a y : snd (bind m f a) = Some y ->
  exists x, snd (m a) = Some x /\ snd (f x (fst (m a))) = Some y.
Proof. unfold bind. destruct (m a) as [a' [x|]]; cbn; [|discriminate]. intros E. exists x. split; [reflexivity|exact E]. Qed.

Lemma start0_result n name addr a h : snd (start_service0 n name addr a) = Some h -> h = length (a_ctx a).
Proof.
  intros E. unfold start_service0 in E. apply bind_result in E. destruct E as (x & E1 & E).
  assert (x = length (a_ctx a)) as ->.
  { unfold alloc in E1. destruct (new_tctx _ _ _); cbn in E1; congruence. }
  repeat (apply bind_result in E; destruct E as (? & _ & E)). cbn in E. congruence.
Qed.

Lemma same_above N i x y : (N <= i)%nat -> x_Closed y = x_Closed x -> x_Txid y = x_Txid x -> same N i x y.
Proof. intros Hi S1 S2. split; [exact S1|]. split; [exact S2|]. intros; lia. Qed.

Lemma rel_start_service N n c name ip a : (N <= length (a_ctx a))%nat -> starts N a (fst (start_service n c name ip a)).
Proof.
  intros HN. unfold start_service. apply at_recovered. apply at_same; [apply get_tctx_state|]. intros [h|] _; [apply at_minor, rel_ret|].
  apply at_bind; [apply rel_start0; exact HN|]. intros h _. rel_tac.
Qed.

Lemma rel_headers N n r h : rel (minor N) (profile_http_headers n r h).
Proof. unfold profile_http_headers, millis, profile_add. rel_tac. Qed.

Lemma rel_start_http N n c req a : (N <= length (a_ctx a))%nat -> starts N a (fst (start_http_service n c req a)).
Proof.
  intros HN. unfold start_http_service. apply at_recovered.
  assert (forall c', starts N a (fst ((o <- get_tctx c' ;;
        match o with
        | Some _ => ret c'
        | None =>
            match req with
            | None => panic
            | Some r =>
                h <- start_service0 n (rq_path r ++ of_string "<" ++ rq_method r ++ of_string ">") (get_remote_ip r) ;;
                (modify h (set_XType XTYPE_WEB) ;;
                 ua <- send_text n KUserAgent (rq_ua r) ;;
                 modify h (set_UserAgent ua) ;;
                 modify h (set_HttpMethod (rq_method r)) ;;
                 rf <- send_text n KReferer (rq_referer r) ;;
                 modify h (set_Referer rf) ;;
                 profile_http_headers n r h ;;
                 ret (CTrace h))
            end
        end) a))) as H.
  { intros c'. apply at_same; [apply get_tctx_state|]. intros [h|] _; [apply at_minor, rel_ret|].
    destruct req as [r|]; [|apply at_minor, rel_panic].
    apply at_bind; [apply rel_start0; exact HN|]. intros h _. rel_tac. }
  destruct c; [apply at_minor, rel_ret|apply H|apply H].
Qed.

Lemma rel_inherit N n h ph : (N <= h)%nat -> rel (minor N) (inherit_tctx n h ph).
Proof.
  intros HN. unfold inherit_tctx, profile_add.
  repeat first [apply rel_bind; [|intros] | apply rel_read | apply rel_profile_op | apply rel_modify; intros; apply same_above; [exact HN|reflexivity|reflexivity]].
Qed.
Lemma rel_start_inheritance N n c ph a : (N <= length (a_ctx a))%nat -> starts N a (fst (start_inheritance n c ph a)).
Proof.
  intros HN. unfold start_inheritance. apply at_recovered. apply at_same; [apply read_state|]. intros p _.
  apply at_bind; [apply rel_start0; exact HN|]. intros h Eh. apply start0_result in Eh. subst h.
  apply rel_bind; [apply rel_inherit; exact HN|intros; apply rel_ret].
Qed.

(** the parent's gxid is only assigned when it is 0 *)
Lemma rel_link N (h ph : nat) n name ptx : (N <= h)%nat -> rel (minor N) (
    pgx <- read ph x_Gxid ;;
    modify h (fun x => set_Gxid pgx (set_Caller ptx x)) ;;
    (if pgx =? 0 then modify h (set_Gxid ptx) ;; modify ph (set_Gxid ptx) else ret tt) ;;
    tx <- read h x_Txid ;;
    st <- millis n ph ;;
    hs <- send_text n KApicall name ;;
    profile_add n ph (SAsync (mk_single 0 0 st) tx hs 0) ;;
    ret (CTrace h)).
Proof.
  intros HN a. unfold bind at 1. unfold read at 1. destruct (nth_error (a_ctx a) ph) as [p|] eqn:Ep; [|apply minor_refl].
  unfold bind at 1. unfold modify at 1. destruct (nth_error (a_ctx a) h) as [x|] eqn:Eh; [|apply minor_refl].
  set (x1 := set_Gxid (x_Gxid p) (set_Caller ptx x)). fold (upd a h x1).
  assert (minor N a (upd a h x1)) as M1 by (eapply minor_upd; [exact Eh|apply same_above; [exact HN|reflexivity|reflexivity]]).
  assert (forall u : unit, rel (minor N) (tx <- read h x_Txid ;; st <- millis n ph ;; hs <- send_text n KApicall name ;;
    profile_add n ph (SAsync (mk_single 0 0 st) tx hs 0) ;; ret (CTrace h))) as T by (intros; unfold millis, profile_add; rel_tac).
  destruct (Z.eqb_spec (x_Gxid p) 0) as [G|G].
  - rewrite bind_assoc. unfold bind at 1. assert (nth_error (a_ctx (upd a h x1)) h = Some x1) as Eh1 by (eapply nth_upd; exact Eh).
    rewrite (modify_eq _ _ _ _ Eh1). fold (upd (upd a h x1) h (set_Gxid ptx x1)). set (b := upd (upd a h x1) h (set_Gxid ptx x1)).
    assert (minor N (upd a h x1) b) as M2 by (eapply minor_upd; [exact Eh1|apply same_above; [exact HN|reflexivity|reflexivity]]).
    eapply minor_trans; [exact M1|]. eapply minor_trans; [exact M2|].
    unfold bind at 1. unfold modify at 1. destruct (nth_error (a_ctx b) ph) as [p'|] eqn:Ep'; [|apply minor_refl].
    eapply minor_trans; [|apply (T tt)]. eapply minor_upd; [exact Ep'|].
    destruct (Nat.lt_ge_cases ph N) as [Hlt|Hge]; [|apply same_above; [exact Hge|reflexivity|reflexivity]].
    assert (p' = p) as ->.
    { assert (ph <> h) by lia. unfold b in Ep'. cbn in Ep'. rewrite !list_set_other in Ep' by congruence. congruence. }
    unfold same. cbn. intuition congruence.
  - eapply minor_trans; [exact M1|]. exact (T tt _).
Qed.

Lemma rel_start_child N n c name a : (N <= length (a_ctx a))%nat -> starts N a (fst (start_child n c name a)).
Proof.
  intros HN. unfold start_child, traced. destruct c; [apply at_minor, rel_ret| |];
    (apply at_same; [apply get_tctx_state|]; intros [ph|] _; [|apply at_minor, rel_ret]; apply at_same; [apply read_state|]; intros ip _;
     apply at_bind; [apply rel_start0; exact HN|]; intros i Ei; apply start0_result in Ei; subst i;
     apply rel_bind; [apply rel_modify; intros; unfold same; cbn; tauto|intros _];
     apply rel_bind; [apply rel_read|intros ptx]; apply rel_link; exact HN).
Qed.
Lemma rel_go N n c name a : (N <= length (a_ctx a))%nat -> starts N a (fst (go_with_trace n c name a)).
Proof.
  intros HN. unfold go_with_trace. apply at_recovered. apply at_bind; [apply rel_start_child; exact HN|intros; apply rel_ret].
Qed.

(** * Ending *)

Definition zb (n : env) : bool := cf_bulk (n_conf n) =? 0.
Lemma close_none e ok p : close e ok p = None -> (e_bulk e =? 0) = true.
Proof.
  unfold close, send_profile, send_groups. destruct (p_buf p) as [|b l]; [discriminate|]. destruct ok; [|discriminate].
  destruct (e_bulk e =? 0); [reflexivity|]. destruct (Z.quot _ _ =? 0); discriminate.
Qed.

(** [z]: the batch size is 0, flushing panics *)
Definition end_log (z : bool) (h : nat) (l : list aevent) : Prop :=
  (z = true /\ l = []) \/ exists el er, l = [EvMeter h el er] \/ exists p, l = [EvMeter h el er; EvXlog h p].

Record closes (N : nat) (z : bool) (a a' : agent) : Prop := mkCloses {
  cl_ctx : exists h x x', nth_error (a_ctx a) h = Some x /\ x_Closed x = false /\
           a_ctx a' = list_set (a_ctx a) h x' /\ x_Closed x' = true /\ x_Txid x' = x_Txid x /\
           x_Gxid x' = x_Gxid x /\ x_Caller x' = x_Caller x /\
           a_active a' = fst (lra_remove (a_active a) (x_Txid x)) /\
           exists l, a_log a' = a_log a ++ l /\ end_log z h l /\
             forall p, In (EvXlog h p) l -> xl_Txid p = x_Txid x /\ xl_Gxid p = x_Gxid x /\ xl_Caller p = x_Caller x }.

(** any number of minor changes and ends *)
Inductive ends (N : nat) (z : bool) : agent -> agent -> Prop :=
| en_refl a : ends N z a a
| en_minor a b c : ends N z a b -> minor N b c -> ends N z a c
| en_close a b c : ends N z a b -> closes N z b c -> ends N z a c.

Lemma ends_trans N z a b c : ends N z a b -> ends N z b c -> ends N z a c.
Proof. intros H1 H2. revert H1. induction H2; intros H1; [exact H1|eapply en_minor; [exact (IHends H1)|eassumption]|eapply en_close; [exact (IHends H1)|eassumption]]. Qed.
Lemma ends_of_minor N z a b : minor N a b -> ends N z a b.
Proof. intros H. eapply en_minor; [apply en_refl|exact H]. Qed.
Lemma ends_of_close N z a b : closes N z a b -> ends N z a b.
Proof. intros H. eapply en_close; [apply en_refl|exact H]. Qed.

Lemma rel_ends_bind N z {A B} (m : M A) (f : A -> M B) : rel (ends N z) m -> (forall x, rel (ends N z) (f x)) -> rel (ends N z) (bind m f).
Proof.
  intros Hm Hf a. unfold bind. specialize (Hm a). destruct (m a) as [a' [x|]]; [|exact Hm]. eapply ends_trans; [exact Hm|apply Hf].
Qed.
Lemma rel_ends_minor N z {A} (m : M A) : rel (minor N) m -> rel (ends N z) m.
Proof. intros H a. apply ends_of_minor, H. Qed.
Lemma rel_ends_recovered N z {A} (d : A) m : rel (ends N z) m -> rel (ends N z) (recovered d m).
Proof.
  intros H a. unfold recovered. specialize (H a). destruct (m a) as [a' [x|]]; [exact H|].
  eapply en_minor; [exact H|apply minor_alert].
Qed.

Lemma rel_end_tctx N n h : rel (ends N (zb n)) (end_tctx n h).
Proof.
  intros a. destruct (nth_error (a_ctx a) h) as [x|] eqn:E.
  2: { unfold end_tctx. unfold bind at 1, read. rewrite E. apply en_refl. }
  destruct (x_Closed x) eqn:C; [rewrite (end_closed _ _ _ _ E C); apply en_refl|].
  rewrite (end_open _ _ _ _ E C). cbv zeta.
  destruct (close _ _ _) as [p|] eqn:Cl; cbn [fst]; apply ends_of_close; constructor; exists h, x; eexists;
    (split; [exact E|]; split; [exact C|]; split; [reflexivity|]; split; [reflexivity|]; split; [reflexivity|]; split; [reflexivity|];
     split; [reflexivity|]; split; [reflexivity|]; eexists; split; [reflexivity|]).
  - unfold end_events, end_log. split.
    + right. eexists _, _. destruct (sends x _); [right; eexists; reflexivity|left; reflexivity].
    + destruct (sends x _); intros q [H|H]; try discriminate; [|destruct H]. destruct H as [H|[]]. injection H as <-. cbn. auto.
  - split; [left; split; [exact (close_none _ _ _ Cl)|reflexivity]|intros q []].
Qed.

Lemma rel_end_any N n c : rel (ends N (zb n)) (end_any n c).
Proof.
  unfold end_any, traced. destruct c; [apply rel_ends_minor, rel_ret| |];
    (apply rel_ends_bind; [apply rel_ends_minor, rel_get_tctx|]; intros [i|]; [|apply rel_ends_minor, rel_ret];
     apply rel_ends_bind; [apply rel_ends_minor, rel_read|]; intros [|]; [apply rel_ends_minor, rel_ret|apply rel_end_tctx]).
Qed.
Lemma rel_end_service N n c : rel (ends N (zb n)) (end_service n c).
Proof. apply rel_ends_recovered, rel_end_any. Qed.
Lemma rel_end_http N n c s : rel (ends N (zb n)) (end_http_service n c s).
Proof.
  apply rel_ends_recovered. destruct s as [code|]; [|apply rel_end_any].
  unfold traced. destruct c; [apply rel_ends_minor, rel_ret| |];
    (apply rel_ends_bind; [apply rel_ends_minor, rel_get_tctx|]; intros [i|]; [|apply rel_ends_minor, rel_ret];
     apply rel_ends_bind; [apply rel_ends_minor, rel_read|]; intros [|]; [apply rel_ends_minor, rel_ret|];
     apply rel_ends_bind; [apply rel_ends_minor, rel_modify; intros; unfold same; cbn; tauto|intros _; apply rel_end_any]).
Qed.
Lemma rel_end_stuck N n h : rel (ends N (zb n)) (end_stuck n h).
Proof.
  apply rel_ends_recovered. destruct (cf_stuck_remove (n_conf n)); [|apply rel_ends_minor, rel_ret].
  apply rel_ends_bind; [apply rel_ends_minor, rel_read|intros st].
  apply rel_ends_bind; [apply rel_ends_minor, rel_send|intros hs].
  apply rel_ends_bind; [apply rel_ends_minor, rel_profile_op|intros _].
  apply rel_ends_bind; [apply rel_ends_minor, rel_read|intros er].
  generalize (of_string "This stuck service currently may running, not finished!"). intros msg.
  apply rel_ends_bind; [apply rel_ends_minor|intros _; apply rel_end_tctx].
  destruct (er =? 0); [|apply rel_ret]. apply rel_bind; [apply rel_send|intros e]. apply rel_modify. intros; unfold same; cbn; tauto.
Qed.
Lemma rel_active_loop N n vs : forall count c0 c1 c2, rel (ends N (zb n)) (active_loop n count vs c0 c1 c2).
Proof.
  induction vs as [|h vs IH]; intros count c0 c1 c2; cbn [active_loop]; [apply rel_ends_minor, rel_ret|].
  destruct (2000 <? count + 1); [apply rel_ends_minor, rel_ret|].
  apply rel_ends_bind; [apply rel_ends_minor, rel_read|intros el].
  destruct (if el <=? cf_yellow (n_conf n) then (c0 + 1, c1, c2) else if el <=? cf_red (n_conf n) then (c0, c1 + 1, c2) else (c0, c1, c2 + 1)) as [[d0 d1] d2].
  apply rel_ends_bind; [|intros _; apply IH].
  destruct (cf_stuck_ms (n_conf n) <? el); [|apply rel_ends_minor, rel_ret].
  apply rel_ends_bind; [apply rel_end_stuck|intros _]. apply rel_ends_minor, rel_alert.
Qed.

(** * All calls *)

Inductive effect (N : nat) (z : bool) (a a' : agent) : Prop :=
| ef_start : starts N a a' -> effect N z a a'
| ef_end : ends N z a a' -> effect N z a a'.

Lemma ef_fmap N z {A B} (f : A -> B) m a : effect N z a (fst (m a)) -> effect N z a (fst (fmap f m a)).
Proof. intros H. unfold fmap, bind. destruct (m a) as [a' [x|]]; exact H. Qed.
Lemma ef_rel N z {A} (m : M A) a : rel (minor N) m -> effect N z a (fst (m a)).
Proof. intros H. apply ef_start. left. apply H. Qed.

Lemma call_effect N n k a : (N <= length (a_ctx a))%nat -> effect N (zb n) a (fst (do_call n k a)).
Proof.
  intros HN. destruct k; cbn [do_call]; try apply ef_fmap.
  - apply ef_start, rel_start_service; exact HN.
  - apply ef_start, rel_start_http; exact HN.
  - apply ef_start, rel_start_inheritance; exact HN.
  - apply ef_start, rel_go; exact HN.
  - apply ef_rel. unfold go_begin. rel_tac.
  - apply ef_end, rel_end_service.
  - apply ef_end, rel_end_service.
  - apply ef_end, rel_end_http.
  - apply ef_rel. unfold is_stream. rel_tac.
  - apply ef_rel. unfold set_as_stream. rel_tac.
  - apply ef_rel. unfold mark_as_error. rel_tac.
  - apply ef_rel. unfold mark_as_error_forcibly. rel_tac.
  - apply ef_rel. unfold set_service_name. rel_tac.
  - apply ef_rel. unfold add_step, profile_add. rel_tac.
  - apply ef_rel. unfold add_message_step, millis, profile_add. rel_tac.
  - apply ef_rel. unfold add_hashed_message_step, millis, profile_add. rel_tac.
  - apply ef_rel. apply rel_pmessage.
  - apply ef_rel. unfold start_method. apply rel_recovered, rel_traced. intros. apply rel_start_method0.
  - apply ef_rel. unfold start_custom_method. apply rel_recovered, rel_traced. intros. apply rel_start_method0.
  - apply ef_rel. unfold end_method, read_step, millis, profile_pop. rel_tac.
  - apply ef_rel. unfold start_api_call. apply rel_recovered, rel_traced. intros. apply rel_bind; [apply rel_start_api0|intros; apply rel_ret].
  - apply ef_rel. unfold start_api_call_prop. apply rel_recovered, rel_traced. intros h. apply rel_bind; [apply rel_start_api0|intros p].
    apply rel_fix_gxid; [intros; unfold same; cbn; intuition lia|reflexivity|intros u; rel_tac].
  - apply ef_rel. unfold end_api_call, read_step, millis, profile_pop. rel_tac.
    apply rel_modify. intros y. destruct (x_Error y =? 0); unfold same; cbn; tauto.
  - apply ef_rel. unfold set_user. rel_tac.
  - apply ef_end. apply rel_active_loop.
  - apply ef_start. left. constructor; cbn; [reflexivity|exists []; rewrite app_nil_r; split; [reflexivity|constructor]|reflexivity|].
    intros h x E. exists x. split; [exact E|apply same_refl].
  - apply ef_start. left. constructor; cbn; [reflexivity|exists []; rewrite app_nil_r; split; [reflexivity|constructor]|reflexivity|].
    intros h x E. exists x. split; [exact E|apply same_refl].
Qed.
