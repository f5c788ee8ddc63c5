(** Every number that stands for a text comes from a call that registers the text. *)
From Verif Require Import GoInt M_Util M_Hash M_Cache M_Packs M_Steps M_Text S_Text L_Text M_Profile M_Sampler M_Trace L_Trace S_Trace L_TraceInv S_Resolve.
Import M_Trace.

Lemma offers_send k name room t t' h : text_send k name room t = Some (t', h) -> t_log t' = t_log t \/ t_log t' = EvOffer k (mk_text_pack (text_type k) h name) room :: t_log t.
Proof.
  unfold text_send. destruct name as [|b name]; [intros [= <- <-]; left; reflexivity|]. destruct (hash_string (b :: name)) as [z|]; [|discriminate].
  destruct (lra_contains (t_cache t k) z); intros [= <- <-]; [left|right]; reflexivity.
Qed.
Lemma wire_text_type k : wire_type k = text_type k.
Proof. destruct k; reflexivity. Qed.

(** what the caches and the log have in common *)
Definition text_inv (t : tstate) : Prop := t_inv t /\ good_log (t_log t).
Lemma text_inv_send k name room t t' h : text_inv t -> text_send k name room t = Some (t', h) -> text_inv t'.
Proof. intros (A & B) E. split; [eapply t_inv_send; eassumption|eapply good_send; eassumption]. Qed.

(** * Triples: with the numbers [K] known, [m] keeps the invariant and makes the numbers [Q] of its result known *)
Section Triples.
Variable T : tstate -> kind * Z -> Prop.
Hypothesis T_zero : forall t k, T t (k, 0).
Hypothesis T_send : forall t k name room t' h, text_inv t -> text_send k name room t = Some (t', h) -> name <> [] -> T t' (k, h).
Hypothesis T_mono : forall t k name room t' h id, text_send k name room t = Some (t', h) -> T t id -> T t' id.
(** whether the steps are looked at *)
Variable strict : bool.

Definition ctx_ids (x : tctx) : list (kind * Z) :=
  [(KService, x_ServiceHash x); (KError, x_Error x); (KUserAgent, x_UserAgent x); (KReferer, x_Referer x)].
Definition step_ok (t : tstate) (st : step) : Prop := strict = true -> Forall (T t) (step_ids st).
Definition pack_ok (t : tstate) (p : profile_pack) : Prop :=
  T t (KService, pp_Service p) /\ exists l, pp_Profile p = steps_to_bytes l /\ Forall (fun o => match o with Some st => step_ok t st | None => True end) l.
Definition prof_ok (t : tstate) (p : prof) : Prop := Forall (step_ok t) (p_heap p) /\ Forall (pack_ok t) (p_sent p).
Definition ctx_ok (t : tstate) (x : tctx) : Prop := Forall (T t) (ctx_ids x) /\ prof_ok t (x_Profile x).
Definition event_ok (t : tstate) (e : aevent) : Prop := match e with EvXlog _ p => Forall (T t) (xlog_ids p) | _ => True end.
Definition ok (a : agent) : Prop := text_inv (a_text a) /\ Forall (ctx_ok (a_text a)) (a_ctx a) /\ Forall (event_ok (a_text a)) (a_log a).

Definition ext (t t' : tstate) : Prop := forall id, T t id -> T t' id.
Lemma ext_refl t : ext t t. Proof. intros id H. exact H. Qed.
Lemma ext_trans a b c : ext a b -> ext b c -> ext a c. Proof. intros H H' id I. auto. Qed.
Lemma ext_all t t' l : ext t t' -> Forall (T t) l -> Forall (T t') l.
Proof. intros E. apply Forall_impl. exact E. Qed.
Lemma ext_step t t' st : ext t t' -> step_ok t st -> step_ok t' st.
Proof. intros E H St. eapply ext_all; [exact E|exact (H St)]. Qed.
Lemma ext_pack t t' p : ext t t' -> pack_ok t p -> pack_ok t' p.
Proof. intros E (A & l & B & C). split; [apply E, A|]. exists l. split; [exact B|]. eapply Forall_impl; [|exact C]. intros [st|]; [apply ext_step, E|auto]. Qed.
Lemma ext_ctx t t' x : ext t t' -> ctx_ok t x -> ctx_ok t' x.
Proof.
  intros E (A & B & C). split; [eapply ext_all; eassumption|]. split; eapply Forall_impl; try eassumption; intros y; [apply ext_step, E|apply ext_pack, E].
Qed.
Lemma ext_event t t' e : ext t t' -> event_ok t e -> event_ok t' e.
Proof. intros E. destruct e as [h p| |]; cbn; auto. apply ext_all, E. Qed.

Definition tri {A} (K : list (kind * Z)) (m : M A) (Q : A -> list (kind * Z)) : Prop :=
  forall a, ok a -> Forall (T (a_text a)) K ->
    ok (fst (m a)) /\ ext (a_text a) (a_text (fst (m a))) /\ forall x, snd (m a) = Some x -> Forall (T (a_text (fst (m a)))) (Q x).
Definition nil_of {A} (_ : A) : list (kind * Z) := [].

Lemma tri_ret {A} K (x : A) Q : incl (Q x) K -> tri K (ret x) Q.
Proof. intros I a H HK. split; [exact H|]. split; [apply ext_refl|]. intros y [= <-]. cbn. rewrite Forall_forall in *. auto. Qed.
Lemma tri_panic {A} K (Q : A -> _) : tri K (@panic A) Q.
Proof. intros a H HK. split; [exact H|]. split; [apply ext_refl|]. discriminate. Qed.
Lemma tri_bind {A B} K (m : M A) (f : A -> M B) Q R : tri K m Q -> (forall x, tri (Q x ++ K) (f x) R) -> tri K (bind m f) R.
Proof.
  intros Hm Hf a H HK. unfold bind. specialize (Hm a H HK). destruct (m a) as [a' [x|]]; cbn [fst snd] in *; destruct Hm as (Ok & Ex & Qx).
  - specialize (Qx x eq_refl). destruct (Hf x a' Ok) as (Ok' & Ex' & R'); [apply Forall_app; split; [exact Qx|eapply ext_all; eassumption]|].
    split; [exact Ok'|]. split; [eapply ext_trans; eassumption|exact R'].
  - split; [exact Ok|]. split; [exact Ex|discriminate].
Qed.
Lemma tri_weak {A} K K' (m : M A) Q Q' : tri K m Q -> incl K K' -> (forall x, incl (Q' x) (Q x)) -> tri K' m Q'.
Proof.
  intros H I I' a Ho HK. destruct (H a Ho) as (A1 & A2 & A3); [rewrite Forall_forall in *; auto|]. split; [exact A1|]. split; [exact A2|].
  intros x E. specialize (A3 x E). rewrite Forall_forall in *. intros y Hy. apply A3. eapply I'. exact Hy.
Qed.
Lemma tri_nil {A} K (m : M A) Q : tri [] m Q -> tri K m nil_of.
Proof. intros H. eapply tri_weak; [exact H|intros x []|intros x y []]. Qed.
Lemma tri_recovered {A} K (d : A) m : tri K m nil_of -> tri K (recovered d m) nil_of.
Proof.
  intros H a Ho HK. unfold recovered. specialize (H a Ho HK). destruct (m a) as [a' [x|]]; cbn [fst snd] in *; destruct H as (A1 & A2 & A3).
  - split; [exact A1|]. split; [exact A2|]. intros; constructor.
  - split; [|split; [exact A2|intros; constructor]]. destruct A1 as (Ti & B & C). split; [exact Ti|]. split; [exact B|]. cbn. apply Forall_app. split; [exact C|]. constructor; [exact I|constructor].
Qed.
Lemma send_ext t k name room t' h : text_send k name room t = Some (t', h) -> ext t t'.
Proof. intros E id H. eapply T_mono; eassumption. Qed.
Lemma set_text_ok t a : text_inv t -> ext (a_text a) t -> ok a -> ok (set_text t a).
Proof. intros Ti E (_ & A & B). split; [exact Ti|]. split; cbn; eapply Forall_impl; try eassumption; intros y; [apply ext_ctx, E|apply ext_event, E]. Qed.
Lemma tri_send K n k name : tri K (send_text n k name) (fun h => [(k, h)]).
Proof.
  intros a H HK. unfold send_text. destruct (text_send k name (n_room n k name) (a_text a)) as [[t h]|] eqn:E; cbn [fst snd].
  - split; [apply set_text_ok; [eapply text_inv_send; [apply H|exact E]|eapply send_ext; exact E|exact H]|]. split; [eapply send_ext; exact E|]. intros x [= <-]. constructor; [|constructor].
    destruct name as [|b name]; [|eapply T_send; [apply H|exact E|discriminate]]. cbn in E. injection E as <- <-. apply T_zero.
  - split; [exact H|]. split; [apply ext_refl|discriminate].
Qed.
Lemma list_set_Forall {A} (P : A -> Prop) l : forall i x, Forall P l -> P x -> Forall P (list_set l i x).
Proof. induction l as [|y l IH]; intros i x H Hx; [constructor|]. inversion H; subst. destruct i; cbn; constructor; auto. Qed.
Lemma nth_ok a h x : ok a -> nth_error (a_ctx a) h = Some x -> ctx_ok (a_text a) x.
Proof. intros (_ & A & _) E. rewrite Forall_forall in A. apply A. eapply nth_error_In. exact E. Qed.
Lemma tri_modify K h f : (forall t x, ctx_ok t x -> Forall (T t) K -> ctx_ok t (f x)) -> tri K (modify h f) nil_of.
Proof.
  intros F a H HK. unfold modify. destruct (nth_error (a_ctx a) h) as [x|] eqn:E; cbn [fst snd].
  - split; [|split; [apply ext_refl|intros; constructor]]. pose proof (nth_ok _ _ _ H E) as Hx. destruct H as (Ti & A & B). split; [exact Ti|]. split; cbn; [|exact B]. apply list_set_Forall; [exact A|]. apply F; [exact Hx|exact HK].
  - split; [exact H|]. split; [apply ext_refl|discriminate].
Qed.
Lemma tri_read {A} K h (f : tctx -> A) Q : (forall t x, ctx_ok t x -> Forall (T t) (Q (f x))) -> tri K (read h f) Q.
Proof.
  intros F a H HK. unfold read. destruct (nth_error (a_ctx a) h) as [x|] eqn:E; cbn [fst snd].
  - split; [exact H|]. split; [apply ext_refl|]. intros y [= <-]. apply F. eapply nth_ok; eassumption.
  - split; [exact H|]. split; [apply ext_refl|discriminate].
Qed.
Lemma tri_state {A} K (m : M A) : (forall a, fst (m a) = a) -> tri K m nil_of.
Proof. intros F a H HK. rewrite F. split; [exact H|]. split; [apply ext_refl|intros; constructor]. Qed.
Lemma tri_get_tctx K c : tri K (get_tctx c) nil_of.
Proof. apply tri_state. intros a. destruct c; reflexivity. Qed.
Lemma tri_traced {A} K c (d : A) k : (forall h, tri K (k h) nil_of) -> tri K (traced c d k) nil_of.
Proof.
  intros H. assert (tri K (ret d) nil_of) as R by (apply tri_ret; intros x []).
  destruct c; cbn [traced]; try exact R; (eapply tri_bind; [apply tri_get_tctx|]; intros [h0|]; [apply (tri_weak K _ _ _ _ (H h0)); [intros x Hx; apply in_or_app; right; exact Hx|intros x y []]|apply tri_ret; intros x []]).
Qed.
Lemma tri_for_each {A} K (l : list A) f : (forall x, tri K (f x) nil_of) -> tri K (for_each l f) nil_of.
Proof. intros H. induction l as [|x l IH]; cbn [for_each]; [apply tri_ret; intros y []|]. eapply tri_bind; [apply H|]. intros u. exact IH. Qed.
Lemma tri_emit K e : (match e with EvXlog _ _ => False | _ => True end) -> tri K (emit e) nil_of.
Proof.
  intros N a (Ti & A & B) HK. cbn. split; [|split; [apply ext_refl|intros; constructor]]. split; [exact Ti|]. split; [exact A|]. cbn. apply Forall_app. split; [exact B|]. constructor; [|constructor]. destruct e; cbn; auto; contradiction.
Qed.

(** * Profiles *)
Lemma step_ids_links a b st : step_ids (set_links a b st) = step_ids st.
Proof. destruct st; reflexivity. Qed.
Lemma send0_ok t e g p : T t (KService, e_service e) -> prof_ok t p -> prof_ok t (send_profile0 e g p) /\ p_heap (send_profile0 e g p) = p_heap p.
Proof.
  intros S (A & B). destruct g as [|i g]; [split; [split|]; auto|]. cbn [send_profile0]. split; [|reflexivity]. split; [exact A|]. cbn [p_sent]. apply Forall_app. split; [exact B|].
  constructor; [|constructor]. split; [exact S|]. eexists. split; [reflexivity|]. apply Forall_forall. intros o Ho. apply in_map_iff in Ho as (j & <- & _). unfold deref.
  destruct (nth_error (p_heap p) j) as [st|] eqn:E; [|exact I]. rewrite Forall_forall in A. apply A. eapply nth_error_In. exact E.
Qed.
Lemma send_fold_ok t e gs : forall p, T t (KService, e_service e) -> prof_ok t p -> prof_ok t (fold_left (fun p g => send_profile0 e g p) gs p).
Proof. induction gs as [|g gs IH]; intros p S H; [exact H|]. cbn [fold_left]. apply IH; [exact S|]. apply send0_ok; assumption. Qed.
Lemma send_ok t e l p p' : send_profile e l p = Some p' -> T t (KService, e_service e) -> prof_ok t p -> prof_ok t p'.
Proof. unfold send_profile. destruct (send_groups (e_bulk e) l) as [gs|]; [|discriminate]. intros [= <-]. apply send_fold_ok. Qed.
Lemma process_ok t e i p p' : process e i p = Some p' -> T t (KService, e_service e) -> prof_ok t p -> prof_ok t p'.
Proof.
  unfold process. destruct (p_len p <=? zlen (p_buf p)); [discriminate|]. cbv zeta. destruct (p_len p <=? zlen (p_buf p ++ [i])).
  - destruct (e_keep e <? 0); [discriminate|]. intros E S H. eapply send_ok; [exact E|exact S|]. exact H.
  - intros [= <-] S H. exact H.
Qed.
Lemma add_ok t e st p p' : add e st p = Some p' -> T t (KService, e_service e) -> step_ok t st -> prof_ok t p -> prof_ok t p'.
Proof.
  unfold add. intros E S Hs (A & B). eapply process_ok; [exact E|exact S|]. split; [|exact B]. cbn [p_heap]. apply Forall_app. split; [exact A|].
  constructor; [|constructor]. unfold step_ok. rewrite step_ids_links. exact Hs.
Qed.
Lemma push_ok t st p : step_ok t st -> prof_ok t p -> prof_ok t (push st p).
Proof.
  intros Hs (A & B). split; [|exact B]. cbn [p_heap push]. apply Forall_app. split; [exact A|]. constructor; [|constructor]. unfold step_ok. rewrite step_ids_links. exact Hs.
Qed.
Lemma heap_set_Forall (P : step -> Prop) l : forall i x, Forall P l -> P x -> Forall P (heap_set l i x).
Proof. induction l as [|y l IH]; intros i x H Hx; [constructor|]. inversion H; subst. destruct i; cbn; constructor; auto. Qed.
Lemma pop_ok t e i st p p' : pop e i st p = Some p' -> T t (KService, e_service e) -> step_ok t st -> prof_ok t p -> prof_ok t p'.
Proof.
  unfold pop. destruct (deref (p_heap p) i) as [old|]; [|intros [= <-] _ _ H; exact H]. intros E S Hs (A & B). eapply process_ok; [exact E|exact S|]. split; [|exact B].
  cbn [p_heap]. apply heap_set_Forall; [exact A|]. unfold step_ok. rewrite step_ids_links. exact Hs.
Qed.
Lemma close_ok t e b p p' : close e b p = Some p' -> T t (KService, e_service e) -> prof_ok t p -> prof_ok t p'.
Proof.
  unfold close. destruct (p_buf p) as [|i l]; [intros [= <-]; auto|]. destruct b; [|intros [= <-]; auto]. intros E S H. eapply send_ok; eassumption.
Qed.
Lemma tri_profile {A} K h (f : tctx -> option (prof * A)) : (forall t x p r, ctx_ok t x -> Forall (T t) K -> f x = Some (p, r) -> prof_ok t p) -> tri K (profile_op h f) nil_of.
Proof.
  intros F a H HK. unfold profile_op. destruct (nth_error (a_ctx a) h) as [x|] eqn:E; cbn [fst snd].
  - destruct (f x) as [[p r]|] eqn:Ef; cbn [fst snd].
    + split; [|split; [apply ext_refl|intros; constructor]]. pose proof (nth_ok _ _ _ H E) as Hx. destruct H as (Ti & A1 & B). split; [exact Ti|]. split; cbn; [|exact B]. apply list_set_Forall; [exact A1|].
      pose proof (F _ _ _ _ Hx HK Ef) as Hp. destruct Hx as (C & D). split; [exact C|exact Hp].
    + split; [exact H|]. split; [apply ext_refl|discriminate].
  - split; [exact H|]. split; [apply ext_refl|discriminate].
Qed.
Lemma ctx_service t x : ctx_ok t x -> T t (KService, x_ServiceHash x).
Proof. intros (A & _). inversion A; assumption. Qed.
Lemma tri_add K n h st : incl (step_ids st) K -> tri K (profile_add n h st) nil_of.
Proof.
  intros I. apply tri_profile. intros t x p r Hx HK E. unfold unit_op in E. destruct (add (env_of n x) st (x_Profile x)) as [p'|] eqn:Ea; [|discriminate]. injection E as <- _.
  pose proof (ctx_service _ _ Hx). destruct Hx as (_ & Hp). eapply add_ok; [exact Ea|assumption| |exact Hp]. intros _. rewrite Forall_forall in *. auto.
Qed.
Lemma tri_push K h st : incl (step_ids st) K -> tri K (profile_push h st) nil_of.
Proof.
  intros I. apply tri_profile. intros t x p r Hx HK E. injection E as <- _. destruct Hx as (_ & Hp). apply push_ok; [|exact Hp]. intros _. rewrite Forall_forall in *. auto.
Qed.
Lemma tri_pop K n h i st : incl (step_ids st) K -> tri K (profile_pop n h i st) nil_of.
Proof.
  intros I. apply tri_profile. intros t x p r Hx HK E. unfold unit_op in E. destruct (pop (env_of n x) i st (x_Profile x)) as [p'|] eqn:Ea; [|discriminate]. injection E as <- _.
  pose proof (ctx_service _ _ Hx). destruct Hx as (_ & Hp). eapply pop_ok; [exact Ea|assumption| |exact Hp]. intros _. rewrite Forall_forall in *. auto.
Qed.


(** * Ending *)
Lemma after_send_eq n k name t : text_send k name (n_room n k name) t = Some (after_send n k name t, text_hash name).
Proof.
  unfold after_send, text_send. destruct name as [|b s]; [reflexivity|]. rewrite (hash_text (b :: s)) by discriminate. destruct (lra_contains _ _); reflexivity.
Qed.
Lemma after_send_inv n k name t : text_inv t -> text_inv (after_send n k name t).
Proof. intros H. eapply text_inv_send; [exact H|apply after_send_eq]. Qed.
Lemma after_send_ext n k name t : ext t (after_send n k name t).
Proof. eapply send_ext. apply after_send_eq. Qed.
Lemma after_send_known n k name t : text_inv t -> T (after_send n k name t) (k, text_hash name).
Proof.
  intros H. destruct name as [|b s]; [apply T_zero|]. eapply T_send; [exact H|apply after_send_eq|discriminate].
Qed.
Lemma end_texts_facts n x t : text_inv t -> text_inv (end_texts n x t) /\ ext t (end_texts n x t) /\
  Forall (T (end_texts n x t)) [(KService, text_hash (x_ServiceName x)); (KHashMsg, text_hash (format_int 10 (x_Gxid x))); (KLogin, text_hash (x_Login x)); (KDesc, text_hash (x_Desc x))].
Proof.
  intros H. unfold end_texts. set (t1 := after_send n KService (x_ServiceName x) t). set (t2 := after_send n KHashMsg (format_int 10 (x_Gxid x)) t1).
  set (t3 := after_send n KLogin (x_Login x) t2). set (t4 := after_send n KDesc (x_Desc x) t3).
  assert (text_inv t1) as I1 by (apply after_send_inv, H). assert (text_inv t2) as I2 by (apply after_send_inv, I1). assert (text_inv t3) as I3 by (apply after_send_inv, I2).
  assert (ext t t1) as E1 by apply after_send_ext. assert (ext t1 t2) as E2 by apply after_send_ext. assert (ext t2 t3) as E3 by apply after_send_ext. assert (ext t3 t4) as E4 by apply after_send_ext.
  split; [apply after_send_inv, I3|]. split; [repeat (eapply ext_trans; [eassumption|]); apply ext_refl|].
  repeat constructor.
  - apply E4, E3, E2, after_send_known, H.
  - apply E4, E3, after_send_known, I1.
  - apply E4, after_send_known, I2.
  - apply after_send_known, I3.
Qed.
Lemma tri_end K n h : tri K (end_tctx n h) nil_of.
Proof.
  intros a H HK. destruct (nth_error (a_ctx a) h) as [x|] eqn:E.
  2:{ unfold end_tctx, bind, read. rewrite E. split; [exact H|]. split; [apply ext_refl|discriminate]. }
  destruct (x_Closed x) eqn:C.
  { rewrite (end_closed _ _ _ _ E C). split; [exact H|]. split; [apply ext_refl|intros; constructor]. }
  rewrite (end_open _ _ _ _ E C). cbv zeta. set (d := discard_of n a x).
  destruct (end_texts_facts n x (a_text a) (proj1 H)) as (Ti & Ex & Fk). pose proof (ext_ctx _ _ _ Ex (nth_ok _ _ _ H E)) as Hx.
  assert (forall p ev, prof_ok (end_texts n x (a_text a)) p -> Forall (event_ok (end_texts n x (a_text a))) ev -> ok (end_state n h x p ev a)) as Ok.
  { intros p ev Hp Hev. destruct H as (_ & A & B). unfold end_state. split; [exact Ti|]. split; cbn [a_ctx a_text a_log].
    - apply list_set_Forall; [eapply Forall_impl; [|exact A]; intros y; apply ext_ctx, Ex|]. destruct Hx as (C1 & _). unfold ctx_ids in C1. inversion_clear C1 as [|? ? _ C2]. split; [|exact Hp].
      inversion_clear Fk as [|? ? F1 _]. constructor; [exact F1|exact C2].
    - apply Forall_app. split; [eapply Forall_impl; [|exact B]; intros y; apply ext_event, Ex|exact Hev]. }
  destruct (close (env_of n (closed_ctx x)) (d =? DISCARD_NONE) (x_Profile x)) as [p|] eqn:Ec; cbn [fst snd].
  - split; [|split; [exact Ex|intros; constructor]]. apply Ok.
    + eapply close_ok; [exact Ec| |apply Hx]. inversion_clear Fk as [|? ? F1 _]. exact F1.
    + unfold end_events. constructor; [exact I|]. destruct (sends x d); [|constructor]. constructor; [|constructor]. cbn [event_ok]. unfold xlog_ids, the_xlog. cbn.
      destruct Hx as (C1 & _). unfold ctx_ids in C1. rewrite !Forall_cons_iff in *. tauto.
  - split; [|split; [exact Ex|discriminate]]. apply Ok; [apply Hx|constructor].
Qed.

(** * Calls *)
Lemma bind_nil {A B} K (m : M A) (f : A -> M B) R : tri K m nil_of -> (forall x, tri K (f x) R) -> tri K (bind m f) R.
Proof. intros H H'. eapply tri_bind; [exact H|]. exact H'. Qed.
Lemma bind_send {B} K n k name (f : Z -> M B) R : (forall h, tri ((k, h) :: K) (f h) R) -> tri K (bind (send_text n k name) f) R.
Proof. intros H. eapply tri_bind; [apply tri_send|]. exact H. Qed.
Lemma bind_ctx {B} K h (f : tctx -> M B) R : (forall x, tri (ctx_ids x ++ K) (f x) R) -> tri K (bind (read h (fun x => x)) f) R.
Proof. intros H. eapply tri_bind; [apply (tri_read _ _ _ ctx_ids); intros t x Hx; apply Hx|]. exact H. Qed.
Definition opt_ids (o : option step) : list (kind * Z) := match o with Some st => step_ids st | None => [] end.
Ltac isub := let y := fresh "y" in let I := fresh "I" in intros y I; cbn in I; cbn; intuition (subst; auto).
Ltac keep_ids := let t := fresh in let x := fresh in let A := fresh in let B := fresh in let HK := fresh in
  intros t x (A & B) HK; split; [|exact B]; unfold ctx_ids in *; cbn; rewrite ?Forall_cons_iff, ?Forall_app in *; cbn in *; tauto.
Ltac step1 := lazymatch goal with
  | |- tri _ (ret _) _ => apply tri_ret; isub
  | |- tri _ panic _ => apply tri_panic
  | |- tri _ (end_tctx _ _) _ => apply tri_end
  | |- tri _ (get_tctx _) _ => apply tri_get_tctx
  | |- tri _ (recovered _ _) _ => eapply tri_recovered
  | |- tri _ (traced _ _ _) _ => apply tri_traced; intros ?
  | |- tri _ (for_each _ _) _ => apply tri_for_each; intros ?
  | |- tri _ (emit _) _ => apply tri_emit; exact I
  | |- tri _ (profile_add _ _ ?st) _ => apply tri_add; lazymatch st with message_step _ _ => intros ? [] | header_step _ _ => intros ? [] | _ => isub end
  | |- tri _ (profile_push _ _) _ => apply tri_push; isub
  | |- tri _ (profile_pop _ _ _ _) _ => apply tri_pop; isub
  | |- tri _ (bind (send_text _ _ _) _) _ => apply bind_send; intros ?
  | |- tri _ (bind (read _ (fun x => x)) _) _ => apply bind_ctx; intros ?
  | |- tri _ (bind _ _) _ => apply bind_nil; [|intros ?]
  | |- tri _ (read _ _) _ => apply (tri_read _ _ _ nil_of); intros; constructor
  | |- tri _ (modify _ _) _ => apply tri_modify; keep_ids
  | |- tri _ (if ?b then _ else _) _ => destruct b
  | |- tri _ (match ?o with _ => _ end) _ => destruct o end.
Ltac tri_tac := unfold millis; repeat step1.

Lemma tri_start0 K n name addr : tri K (start_service0 n name addr) nil_of.
Proof.
  unfold start_service0. apply bind_nil; [|intros h].
  - intros a H HK. unfold alloc. destruct (new_tctx (cf_keep (n_conf n)) (n_key n) (n_now n)) as [x|] eqn:E; cbn [fst snd].
    + split; [|split; [apply ext_refl|intros; constructor]]. destruct H as (Ti & A & B). split; [exact Ti|]. split; cbn; [|exact B]. apply Forall_app. split; [exact A|]. constructor; [|constructor].
      unfold new_tctx in E. destruct (new_prof (cf_keep (n_conf n))) as [p|] eqn:Ep; [|discriminate]. injection E as <-. unfold new_prof in Ep. destruct (cf_keep (n_conf n) <? 0); [discriminate|]. injection Ep as <-.
      split; [repeat constructor; apply T_zero|split; constructor].
    + split; [exact H|]. split; [apply ext_refl|discriminate].
  - apply bind_nil; [|intros ?].
    + unfold tm_start. apply bind_nil; [apply (tri_read _ _ _ nil_of); intros; constructor|]. intros tx a H HK. split; [exact H|]. split; [apply ext_refl|intros; constructor].
    + tri_tac.
Qed.
Lemma tri_pmessage K n c l m e p : tri K (add_pmessage_step n c l m e p) nil_of.
Proof. unfold add_pmessage_step. tri_tac. Qed.
Lemma tri_stuck K n h : tri K (end_stuck n h) nil_of.
Proof. unfold end_stuck. tri_tac. Qed.
Lemma tri_active n vs : forall K c c0 c1 c2, tri K (active_loop n c vs c0 c1 c2) nil_of.
Proof.
  induction vs as [|h vs IH]; intros K c c0 c1 c2; cbn [active_loop]; [tri_tac|]. destruct (2000 <? c + 1); [tri_tac|].
  apply bind_nil; [tri_tac|]. intros el. destruct (if el <=? _ then _ else _) as [[d0 d1] d2]. apply bind_nil; [|intros; apply IH].
  destruct (_ <? el); [|tri_tac]. apply bind_nil; [apply tri_stuck|intros; tri_tac].
Qed.
Lemma tri_fmap {A B} K (f : A -> B) m : tri K m nil_of -> tri K (fmap f m) nil_of.
Proof. intros H. unfold fmap. apply bind_nil; [exact H|]. intros y. apply tri_ret. intros z []. Qed.
Ltac step2 := lazymatch goal with
  | |- tri _ (start_service0 _ _ _) _ => apply tri_start0
  | |- tri _ (add_pmessage_step _ _ _ _ _ _) _ => apply tri_pmessage
  | _ => step1 end.
Ltac tri_tac2 := unfold millis; repeat step2.
Lemma tri_inherit K n h ph : tri K (inherit_tctx n h ph) nil_of.
Proof.
  unfold inherit_tctx. tri_tac2. apply tri_modify. intros t y (A & B) HK. split; [|exact B]. unfold ctx_ids in *. unfold inherit_fields. cbn [x_ServiceHash x_Error x_UserAgent x_Referer set_Text5 set_Text4 set_Text3 set_Text2 set_Text1 set_Desc set_Login set_CallerObjHash set_Caller set_IsChildTx set_Referer set_UserAgent set_Userid set_ApicallTime set_ApicallCount set_SqlTime set_SqlCount set_HttpMethod set_Error set_IsStream].
  cbn [app] in HK. rewrite ?Forall_cons_iff in *. tauto.
Qed.
Lemma tri_child K n c name : tri K (start_child n c name) nil_of.
Proof. unfold start_child. tri_tac2. Qed.
Lemma tri_any K n c : tri K (end_any n c) nil_of.
Proof. unfold end_any. tri_tac2. Qed.
Lemma tri_api0 K n h name addr : tri K (start_api_call0 n h name addr) nil_of.
Proof. 
  unfold start_api_call0, millis. apply bind_send. intros h0. apply bind_nil; [tri_tac|]. intros st. apply tri_profile. intros t x p r Hx HK E. injection E as <- _. destruct Hx as (_ & Hp). apply push_ok; [|exact Hp].
  intros _. cbn. inversion_clear HK as [|? ? HK1 _]. constructor; [exact HK1|]. constructor; [apply T_zero|constructor].
Qed.
Lemma tri_method0 K n h f m ps : tri K (start_method0 n h f m ps) nil_of.
Proof. unfold start_method0, add_params. tri_tac2. Qed.
Lemma tri_headers K n r h : tri K (profile_http_headers n r h) nil_of.
Proof. unfold profile_http_headers. tri_tac2. Qed.
Lemma bind_step {B} K h p (f : option step -> M B) R : (forall o, tri ((if strict then opt_ids o else []) ++ K) (f o) R) -> tri K (bind (read_step h p) f) R.
Proof.
  intros H. eapply tri_bind; [|exact H]. apply (tri_read _ _ _ (fun o => if strict then opt_ids o else [])). intros t x Hx. destruct (deref (p_heap (x_Profile x)) p) as [st|] eqn:E; cbn [opt_ids]; [|destruct strict; constructor].
  destruct Hx as (_ & Hx & _). rewrite Forall_forall in Hx. unfold deref in E. apply nth_error_In in E. specialize (Hx _ E). unfold step_ok in Hx. destruct strict; [auto|constructor].
Qed.
Lemma tri_pop_if K n h i st : (strict = true -> incl (step_ids st) K) -> tri K (profile_pop n h i st) nil_of.
Proof.
  intros I. apply tri_profile. intros t x p r Hx HK E. unfold unit_op in E. destruct (pop (env_of n x) i st (x_Profile x)) as [p'|] eqn:Ea; [|discriminate]. injection E as <- _.
  pose proof (ctx_service _ _ Hx). destruct Hx as (_ & Hp). eapply pop_ok; [exact Ea|assumption| |exact Hp]. intros St. specialize (I St). rewrite Forall_forall in *. auto.
Qed.
Lemma tri_call n k : (strict = true -> adds_plain_steps (n, k)) -> k <> KResetText -> tri [] (do_call n k) nil_of.
Proof.
  intros Hp Hr. destruct k; cbn [do_call]; try (apply tri_fmap).
  - unfold start_service. tri_tac2.
  - unfold start_http_service. destruct c; [tri_tac2| |]. all: eapply tri_recovered, bind_nil; [tri_tac2|]; intros [o|]; [tri_tac2|]; destruct req as [r|]; [|tri_tac2].
    all: apply bind_nil; [apply tri_start0|]; intros h0; apply bind_nil; [tri_tac2|]; intros _; apply bind_send; intros ua; apply bind_nil; [tri_tac2|]; intros _; apply bind_nil; [tri_tac2|]; intros _;
      apply bind_send; intros rf; apply bind_nil; [tri_tac2|]; intros _; apply bind_nil; [apply tri_headers|]; intros _; tri_tac2.
  - unfold start_inheritance. eapply tri_recovered, bind_ctx. intros p0. apply bind_nil; [apply tri_start0|]. intros h. apply bind_nil; [apply tri_inherit|]. intros _. tri_tac2.
  - unfold go_with_trace. eapply tri_recovered, bind_nil; [apply tri_child|]. intros; tri_tac2.
  - unfold go_begin. tri_tac2.
  - unfold end_service. eapply tri_recovered, tri_any.
  - unfold end_service. eapply tri_recovered, tri_any.
  - unfold end_http_service. eapply tri_recovered. destruct status as [code|]; [|apply tri_any]. apply tri_traced. intros h. apply bind_nil; [tri_tac2|]. intros [|]; [tri_tac2|].
    apply bind_nil; [tri_tac2|]. intros _. apply tri_any.
  - unfold is_stream. tri_tac2.
  - unfold set_as_stream. tri_tac2.
  - unfold mark_as_error. eapply tri_recovered. apply tri_traced. intros h. apply bind_nil; [tri_tac2|]. intros e. apply bind_nil; [tri_tac2|]. intros _. apply tri_pmessage.
  - unfold mark_as_error_forcibly. tri_tac2.
  - unfold set_service_name. tri_tac2.
  - unfold add_step. eapply tri_recovered. apply tri_traced. intros h. destruct st as [st|]; [|tri_tac2]. apply tri_profile. intros t x p r Hx HK E.
    unfold unit_op in E. destruct (add (env_of n x) st (x_Profile x)) as [p'|] eqn:Ea; [|discriminate]. injection E as <- _.
    pose proof (ctx_service _ _ Hx). destruct Hx as (_ & Hx). eapply add_ok; [exact Ea|assumption| |exact Hx]. intros St. specialize (Hp St). unfold adds_plain_steps in Hp. cbn [snd] in Hp. eapply Forall_impl; [|exact Hp]. intros [k z]. cbn. intros ->. apply T_zero.
  - unfold add_message_step. tri_tac2.
  - unfold add_hashed_message_step. tri_tac2.
  - apply tri_pmessage.
  - unfold start_method. eapply tri_recovered. apply tri_traced. intros h. apply tri_method0.
  - unfold start_custom_method. eapply tri_recovered. apply tri_traced. intros h. apply tri_method0.
  - unfold end_method. eapply tri_recovered. destruct ptr as [ptr|]; [|tri_tac2]. apply tri_traced. intros h. apply bind_step. intros [[s hs el cpu| | | | | | ]|]; try (apply tri_ret; intros y []).
    apply bind_nil; [tri_tac2|]. intros now. apply tri_pop_if. intros ->. cbn. intros y [<- | []]. left. reflexivity.
  - unfold start_api_call. eapply tri_recovered. apply tri_traced. intros h. apply bind_nil; [apply tri_api0|]. intros; tri_tac2.
  - unfold start_api_call_prop. eapply tri_recovered. apply tri_traced. intros h. apply bind_nil; [apply tri_api0|]. intros; tri_tac2.
  - unfold end_api_call. eapply tri_recovered. destruct ptr as [ptr|]; [|tri_tac2]. apply tri_traced. intros h. apply bind_step. intros [[ |s tx hs el0 cpu er opt addr| | | | | ]|]; try (apply tri_ret; intros y []).
    apply bind_nil; [tri_tac2|]. intros now. cbv zeta. apply bind_nil; [apply tri_modify; intros t x Hx _; exact Hx|]. intros _.
    set (K := (if strict then opt_ids (Some (SApiCall s tx hs el0 cpu er opt addr)) else []) ++ []).
    eapply (tri_bind K _ _ (fun e => if strict then [(KError, e)] else [])).
    + destruct err as [msg|].
      * apply bind_send. intros e. apply bind_nil.
        -- apply tri_modify. intros t x (A & B) HK. split; [|destruct (x_Error x =? 0); exact B]. inversion_clear HK as [|? ? HK1 _]. unfold ctx_ids in *. destruct (x_Error x =? 0); cbn; [|exact A]. rewrite ?Forall_cons_iff in *. tauto.
        -- intros _. apply tri_ret. destruct strict; [|intros y []]. intros y [<- | []]. left. reflexivity.
      * apply tri_ret. subst K. destruct strict; [|intros y []]. cbn. intros y [<- | []]. right. left. reflexivity.
    + intros e. apply tri_pop_if. intros St. subst K. rewrite St. cbn. intros y [<- | [<- | []]]; [right; left|left]; reflexivity.
  - unfold set_user. apply tri_traced. intros h. apply tri_modify. keep_ids.
  - unfold get_active_count. intros a. apply tri_active.
  - contradiction.
  - intros a (Ti & A & B) HK. split; [split; [exact Ti|split; assumption]|]. split; [apply ext_refl|intros; constructor].
Qed.
End Triples.

(** * Instances *)
Lemma offers_in k log : forall p, In p (since_clear k log) -> In (k, p) (offers log).
Proof.
  induction log as [|[k' p' room|k'] log IH]; intros p H; [destruct H| |]; cbn [since_clear offers] in *.
  - destruct (L_Text.kind_eqb_spec k k') as [<-|N]; [|right; auto]. destruct H as [<-|H]; [left; reflexivity|right; auto].
  - destruct (kind_eqb k k'); [destruct H|auto].
Qed.
Definition ever (t : tstate) (id : kind * Z) : Prop := told_in (offers (t_log t)) id.
Lemma told_incl l l' id : incl l l' -> told_in l id -> told_in l' id.
Proof. intros I [H|(text & H & J)]; [left; exact H|right]. exists text. split; [exact H|apply I, J]. Qed.
Lemma ever_zero t k : ever t (k, 0).
Proof. left. reflexivity. Qed.
Lemma ever_mono t k name room t' h id : text_send k name room t = Some (t', h) -> ever t id -> ever t' id.
Proof. intros E. apply told_incl. destruct (offers_send _ _ _ _ _ _ E) as [->| ->]; [intros x Hx; exact Hx|]. intros x Hx. right. exact Hx. Qed.
Lemma in_newest {A} n (l : list A) x : In x (newest n l) -> In x l.
Proof. unfold newest. intros H. rewrite <- (firstn_skipn (Z.to_nat n) l). apply in_or_app. left. exact H. Qed.
Lemma send_since t k name room t' h : text_inv t -> text_send k name room t = Some (t', h) -> name <> [] ->
  exists p, In p (since_clear k (t_log t')) /\ tp_Hash p = h.
Proof.
  intros (I & G) E N. unfold text_send in E. destruct name as [|b s]; [congruence|]. destruct (hash_string (b :: s)) as [z|] eqn:Eh; [|discriminate].
  destruct (lra_contains (t_cache t k) z) eqn:C; injection E as <- <-.
  - apply (contains_iff t k z I) in C. apply in_newest in C. unfold hashes in C. apply in_map_iff in C as (p & Hp & Hi). exists p. split; assumption.
  - exists (mk_text_pack (text_type k) z (b :: s)). split; [cbn [t_add_pack t_add_key t_log since_clear]|reflexivity]. destruct (L_Text.kind_eqb_spec k k) as [_|Nk]; [left; reflexivity|congruence].
Qed.
Lemma since_told t k p : text_inv t -> In p (since_clear k (t_log t)) -> exists text, hash_string text = Some (tp_Hash p) /\ p = mk_text_pack (wire_type k) (tp_Hash p) text.
Proof. intros (_ & G) H. destruct (G k p H) as (A & _ & B). exists (tp_Text p). split; [exact B|]. rewrite wire_text_type, <- A. destruct p; reflexivity. Qed.
Lemma ever_send t k name room t' h : text_inv t -> text_send k name room t = Some (t', h) -> name <> [] -> ever t' (k, h).
Proof.
  intros I E N. destruct (send_since _ _ _ _ _ _ I E N) as (p & Hp & <-). pose proof (text_inv_send _ _ _ _ _ _ I E) as I'. destruct (since_told _ _ _ I' Hp) as (text & Ht & Ep).
  right. exists text. split; [exact Ht|]. cbn [fst snd]. rewrite <- Ep. apply offers_in, Hp.
Qed.
Lemma reset_ever t : text_inv t -> text_inv (reset_text_sent t) /\ (forall id, ever t id -> ever (reset_text_sent t) id).
Proof.
  unfold reset_text_sent. intros (I & G). split; [split; [apply fold_clear_inv, I|apply good_clear, G]|]. clear I G. revert t. induction reset_order as [|k ks IH]; intros t id H; [exact H|].
  cbn [fold_left]. apply IH. exact H.
Qed.
Lemma ok_run strict c ops : (strict = true -> Forall adds_plain_steps ops) -> ok ever strict (after c ops).
Proof.
  intros H. unfold after. apply (run_ind (ok ever strict) (fun nk => strict = true -> adds_plain_steps nk)).
  - intros n k b Hk Hb. assert (k = KResetText \/ k <> KResetText) as [->|N] by (destruct k; (left; reflexivity) || (right; discriminate)).
    + cbn [do_call fst]. destruct (reset_ever (a_text b) (proj1 Hb)) as (I & E). apply set_text_ok; [exact I|exact E|exact Hb].
    + apply (tri_call ever ever_zero ever_send ever_mono strict n k Hk N b Hb). constructor.
  - destruct strict; [|apply Forall_forall; discriminate]. eapply Forall_impl; [|exact (H eq_refl)]. auto.
  - split; [split; [apply t_inv_init|intros k p []]|]. split; constructor.
Qed.
