(** What a call leaves alone in the services that exist. *)
From Verif Require Import GoInt M_Util M_StrMatch M_Packs M_Steps M_Cache M_Text M_Sampler M_Profile M_Trace L_Trace L_TraceRel S_Trace L_TraceStart.
From Coq Require Import ZifyBool.

(** [Q h x y]: how the context of service [h] may change *)
Definition frame (N : nat) (Q : nat -> tctx -> tctx -> Prop) (a b : agent) : Prop :=
  (N <= length (a_ctx b))%nat /\
  forall h x, (h < N)%nat -> nth_error (a_ctx a) h = Some x -> exists y, nth_error (a_ctx b) h = Some y /\ Q h x y.
Definition fr (N : nat) (Q : nat -> tctx -> tctx -> Prop) {A} (m : M A) : Prop :=
  forall a, (N <= length (a_ctx a))%nat -> frame N Q a (fst (m a)).

Section Frame.
Context (N : nat) (Q : nat -> tctx -> tctx -> Prop).
Context (Qrefl : forall h x, Q h x x) (Qtrans : forall h x y z, Q h x y -> Q h y z -> Q h x z).

Lemma frame_ctx a b : (N <= length (a_ctx a))%nat -> a_ctx b = a_ctx a -> frame N Q a b.
Proof. intros L E. split; [rewrite E; exact L|]. intros h x _ Eh. exists x. rewrite E. auto. Qed.
Lemma frame_trans a b c : frame N Q a b -> frame N Q b c -> frame N Q a c.
Proof.
  intros (L1 & H1) (L2 & H2). split; [exact L2|]. intros h x Hh E. destruct (H1 h x Hh E) as (y & Ey & Qy), (H2 h y Hh Ey) as (z & Ez & Qz).
  exists z. split; [exact Ez|]. eapply Qtrans; eassumption.
Qed.
Lemma fr_same {A} (m : M A) : (forall a, a_ctx (fst (m a)) = a_ctx a) -> fr N Q m.
Proof. intros H a L. apply frame_ctx; [exact L|apply H]. Qed.
Lemma fr_ret {A} (x : A) : fr N Q (ret x). Proof. apply fr_same. reflexivity. Qed.
Lemma fr_panic {A} : fr N Q (@panic A). Proof. apply fr_same. reflexivity. Qed.
Lemma fr_read {A} h (f : tctx -> A) : fr N Q (read h f). Proof. apply fr_same. intros a. rewrite read_state. reflexivity. Qed.
Lemma fr_get_tctx c : fr N Q (get_tctx c). Proof. apply fr_same. intros a. rewrite get_tctx_state. reflexivity. Qed.
Lemma fr_send n k name : fr N Q (send_text n k name). Proof. apply fr_same. intros a. rewrite send_text_eq. reflexivity. Qed.
Lemma fr_emit e : fr N Q (emit e). Proof. apply fr_same. reflexivity. Qed.
Lemma fr_bind {A B} (m : M A) (f : A -> M B) : fr N Q m -> (forall x, fr N Q (f x)) -> fr N Q (bind m f).
Proof.
  intros Hm Hf a L. unfold bind. specialize (Hm a L). destruct (m a) as [b [x|]]; [|exact Hm]. cbn [fst] in Hm.
  eapply frame_trans; [exact Hm|]. apply Hf. apply Hm.
Qed.
Lemma fr_recovered {A} (d : A) m : fr N Q m -> fr N Q (recovered d m).
Proof.
  intros H a L. unfold recovered. specialize (H a L). destruct (m a) as [b [x|]]; [exact H|]. exact H.
Qed.
Lemma fr_traced {A} c (d : A) k : (forall h, fr N Q (k h)) -> fr N Q (traced c d k).
Proof.
  intros H. unfold traced. destruct c; [apply fr_ret| |]; (apply fr_bind; [apply fr_get_tctx|intros [i|]; [apply H|apply fr_ret]]).
Qed.
(** with the argument of the call *)
Lemma fr_traced_at {A} c (d : A) k : (forall h, c = CTrace h -> fr N Q (k h)) -> fr N Q (traced c d k).
Proof.
  intros H a L. unfold traced. destruct c as [| |h]; [apply fr_ret; exact L|apply frame_ctx; [exact L|reflexivity]|].
  unfold bind. cbn [get_tctx]. destruct (nth_error (a_ctx a) h); [apply H; [reflexivity|exact L]|apply frame_ctx; [exact L|reflexivity]].
Qed.
Lemma fr_for_each {A} (l : list A) f : (forall x, fr N Q (f x)) -> fr N Q (for_each l f).
Proof. intros H. induction l as [|x l IH]; cbn [for_each]; [apply fr_ret|]. apply fr_bind; [apply H|intros; exact IH]. Qed.
Lemma frame_upd a h x y : (N <= length (a_ctx a))%nat -> nth_error (a_ctx a) h = Some x -> ((h < N)%nat -> Q h x y) -> frame N Q a (upd a h y).
Proof.
  intros L E Hq. split; [cbn; rewrite list_set_length; exact L|]. intros k z Hk Ez. cbn. rewrite list_set_nth.
  destruct (Nat.eqb_spec h k) as [<-|]; cbn [andb]; [|exists z; auto].
  assert (h < length (a_ctx a))%nat as Hh by (apply nth_error_Some; congruence). apply Nat.ltb_lt in Hh. rewrite Hh. exists y. split; [reflexivity|].
  rewrite E in Ez. injection Ez as <-. exact (Hq Hk).
Qed.
Lemma fr_modify h f : ((h < N)%nat -> forall x, Q h x (f x)) -> fr N Q (modify h f).
Proof.
  intros Hq a L. unfold modify. destruct (nth_error (a_ctx a) h) as [x|] eqn:E; [|apply frame_ctx; [exact L|reflexivity]].
  cbn [fst]. apply (frame_upd a h x); [exact L|exact E|auto].
Qed.
Lemma fr_profile_op {A} h (f : tctx -> option (prof * A)) : ((h < N)%nat -> forall x p, Q h x (set_Profile p x)) -> fr N Q (profile_op h f).
Proof.
  intros Hq a L. unfold profile_op. destruct (nth_error (a_ctx a) h) as [x|] eqn:E; [|apply frame_ctx; [exact L|reflexivity]].
  destruct (f x) as [[p r]|]; [|apply frame_ctx; [exact L|reflexivity]]. apply (frame_upd a h x); [exact L|exact E|auto].
Qed.
(** the idiom: if there is no error yet, set one *)
Lemma fr_set_error {B} n h k msg (f : unit -> M B) : (forall x e, x_Error x = 0 -> Q h x (set_Error e x)) -> (forall u, fr N Q (f u)) ->
  fr N Q (err <- read h x_Error ;; bind (if err =? 0 then e <- send_text n k msg ;; modify h (set_Error e) else ret tt) f).
Proof.
  intros He Hf a L. unfold bind at 1, read. destruct (nth_error (a_ctx a) h) as [x|] eqn:E; [|apply frame_ctx; [exact L|reflexivity]].
  destruct (Z.eqb_spec (x_Error x) 0) as [Z0|]; [|rewrite bind_ret; apply Hf; exact L].
  rewrite bind_assoc, (bind_some _ _ _ _ _ (send_text_eq _ _ _ _)). set (a1 := set_text _ a). assert (nth_error (a_ctx a1) h = Some x) as E1 by exact E.
  rewrite (bind_some _ _ _ _ _ (modify_eq _ _ _ _ E1)). fold (upd a1 h (set_Error (text_hash msg) x)).
  eapply frame_trans; [apply (frame_ctx a a1); [exact L|reflexivity]|].
  assert (frame N Q a1 (upd a1 h (set_Error (text_hash msg) x))) as F by (apply (frame_upd a1 h x); [exact L|exact E1|auto]).
  eapply frame_trans; [exact F|]. apply Hf. apply F.
Qed.
Lemma fr_start0 {B} n name addr (f : nat -> M B) : (forall h, (N <= h)%nat -> fr N Q (f h)) -> fr N Q (bind (start_service0 n name addr) f).
Proof.
  intros Hf a L. unfold bind. destruct (start0_cases n name addr a) as [E|(x & E1 & _ & _ & _ & R)]; [rewrite E; apply frame_ctx; [exact L|reflexivity]|].
  destruct (start_service0 n name addr a) as [b r]. cbn [fst snd] in *.
  assert (frame N Q a b) as F.
  { split; [rewrite E1, app_length; lia|]. intros h y Hh E. exists y. rewrite E1, nth_error_app1 by lia. auto. }
  destruct r as [g|]; [|exact F]. destruct R as [R|R]; [discriminate|]. injection R as ->. eapply frame_trans; [exact F|]. apply Hf; [exact L|apply F].
Qed.
(** the idiom: if there is no global id, use one *)
Lemma fr_fix_gxid {B} h (f : tctx -> tctx) (k : unit -> M B) : (forall x, x_Gxid x = 0 -> Q h x (f x)) -> (forall u, fr N Q (k u)) ->
  fr N Q (gx <- read h x_Gxid ;; bind (if gx =? 0 then modify h f else ret tt) k).
Proof.
  intros Hf Hk a L. unfold bind at 1, read. destruct (nth_error (a_ctx a) h) as [x|] eqn:E; [|apply frame_ctx; [exact L|reflexivity]].
  destruct (Z.eqb_spec (x_Gxid x) 0) as [Z0|]; [|rewrite bind_ret; apply Hk; exact L].
  rewrite (bind_some _ _ _ _ _ (modify_eq _ _ _ _ E)). fold (upd a h (f x)).
  assert (frame N Q a (upd a h (f x))) as F by (apply (frame_upd a h x); [exact L|exact E|auto]).
  eapply frame_trans; [exact F|]. apply Hk. apply F.
Qed.
Lemma fr_link {B} h ph ptx (k : unit -> M B) : (N <= h)%nat -> (forall x g, x_Gxid x = 0 -> Q ph x (set_Gxid g x)) -> (forall u, fr N Q (k u)) ->
  fr N Q (pgx <- read ph x_Gxid ;; modify h (fun x => set_Gxid pgx (set_Caller ptx x)) ;;
          bind (if pgx =? 0 then modify h (set_Gxid ptx) ;; modify ph (set_Gxid ptx) else ret tt) k).
Proof.
  intros Hh Hg Hk a L. unfold bind at 1, read. destruct (nth_error (a_ctx a) ph) as [x|] eqn:E; [|apply frame_ctx; [exact L|reflexivity]].
  assert (forall g (j : M B), fr N Q j -> fr N Q (modify h g ;; j)) as Hm.
  { intros g j Hj. apply fr_bind; [apply fr_modify; lia|intros; exact Hj]. }
  destruct (Z.eqb_spec (x_Gxid x) 0) as [Z0|]; [|apply Hm; [intros b Lb; rewrite bind_ret; apply Hk; exact Lb|exact L]].
  destruct (Nat.lt_ge_cases ph N) as [Hp|Hp].
  - assert (ph <> h) as Hne by lia. destruct (nth_error (a_ctx a) h) as [y|] eqn:Ey; [|unfold bind at 1; unfold modify at 1; rewrite Ey; apply frame_ctx; [exact L|reflexivity]].
    rewrite (bind_some _ _ _ _ _ (modify_eq _ _ _ _ Ey)).
    match goal with |- context [list_set (a_ctx a) h ?v] => set (y1 := v) end. fold (upd a h y1).
    assert (frame N Q a (upd a h y1)) as F1 by (apply (frame_upd a h y); [exact L|exact Ey|lia]).
    assert (nth_error (a_ctx (upd a h y1)) ph = Some x) as E1 by (cbn; rewrite list_set_other by congruence; exact E).
    assert (nth_error (a_ctx (upd a h y1)) h = Some y1) as E1h by (eapply nth_upd; exact Ey). set (a1 := upd a h y1) in *.
    rewrite bind_assoc, (bind_some _ _ _ _ _ (modify_eq _ _ _ _ E1h)). fold (upd a1 h (set_Gxid ptx y1)).
    assert (frame N Q a1 (upd a1 h (set_Gxid ptx y1))) as F2 by (apply (frame_upd a1 h y1); [apply F1|exact E1h|lia]).
    assert (nth_error (a_ctx (upd a1 h (set_Gxid ptx y1))) ph = Some x) as E2 by (cbn [upd set_ctxs a_ctx]; rewrite list_set_other by congruence; exact E1).
    set (a2 := upd a1 h (set_Gxid ptx y1)) in *. rewrite (bind_some _ _ _ _ _ (modify_eq _ _ _ _ E2)). fold (upd a2 ph (set_Gxid ptx x)).
    assert (frame N Q a2 (upd a2 ph (set_Gxid ptx x))) as F3 by (apply (frame_upd a2 ph x); [apply F2|exact E2|auto]).
    eapply frame_trans; [exact F1|]. eapply frame_trans; [exact F2|]. eapply frame_trans; [exact F3|]. apply Hk. apply F3.
  - apply Hm; [|exact L]. apply fr_bind; [|exact Hk]. apply fr_bind; [apply fr_modify; lia|intros; apply fr_modify; lia].
Qed.
End Frame.

(** [solve_q]: proves the side conditions about single assignments *)
Ltac fr_tac Qr Qt solve_q :=
  repeat first
    [ progress intros
    | apply (fr_set_error _ _ Qr Qt); [solve [solve_q]|]
    | apply (fr_fix_gxid _ _ Qr Qt); [solve [solve_q]|]
    | apply (fr_link _ _ Qr Qt); [lia|solve [solve_q]|]
    | apply (fr_ret _ _ Qr) | apply (fr_panic _ _ Qr) | apply (fr_read _ _ Qr) | apply (fr_get_tctx _ _ Qr) | apply (fr_send _ _ Qr) | apply (fr_emit _ _ Qr)
    | apply (fr_start0 _ _ Qr Qt) | apply (fr_bind _ _ Qt)
    | apply fr_recovered | apply (fr_traced_at _ _ Qr) | apply (fr_for_each _ _ Qr Qt)
    | apply (fr_modify _ _ Qr); solve [solve_q] | apply (fr_profile_op _ _ Qr); solve [solve_q]
    | match goal with |- fr _ _ (match ?c with _ => _ end) => destruct c eqn:? end
    | match goal with |- fr _ _ (let '_ := ?c in _) => destruct c eqn:? end
    | solve [apply (fr_same _ _ Qr); reflexivity] ].

Lemma fr_fmap {A B} N Q (f : A -> B) (m : M A) : fr N Q m -> fr N Q (fmap f m).
Proof. intros H a L. unfold fmap, bind. specialize (H a L). destruct (m a) as [b [x|]]; exact H. Qed.

(** * All assignments to the fields of an existing context, by call *)
Record closed_under (k : call) (Q : nat -> tctx -> tctx -> Prop) : Prop := mkClosed {
  q_refl : forall h x, Q h x x;
  q_trans : forall h x y z, Q h x y -> Q h y z -> Q h x z;
  q_prof : forall h x p, Q h x (set_Profile p x);
  q_method : forall h x s, Q h x (set_LastMethod s x);
  q_closed : forall h x, Q h x (set_Closed true x);
  q_hash : forall h x z, Q h x (set_ServiceHash z x);
  q_name : forall h x s, k = KSetServiceName (CTrace h) s -> Q h x (set_ServiceName s x);
  q_status : forall h x s, k = KEndHttp (CTrace h) (Some s) -> Q h x (set_Status (int32 s) x);
  q_start : forall h x t, k = KGoBegin (CTrace h) -> Q h x (set_StartTime t x);
  q_stream : forall h x, k = KSetAsStream (CTrace h) -> Q h x (set_IsStream true x);
  q_gxid : forall h x g, x_Gxid x = 0 -> Q h x (set_Gxid g x);
  q_error : forall h x e, x_Error x = 0 -> Q h x (set_Error e x);
  q_forced : forall h x m, k = KMarkErrorForcibly (CTrace h) m -> Q h x (set_Error (text_hash m) x);
  q_api : forall h x t, (exists p e, k = KEndApi (CTrace h) (Some p) e) -> Q h x (set_ApicallTime t (set_ApicallCount (int32 (x_ApicallCount x + 1)) x));
  q_user : forall h x u l d t1 t2 t3 t4 t5, k = KUser (CTrace h) u l d t1 t2 t3 t4 t5 ->
    Q h x (set_Userid u (set_Login l (set_Desc d (set_Text1 t1 (set_Text2 t2 (set_Text3 t3 (set_Text4 t4 (set_Text5 t5 x)))))))) }.

Section Calls.
Context (k0 : call) (Q : nat -> tctx -> tctx -> Prop) (C : closed_under k0 Q).

Ltac q_side := intros; first
  [ lia | apply (q_refl _ _ C) | apply (q_prof _ _ C) | apply (q_method _ _ C) | apply (q_closed _ _ C) | apply (q_hash _ _ C)
  | apply (q_name _ _ C); congruence | apply (q_status _ _ C); congruence | apply (q_start _ _ C); congruence | apply (q_stream _ _ C); congruence
  | apply (q_gxid _ _ C); assumption | apply (q_error _ _ C); assumption
  | apply (q_api _ _ C); match goal with E : KEndApi _ _ _ = _ |- _ => do 2 eexists; rewrite <- E; f_equal; (reflexivity || eassumption) end | apply (q_user _ _ C); congruence
  | match goal with |- context [if ?b =? 0 then _ else _] => destruct (Z.eqb_spec b 0); [apply (q_error _ _ C); assumption|apply (q_refl _ _ C)] end ].
Ltac q_tac := fr_tac (q_refl _ _ C) (q_trans _ _ C) q_side.

Lemma fr_active N n vs : forall count c0 c1 c2, fr N Q (active_loop n count vs c0 c1 c2).
Proof.
  induction vs as [|h vs IH]; intros; cbn [active_loop]; [apply fr_ret; apply (q_refl _ _ C)|].
  unfold end_stuck, millis. generalize (of_string "This stuck service currently may running, not finished!"). generalize (of_string "Service currently may running, not finished!"). generalize (of_string "STUCK_SERVICE"). intros s1 s2 s3.
  unfold end_tctx, to_xlog, tm_end, millis, profile_add, profile_close. q_tac. apply IH.
Qed.

Lemma call_frame n a : frame (length (a_ctx a)) Q a (fst (do_call n k0 a)).
Proof.
  assert (fr (length (a_ctx a)) Q (do_call n k0)) as H; [|exact (H a (le_n _))].
  generalize (length (a_ctx a)). intros N.
  enough (forall k, k = k0 -> fr N Q (do_call n k)) as H by (apply H; reflexivity). intros k Ek.
  destruct k; cbn [do_call]; try apply fr_fmap.
  - unfold start_service. q_tac.
  - unfold start_http_service, profile_http_headers, millis, profile_add. generalize (of_string "query: "), (of_string "<"), (of_string ">"). q_tac.
  - unfold start_inheritance, inherit_tctx, profile_add. generalize (message_step (of_string "scouter inheritance step") 0). q_tac.
  - unfold go_with_trace, start_child, millis, profile_add. q_tac.
  - unfold go_begin. q_tac.
  - unfold end_service, end_any, end_tctx, to_xlog, tm_end, millis, profile_close. q_tac.
  - unfold end_service, end_any, end_tctx, to_xlog, tm_end, millis, profile_close. q_tac.
  - unfold end_http_service, end_any, end_tctx, to_xlog, tm_end, millis, profile_close. q_tac.
  - unfold is_stream. q_tac.
  - unfold set_as_stream. q_tac.
  - unfold mark_as_error, add_pmessage_step, millis, profile_add. q_tac.
  - unfold mark_as_error_forcibly. apply fr_recovered. apply fr_traced_at; [apply (q_refl _ _ C)|]. intros h' Ec. intros b L.
    rewrite (bind_some _ _ _ _ _ (send_text_eq _ _ _ _)). set (b1 := set_text _ b).
    assert (fr N Q (modify h' (set_Error (text_hash msg)))) as Hm.
    { apply fr_modify; [apply (q_refl _ _ C)|]. intros _ x. apply (q_forced _ _ C). congruence. }
    specialize (Hm b1 L). exact Hm.
  - unfold set_service_name. q_tac.
  - unfold add_step, profile_add. q_tac.
  - unfold add_message_step, millis, profile_add. q_tac.
  - unfold add_hashed_message_step, millis, profile_add. q_tac.
  - unfold add_pmessage_step, millis, profile_add. q_tac.
  - unfold start_method, start_method0, add_params, millis, profile_add, profile_push. q_tac.
  - unfold start_custom_method, start_method0, add_params, millis, profile_add, profile_push. q_tac.
  - unfold end_method, read_step, millis, profile_pop. q_tac.
  - unfold start_api_call, start_api_call0, millis, profile_push. q_tac.
  - unfold start_api_call_prop, start_api_call0, millis, profile_push. q_tac.
  - unfold end_api_call, read_step, millis, profile_pop. q_tac.
  - unfold set_user. q_tac.
  - intros b L. unfold get_active_count. apply fr_active. exact L.
  - apply (fr_same _ _ (q_refl _ _ C)). reflexivity.
  - apply (fr_same _ _ (q_refl _ _ C)). reflexivity.
Qed.
End Calls.

(** * Errors stay: the only call that can clear one is MarkAsErrorForcibly with a text whose hash is 0 *)
Lemma call_error n k a h x : ~ (exists m, k = KMarkErrorForcibly (CTrace h) m /\ text_hash m = 0) ->
  nth_error (a_ctx a) h = Some x -> x_Error x <> 0 -> exists y, nth_error (a_ctx (fst (do_call n k a))) h = Some y /\ x_Error y <> 0.
Proof.
  intros Hk E He.
  assert (closed_under k (fun h' x y => h' = h -> x_Error x <> 0 -> x_Error y <> 0)) as C.
  { constructor; intros; cbn in *; try congruence; try lia; auto. subst. intros E0. apply Hk. exists m. auto. }
  destruct (call_frame k _ C n a) as (_ & F). destruct (F h x) as (y & Ey & Q); [apply nth_error_Some; congruence|exact E|]. exists y. split; [exact Ey|auto].
Qed.
