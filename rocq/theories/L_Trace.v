(** Symbolic execution of the tracing API: what each function of M_Trace.v does, as equations. *)
From Verif Require Import GoInt M_Util M_Hash L_Hash M_StrMatch M_Packs M_Steps M_Cache L_Cache M_Text L_Text M_Sampler M_Profile L_Profile M_Trace.
From Coq Require Import ZifyBool.

(* ------------------------------------------------------------------ *)
(** * Heap updates *)

Section ListSet.
Context {A : Type}.
Implicit Type l : list A.
Lemma list_set_length l i x : length (list_set l i x) = length l.
Proof. revert i; induction l as [|y l IH]; intros [|i]; cbn [list_set length]; [reflexivity..|f_equal; apply IH]. Qed.
Lemma list_set_same l i x : (i < length l)%nat -> nth_error (list_set l i x) i = Some x.
Proof. revert i; induction l as [|y l IH]; intros [|i] H; cbn in *; [lia..|reflexivity|apply IH; lia]. Qed.
Lemma list_set_other l i j x : i <> j -> nth_error (list_set l i x) j = nth_error l j.
Proof. revert i j; induction l as [|y l IH]; intros [|i] [|j] H; cbn [list_set nth_error]; try reflexivity; [congruence|apply IH; congruence]. Qed.
Lemma list_set_twice l i x y : list_set (list_set l i x) i y = list_set l i y.
Proof. revert i; induction l as [|z l IH]; intros [|i]; cbn [list_set]; [reflexivity..|f_equal; apply IH]. Qed.
Lemma list_set_nth l i j x : nth_error (list_set l i x) j =
  if (Nat.eqb i j && Nat.ltb i (length l))%bool then Some x else nth_error l j.
Proof.
  destruct (Nat.eqb_spec i j) as [->|N]; [|apply list_set_other; exact N]. cbn [andb].
  destruct (Nat.ltb_spec j (length l)); [apply list_set_same; assumption|].
  rewrite !(proj2 (nth_error_None _ _)); [reflexivity|assumption|rewrite list_set_length; assumption].
Qed.
Lemma list_set_app l k x y : list_set (l ++ x :: k) (length l) y = l ++ y :: k.
Proof. induction l as [|z l IH]; cbn; [reflexivity|f_equal; exact IH]. Qed.
Lemma nth_mid l k x : nth_error (l ++ x :: k) (length l) = Some x.
Proof. rewrite nth_error_app2, Nat.sub_diag by lia. reflexivity. Qed.
Lemma list_set_id l i x : nth_error l i = Some x -> list_set l i x = l.
Proof. revert i; induction l as [|z l IH]; intros [|i] H; cbn in *; [discriminate..|congruence|f_equal; apply IH; exact H]. Qed.
Lemma list_set_app1 l k i x : (i < length l)%nat -> list_set (l ++ k) i x = list_set l i x ++ k.
Proof. revert i; induction l as [|z l IH]; intros [|i] H; cbn in *; [lia..|reflexivity|f_equal; apply IH; lia]. Qed.
End ListSet.

(* ------------------------------------------------------------------ *)
(** * Primitive operations *)

(** the hash of a text, 0 for the empty one *)
Definition text_hash (name : gostring) : Z :=
  match name with [] => 0 | _ => match hash_string name with Some h => h | None => 0 end end.

Lemma hash_total s : exists h, hash_string s = Some h.
Proof.
  unfold hash_string, hash. generalize (-1) at 2. induction s as [|x bs IH]; intros crc; cbn [crc_loop]; [eexists; reflexivity|].
  unfold crc_step. rewrite table_nth by apply crc_index_ok. apply IH.
Qed.
Lemma hash_text name : name <> [] -> hash_string name = Some (text_hash name).
Proof. intros H. unfold text_hash. destruct name; [congruence|]. destruct (hash_total (z :: name)) as (h & ->). reflexivity. Qed.

(** the text state after a Send call *)
Definition after_send (n : env) (k : kind) (name : gostring) (t : tstate) : tstate :=
  match text_send k name (n_room n k name) t with Some (t', _) => t' | None => t end.

Lemma send_text_eq n k name a : send_text n k name a = (set_text (after_send n k name (a_text a)) a, Some (text_hash name)).
Proof.
  unfold send_text, after_send. unfold text_send. destruct name as [|b s]; [reflexivity|].
  rewrite (hash_text (b :: s)) by discriminate. destruct (lra_contains _ _); reflexivity.
Qed.

Lemma bind_some {A B} (m : M A) (f : A -> M B) a a' x : m a = (a', Some x) -> bind m f a = f x a'.
Proof. intros E. unfold bind. rewrite E. reflexivity. Qed.
Lemma bind_none {A B} (m : M A) (f : A -> M B) a a' : m a = (a', None) -> bind m f a = (a', None).
Proof. intros E. unfold bind. rewrite E. reflexivity. Qed.
Lemma bind_assoc {A B C} (m : M A) (f : A -> M B) (g : B -> M C) a :
  bind (bind m f) g a = bind m (fun x => bind (f x) g) a.
Proof. unfold bind. destruct (m a) as [a' [x|]]; reflexivity. Qed.
Lemma bind_ret {A B} (x : A) (f : A -> M B) a : bind (ret x) f a = f x a.
Proof. reflexivity. Qed.

Lemma read_eq {A} h (f : tctx -> A) a x : nth_error (a_ctx a) h = Some x -> read h f a = (a, Some (f x)).
Proof. intros E. unfold read. rewrite E. reflexivity. Qed.
Lemma modify_eq h f a x : nth_error (a_ctx a) h = Some x ->
  modify h f a = (set_ctxs (list_set (a_ctx a) h (f x)) a, Some tt).
Proof. intros E. unfold modify. rewrite E. reflexivity. Qed.

(** agents are compared field by field *)
Definition upd (a : agent) (h : nat) (x : tctx) : agent := set_ctxs (list_set (a_ctx a) h x) a.

Lemma nth_upd a h x y : nth_error (a_ctx a) h = Some y -> nth_error (a_ctx (upd a h x)) h = Some x.
Proof. intros E. apply list_set_same. apply nth_error_Some. congruence. Qed.

(* ------------------------------------------------------------------ *)
(** * Ending a service *)

(** the xlog of a finished service *)
Definition the_xlog (obj : Z) (x : tctx) (discard elapsed : Z) : xlog_pack :=
  {| xl_EndTime := 0; xl_ObjHash := obj; xl_Service := text_hash (x_ServiceName x); xl_Txid := x_Txid x; xl_Caller := x_Caller x;
     xl_Gxid := x_Gxid x; xl_Elapsed := elapsed; xl_Error := x_Error x; xl_Cpu := 0; xl_SqlCount := x_SqlCount x; xl_SqlTime := x_SqlTime x;
     xl_Ipaddr := ip_to_bytes (x_RemoteIp x); xl_Kbytes := 0; xl_Status := x_Status x; xl_Userid := x_Userid x;
     xl_UserAgent := x_UserAgent x; xl_Referer := x_Referer x; xl_Group := 0; xl_ApicallCount := x_ApicallCount x;
     xl_ApicallTime := x_ApicallTime x; xl_CountryCode := []; xl_City := 0; xl_XType := x_XType x;
     xl_Login := text_hash (x_Login x); xl_Desc := text_hash (x_Desc x);
     xl_WebHash := 0; xl_WebTime := 0; xl_HasDump := 0; xl_ThreadNameHash := text_hash (format_int 10 (x_Gxid x));
     xl_Text1 := x_Text1 x; xl_Text2 := x_Text2 x; xl_QueuingHostHash := 0; xl_QueuingTime := 0; xl_Queuing2ndHostHash := 0;
     xl_Queuing2ndTime := 0; xl_Text3 := x_Text3 x; xl_Text4 := x_Text4 x; xl_Text5 := x_Text5 x;
     xl_ProfileCount := int32 (p_count (x_Profile x)); xl_B3Mode := false; xl_ProfileSize := int32 (p_size (x_Profile x));
     xl_DiscardType := discard; xl_IgnoreGCS := false |}.

Definition discard_of (n : env) (a : agent) (x : tctx) : Z :=
  find_xlog_discard (cf_sampling (n_conf n)) (a_sampler a) (n_draw n) (x_Error x)
                    (millis_between (x_StartTime x) (n_now n)) (x_ServiceName x).

(** the context after it was closed, before its profile is flushed *)
Definition closed_ctx (x : tctx) : tctx := set_ServiceHash (text_hash (x_ServiceName x)) (set_Closed true x).

(** is the xlog sent *)
Definition sends (x : tctx) (discard : Z) : bool :=
  (negb (discard =? DISCARD_ALL) && negb (discard =? DISCARD_ALL_FORCE))
  || (negb ((x_Gxid x =? x_Txid x) || (x_Gxid x =? 0)) && (discard =? DISCARD_ALL)).

(** texts registered while ending *)
Definition end_texts (n : env) (x : tctx) (t : tstate) : tstate :=
  let t := after_send n KService (x_ServiceName x) t in
  let t := after_send n KHashMsg (format_int 10 (x_Gxid x)) t in
  let t := after_send n KLogin (x_Login x) t in
  after_send n KDesc (x_Desc x) t.

Lemma to_xlog_eq n x d el a : x_ServiceHash x = text_hash (x_ServiceName x) ->
  to_xlog n x d el a =
  (set_text (after_send n KDesc (x_Desc x) (after_send n KLogin (x_Login x) (after_send n KHashMsg (format_int 10 (x_Gxid x)) (a_text a)))) a,
   Some (the_xlog 0 x d el)).
Proof.
  intros E. unfold to_xlog, the_xlog. rewrite (bind_some _ _ _ _ _ (send_text_eq _ _ _ _)).
  destruct (x_Login x) as [|b lg] eqn:El.
  - rewrite bind_ret. cbn [after_send text_send]. destruct (x_Desc x) as [|b' ds] eqn:Ed.
    + rewrite bind_ret. cbn. rewrite E. reflexivity.
    + rewrite (bind_some _ _ _ _ _ (send_text_eq _ _ _ _)). cbn [ret set_text a_text text_hash]. rewrite E. reflexivity.
  - rewrite (bind_some _ _ _ _ _ (send_text_eq _ _ _ _)). destruct (x_Desc x) as [|b' ds] eqn:Ed.
    + rewrite bind_ret. cbn [ret set_text a_text]. rewrite E. reflexivity.
    + rewrite (bind_some _ _ _ _ _ (send_text_eq _ _ _ _)). cbn [ret set_text a_text]. rewrite E. reflexivity.
Qed.

Lemma end_closed n h a x : nth_error (a_ctx a) h = Some x -> x_Closed x = true -> end_tctx n h a = (a, Some tt).
Proof. intros E C. unfold end_tctx. rewrite (bind_some _ _ _ _ _ (read_eq _ _ _ _ E)), C. reflexivity. Qed.

Definition end_state (n : env) (h : nat) (x : tctx) (p : prof) (events : list aevent) (a : agent) : agent :=
  mkA (end_texts n x (a_text a)) (list_set (a_ctx a) h (set_Profile p (closed_ctx x)))
      (fst (lra_remove (a_active a) (x_Txid x))) (a_sampler a) (a_log a ++ events).
Definition end_events (n : env) (h : nat) (x : tctx) (d : Z) : list aevent :=
  EvMeter h (millis_between (x_StartTime x) (n_now n)) (negb (x_Error x =? 0)) ::
  (if sends x d then [EvXlog h (the_xlog (cf_obj (n_conf n)) x d (millis_between (x_StartTime x) (n_now n)))] else []).

Lemma the_xlog_closed obj x d e : the_xlog obj (closed_ctx x) d e = the_xlog obj x d e.
Proof. reflexivity. Qed.

Lemma end_open n h a x : nth_error (a_ctx a) h = Some x -> x_Closed x = false ->
  end_tctx n h a =
  let d := discard_of n a x in
  match close (env_of n (closed_ctx x)) (d =? DISCARD_NONE) (x_Profile x) with
  | Some p => (end_state n h x p (end_events n h x d) a, Some tt)
  | None => (end_state n h x (x_Profile x) [] a, None)
  end.
Proof.
  intros E C. unfold end_tctx. rewrite (bind_some _ _ _ _ _ (read_eq _ _ _ _ E)), C.
  rewrite (bind_some _ _ _ _ _ (modify_eq _ _ _ _ E)). fold (upd a h (set_Closed true x)).
  assert (nth_error (a_ctx (upd a h (set_Closed true x))) h = Some (set_Closed true x)) as E1 by (eapply nth_upd; exact E).
  rewrite (bind_some _ _ _ _ _ (read_eq _ _ _ _ E1)). change (x_ServiceName (set_Closed true x)) with (x_ServiceName x).
  rewrite (bind_some _ _ _ _ _ (send_text_eq _ _ _ _)).
  set (a2 := set_text _ _).
  assert (nth_error (a_ctx a2) h = Some (set_Closed true x)) as E2 by exact E1.
  rewrite (bind_some _ _ _ _ _ (modify_eq _ _ _ _ E2)).
  fold (closed_ctx x). fold (upd a2 h (closed_ctx x)).
  assert (nth_error (a_ctx (upd a2 h (closed_ctx x))) h = Some (closed_ctx x)) as E3 by (eapply nth_upd; exact E2).
  unfold tm_end. rewrite bind_assoc. rewrite (bind_some _ _ _ _ _ (read_eq _ _ _ _ E3)).
  change (x_Txid (closed_ctx x)) with (x_Txid x).
  erewrite bind_some by reflexivity.
  set (a4 := set_active _ _). assert (nth_error (a_ctx a4) h = Some (closed_ctx x)) as E4 by exact E3.
  unfold millis. rewrite (bind_some _ _ _ _ _ (read_eq _ _ _ _ E4)).
  rewrite (bind_some _ _ _ _ _ (read_eq _ _ _ _ E4)).
  erewrite bind_some by reflexivity.
  change (find_xlog_discard _ _ _ _ _ _) with (discard_of n a x). cbv zeta. set (d := discard_of n a x).
  rewrite (bind_some _ _ _ _ _ (to_xlog_eq n (closed_ctx x) _ _ a4 eq_refl)).
  set (a5 := set_text _ a4). assert (nth_error (a_ctx a5) h = Some (closed_ctx x)) as E5 by exact E4.
  assert (a_ctx a5 = list_set (a_ctx a) h (closed_ctx x)) as C5.
  { change (a_ctx a5) with (list_set (list_set (a_ctx a) h (set_Closed true x)) h (closed_ctx x)). apply list_set_twice. }
  assert (forall p ev, mkA (a_text a5) (list_set (a_ctx a5) h (set_Profile p (closed_ctx x))) (a_active a5) (a_sampler a5) (a_log a5 ++ ev)
                       = end_state n h x p ev a) as F.
  { intros p ev. rewrite C5, list_set_twice. reflexivity. }
  unfold profile_close, profile_op. unfold bind at 1. rewrite E5.
  change (x_Profile (closed_ctx x)) with (x_Profile x).
  destruct (close (env_of n (closed_ctx x)) (d =? DISCARD_NONE) (x_Profile x)) as [p|]; cbn [unit_op option_map].
  - unfold bind, emit, ret. unfold end_events. change (xl_DiscardType (the_xlog 0 (closed_ctx x) d (millis_between (x_StartTime (closed_ctx x)) (n_now n)))) with d.
    change (is_driving (the_xlog 0 (closed_ctx x) d (millis_between (x_StartTime (closed_ctx x)) (n_now n)))) with ((x_Gxid x =? x_Txid x) || (x_Gxid x =? 0)).
    fold (sends x d). destruct (sends x d).
    + rewrite <- F. unfold add_log, set_ctxs. cbn [a_text a_ctx a_active a_sampler a_log]. rewrite <- app_assoc. reflexivity.
    + rewrite <- F. reflexivity.
  - rewrite <- F, app_nil_r. replace (set_Profile (x_Profile x) (closed_ctx x)) with (closed_ctx x) by (destruct x; reflexivity).
    rewrite (list_set_id _ _ _ E5). reflexivity.
Qed.
