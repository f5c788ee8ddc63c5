(** Properties C51, C52: registration of texts. S_Text.v defines [since_clear] (packs of a kind given to the
    sender's queue since that kind was last reset) and [newest]. *)
From Verif Require Import GoInt M_Packs M_Hash L_Hash M_Cache M_Text S_Text L_Text.
From Coq Require Import ZifyBool.

(** ** C51 *)

Lemma text_type_wire k : text_type k = wire_type k. Proof. destruct k; reflexivity. Qed.
Lemma kind_cap_capacity k : kind_cap k = cache_capacity k. Proof. destruct k; reflexivity. Qed.
Ltac setoid_rewrite_kinds := rewrite <- ?text_type_wire, <- ?kind_cap_capacity.

(** what each call does, after any sequence of calls: the result is the hash of the text, and the text is given
    to the queue exactly when its hash is not among the newest [cache_capacity k] hashes given since the last reset *)
Theorem C51_exact ops t k name room h : t_run ops t_init = Some t -> name <> [] -> hash_string name = Some h ->
  exists t', text_send k name room t = Some (t', h) /\
    t_log t' = (if existsb (Z.eqb h) (newest (cache_capacity k) (map tp_Hash (since_clear k (t_log t))))
                then t_log t
                else EvOffer k (mk_text_pack (wire_type k) h name) room :: t_log t).
Proof. setoid_rewrite_kinds.
  intros R Nn E. pose proof (t_inv_run ops _ _ t_inv_init R) as I. unfold text_send.
  destruct name as [|b bs]; [congruence|]. rewrite E. pose proof (contains_iff t k h I) as C.
  replace (existsb (Z.eqb h) (newest (kind_cap k) (map tp_Hash (since_clear k (t_log t))))) with (lra_contains (t_cache t k) h).
  - destruct (lra_contains (t_cache t k) h); eexists; split; reflexivity.
  - unfold hashes in C. destruct (existsb _ _) eqn:Ex.
    + apply existsb_exists in Ex. destruct Ex as (x & Hx & Hq). apply Z.eqb_eq in Hq. subst x. apply C. exact Hx.
    + destruct (lra_contains (t_cache t k) h); [|reflexivity]. exfalso.
      assert (existsb (Z.eqb h) (newest (kind_cap k) (map tp_Hash (since_clear k (t_log t)))) = true) as X; [|congruence].
      apply existsb_exists. exists h. split; [apply C; reflexivity|apply Z.eqb_refl].
Qed.

(** the empty text has hash 0 and is not sent; no text makes the functions fail *)
Theorem C51_empty t k room : text_send k [] room t = Some (t, 0).
Proof. reflexivity. Qed.
Theorem C51_total ops : Forall (fun o => match o with TSend _ name _ => Forall is_byte name | TReset => True end) ops ->
  exists t, t_run ops t_init = Some t.
Proof. exact (t_run_total ops t_init). Qed.

(** a returned hash refers to a pack of that type given to the queue since the last reset, whose text has that hash *)
Theorem C51_sent_since_reset ops t k name room t' h : t_run ops t_init = Some t ->
  text_send k name room t = Some (t', h) -> name <> [] ->
  exists p, In p (since_clear k (t_log t')) /\ tp_Xtype p = wire_type k /\ tp_Hash p = h /\ hash_string (tp_Text p) = Some h.
Proof. setoid_rewrite_kinds.
  intros R Es Hz. assert (good_log (t_log t_init)) as G0 by (intros ? ? []). pose proof (good_run ops _ _ G0 R) as G.
  pose proof (good_send _ _ _ _ _ _ G Es) as G'.
  assert (In h (map tp_Hash (since_clear k (t_log t')))) as Hin.
  { destruct name as [|b bs]; [congruence|].
    destruct (hash_string (b :: bs)) as [x|] eqn:Eh; [|unfold text_send in Es; rewrite Eh in Es; discriminate].
    destruct (C51_exact ops t k (b :: bs) room x R) as (t2 & E2 & L2); [discriminate|assumption|].
    rewrite Es in E2. injection E2 as <- <-. rewrite L2. destruct (existsb _ _) eqn:Ex.
    - apply existsb_exists in Ex. destruct Ex as (y & Hy & Hq). apply Z.eqb_eq in Hq. subst y.
      unfold newest in Hy. rewrite <- (firstn_skipn (Z.to_nat (cache_capacity k))). apply in_or_app. left. exact Hy.
    - cbn [since_clear]. rewrite kind_eqb_refl. left. reflexivity. }
  apply in_map_iff in Hin. destruct Hin as (p & Hp & Hi). exists p. destruct (G' k p Hi) as (G1 & _ & G2).
  split; [exact Hi|]. split; [exact G1|]. split; [exact Hp|]. congruence.
Qed.

(** and that pack is in the queue, provided the queue was never full *)
Theorem C51_queued_partial ops t k name room t' h : t_run ops t_init = Some t ->
  text_send k name room t = Some (t', h) -> name <> [] ->
  (forall k p r, In (EvOffer k p r) (t_log t') -> r = true) ->
  exists p, In p (queued_since_clear k (t_log t')) /\ tp_Xtype p = wire_type k /\ tp_Hash p = h /\ hash_string (tp_Text p) = Some h.
Proof. intros R Es Hz Hr. rewrite queued_all by exact Hr. exact (C51_sent_since_reset ops t k name room t' h R Es Hz). Qed.

(** a full queue loses the text for good: it is remembered as sent *)
Theorem C51_queued_refuted :
  ~ (forall ops t k name room t' h, t_run ops t_init = Some t -> text_send k name room t = Some (t', h) -> h <> 0 ->
     exists p, In p (queued_since_clear k (t_log t')) /\ tp_Hash p = h).
Proof.
  intros H. set (n := of_string "/orders<GET>").
  destruct (t_run [TSend KService n false] t_init) as [t|] eqn:R; [|vm_compute in R; discriminate R].
  destruct (text_send KService n true t) as [[t' h]|] eqn:E; [|vm_compute in R; injection R as <-; vm_compute in E; discriminate E].
  destruct (H _ t KService n true t' h R E) as (p & Hp & _).
  - vm_compute in R. injection R as <-. vm_compute in E. injection E as <- <-. discriminate.
  - vm_compute in R. injection R as <-. vm_compute in E. injection E as <- <-. destruct Hp.
Qed.

(** after ResetTextSent every text is given to the queue again *)
Theorem C51_reset_resends ops t k name room h : t_run ops t_init = Some t -> name <> [] -> hash_string name = Some h ->
  exists t', text_send k name room (reset_text_sent t) = Some (t', h) /\
    t_log t' = EvOffer k (mk_text_pack (wire_type k) h name) room :: t_log (reset_text_sent t).
Proof.
  intros R Nn E. assert (t_run (ops ++ [TReset]) t_init = Some (reset_text_sent t)) as R'.
  { clear -R. revert R. generalize t_init. induction ops as [|o ops IH]; intros s; cbn [app t_run].
    - intros [= ->]. reflexivity.
    - destruct (t_step o s) as [[s1 x]|]; [apply IH|discriminate]. }
  destruct (C51_exact _ _ k name room h R' Nn E) as (t' & E' & L'). exists t'. split; [exact E'|].
  rewrite L', since_clear_reset. unfold newest. cbn [map]. rewrite firstn_nil. reflexivity.
Qed.

Example C51_case : exists t, t_run [TSend KMethod (of_string "main.f()") true; TReset; TSend KMethod (of_string "main.f()") true;
    TSend KMethod (of_string "main.f()") true; TSend KError (of_string "main.f()") true] t_init = Some t /\
  map tp_Xtype (since_clear KMethod (t_log t) ++ since_clear KError (t_log t)) = [of_string "method"; of_string "error"].
Proof. eexists. split; [vm_compute; reflexivity|vm_compute; reflexivity]. Qed.

(** ** C52: any number of goroutines inside the Send functions, any interleaving, caches cleared at any moment *)

(** a hash still remembered was given to the queue since the last reset of its kind, or a caller that has
    recorded it is about to give it *)
Theorem C52_remembered callers t ths k h : sys_reach callers (t, ths) -> lra_contains (t_cache t k) h = true ->
  (exists p, In p (since_clear k (t_log t)) /\ tp_Hash p = h /\ tp_Xtype p = wire_type k /\ hash_string (tp_Text p) = Some h) \/
  (exists th name, In th ths /\ tt_phase th = PhPack k h name /\ hash_string name = Some h).
Proof. setoid_rewrite_kinds.
  intros R C. destruct (sys_inv_reach _ _ R) as [Hw Hr Hh Ht Hg]. cbn [fst snd] in *.
  destruct (Hr k h C) as [H|(th & name & Hi & Hp)].
  - left. apply in_map_iff in H. destruct H as (p & Hp & Hi). destruct (Hg k p Hi) as (G1 & _ & G2). exists p.
    split; [exact Hi|]. split; [exact Hp|]. split; [exact G1|]. congruence.
  - right. exists th, name. split; [exact Hi|]. split; [exact Hp|]. specialize (Hh th Hi). rewrite Hp in Hh. exact (proj2 Hh).
Qed.

(** every returned hash: a text pack of the kind with that hash was given to the queue, or is about to be *)
Theorem C52_returned callers t ths th k name h : sys_reach callers (t, ths) -> In th ths ->
  In (k, name, h) (tt_returned th) -> name <> [] ->
  hash_string name = Some h /\
  ((exists p room, In (EvOffer k p room) (t_log t) /\ tp_Hash p = h) \/
   (exists th' name', In th' ths /\ tt_phase th' = PhPack k h name')).
Proof. intros R Hi Hr Nn. destruct (sys_inv_reach _ _ R) as [_ _ _ Ht _]. exact (Ht th k name h Hi Hr Nn). Qed.

(** once all calls have returned, every returned text has been given to the queue *)
Theorem C52_quiescent callers t ths th k name h : sys_reach callers (t, ths) ->
  (forall th, In th ths -> tt_phase th = PhCalls) -> In th ths -> In (k, name, h) (tt_returned th) -> name <> [] ->
  exists p room, In (EvOffer k p room) (t_log t) /\ tp_Hash p = h.
Proof.
  intros R Q Hi Hr Nn. destruct (C52_returned _ _ _ _ _ _ _ R Hi Hr Nn) as (_ & [H|(th' & n & Hi' & Hp)]); [exact H|].
  rewrite (Q th' Hi') in Hp. discriminate.
Qed.

(** exactly-once does not hold: two callers can both send the same text *)
Theorem C52_exactly_once_refuted :
  ~ (forall callers t ths k h, sys_reach callers (t, ths) ->
     zlen (filter (fun p => tp_Hash p =? h) (since_clear k (t_log t))) <= 1).
Proof.
  intros H. set (n := of_string "a"). set (c := [(KError, n)]).
  destruct (hash_string n) as [h|] eqn:E; [|vm_compute in E; discriminate].
  assert (n <> []) as Nn by discriminate.
  assert (lra_contains (t_cache t_init KError) h = false) as C0 by reflexivity.
  set (t2 := t_add_key KError h t_init). set (t3 := t_add_key KError h t2).
  assert (sys_reach [c; c] (t_add_pack KError h n true (t_add_pack KError h n true t3),
            [mkTT [] PhCalls [(KError, n, h)]; mkTT [] PhCalls [(KError, n, h)]])) as R.
  { pose proof (sr_init [c; c]) as R. cbn [map tt_start c] in R. unfold tt_start in R.
    eapply sr_step in R; [|exact (sys_thread _ _ [] _ _ _ (tt_unknown _ KError n [] [] h Nn E C0))]. cbn [app] in R.
    eapply sr_step in R; [|exact (sys_thread _ _ [_] _ _ [] (tt_unknown _ KError n [] [] h Nn E C0))]. cbn [app] in R.
    eapply sr_step in R; [|exact (sys_thread _ _ [] _ _ _ (tt_add _ KError h n [] []))]. cbn [app] in R.
    eapply sr_step in R; [|exact (sys_thread _ _ [_] _ _ [] (tt_add _ KError h n [] []))]. cbn [app] in R.
    eapply sr_step in R; [|exact (sys_thread _ _ [] _ _ _ (tt_pack _ KError h n true [] []))]. cbn [app] in R.
    eapply sr_step in R; [|exact (sys_thread _ _ [_] _ _ [] (tt_pack _ KError h n true [] []))]. exact R. }
  specialize (H _ _ _ KError h R). cbn [t_add_pack t_log since_clear t3 t2 t_add_key t_init kind_eqb filter] in H.
  cbn [tp_Hash] in H. rewrite Z.eqb_refl in H. unfold zlen in H. cbn [length] in H. lia.
Qed.

Print Assumptions C51_exact.
Print Assumptions C51_total.
Print Assumptions C51_sent_since_reset.
Print Assumptions C51_queued_partial.
Print Assumptions C51_queued_refuted.
Print Assumptions C51_reset_resends.
Print Assumptions C52_remembered.
Print Assumptions C52_returned.
Print Assumptions C52_quiescent.
Print Assumptions C52_exactly_once_refuted.
Print Assumptions C51_empty.
