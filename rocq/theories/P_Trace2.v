(** Properties C40 (trace part), C43, C44, C46, C48, C50 of the tracing API. *)
From Verif Require Import GoInt M_Util M_Hash M_StrMatch M_Packs M_Steps S_Steps M_Cache M_Text M_Sampler M_Profile L_Profile S_Profile S_Sampler M_Trace L_Trace L_TraceRel S_Trace L_TraceInv L_TraceStart L_TraceSafe L_TraceActive L_TraceHist L_TraceFrame P_Trace.
From Coq Require Import ZifyBool Relation_Operators Operators_Properties.

(* ------------------------------------------------------------------ *)
(** ** C40: the xlog's profile counters are taken before the last flush *)
Theorem C40_xlog_counts_refuted : exists p x, let a := after sconf0
    [(env0 11 1000000, KStartService CNil (of_string "/a") (of_string "10.0.0.1")); (env0 12 9000000, KEndService (CTrace 0))] in
  In (EvXlog 0%nat p) (a_log a) /\ nth_error (a_ctx a) 0 = Some x /\
  xl_ProfileCount p = 0 /\ xl_ProfileSize p = 0 /\ map (fun q => option_map (@length step) (decode_profile (pp_Profile q))) (p_sent (x_Profile x)) = [Some 1%nat].
Proof.
  eexists _, _. cbv zeta. split; [vm_compute; right; left; reflexivity|]. split; [vm_compute; reflexivity|]. vm_compute. auto.
Qed.

(* ------------------------------------------------------------------ *)
(** ** C43: ids of services started under other services *)

(** in the history [ops], call number [i] was [k] and returned [r] *)
Definition returned (c : sconf) (ops : list (env * call)) (i : nat) (k : call) (r : res) : Prop :=
  exists n rs, snd (run ops (a_init c)) = Some rs /\ nth_error ops i = Some (n, k) /\ nth_error rs i = Some r.
(** GoWithTrace, called with the context of service [p], started service [h] *)
Definition spawned (c : sconf) (ops : list (env * call)) (p h : nat) : Prop :=
  p <> h /\ exists i name, returned c ops i (KGo (CTrace p) name) (RRun (Some (CTrace h))).
(** StartNewInheritanceService with the context of service [p] as parent started service [h] *)
Definition inherited (c : sconf) (ops : list (env * call)) (p h : nat) : Prop :=
  exists i cx, returned c ops i (KInherit cx p) (RCtx (CTrace h)).
(** StartService or StartHttpService started service [h] *)
Definition root (c : sconf) (ops : list (env * call)) (h : nat) : Prop :=
  exists i k, returned c ops i k (RCtx (CTrace h)) /\
    match k with KStartService cx _ _ | KStartHttp cx _ => cx <> CTrace h | _ => False end.
Definition under c ops p h := spawned c ops p h \/ inherited c ops p h.

(** ids of service [h] *)
Definition txid_of (a : agent) (h : nat) : option Z := option_map x_Txid (nth_error (a_ctx a) h).
Definition gxid_of (a : agent) (h : nat) : option Z := option_map x_Gxid (nth_error (a_ctx a) h).
Definition caller_of (a : agent) (h : nat) : option Z := option_map x_Caller (nth_error (a_ctx a) h).

Lemma returned_at c ops i k r : Forall (fun nk => n_key (fst nk) <> 0) ops -> returned c ops i k r ->
  exists n a1, n_key n <> 0 /\ linked a1 /\ snd (do_call n k a1) = Some r /\ keeps_links (fst (do_call n k a1)) (after c ops) /\ keeps_links a1 (after c ops).
Proof.
  intros F (n & rs & R & Ho & Hr). destruct (run_split ops _ i n k rs r R Ho Hr) as (_ & D & E). exists n, (fst (run (firstn i ops) (a_init c))).
  rewrite Forall_forall in F. pose proof (F _ (nth_error_In _ _ Ho)) as K. cbn in K. split; [exact K|]. split; [apply linked_firstn, Forall_forall; exact F|].
  split; [exact D|]. unfold after. rewrite E. split; [apply run_keeps|]. eapply keeps_links_trans; [apply call_keeps|apply run_keeps].
Qed.

Theorem C43_child_links c ops p h : Forall (fun nk => n_key (fst nk) <> 0) ops -> under c ops p h ->
  exists t g, txid_of (after c ops) p = Some t /\ caller_of (after c ops) h = Some t /\
              gxid_of (after c ops) p = Some g /\ gxid_of (after c ops) h = Some g.
Proof.
  intros F [(Hne & i & name & R)|(i & cx & R)]; destruct (returned_at _ _ _ _ _ F R) as (n & a1 & K & L & D & K1 & K2).
  - destruct (nth_error (a_ctx a1) p) as [xp|] eqn:Ep; [|rewrite (go_call_invalid _ _ _ _ Ep) in D; congruence].
    destruct (go_call n a1 p xp name h K L Ep D) as (_ & y & Ey & H1 & H2 & _).
    destruct (K2 p xp Ep (L p xp Ep)) as (xp' & Ep' & Gp & _ & Tp). destruct (K1 h y Ey) as (y' & Ey' & Gy & Cy & _); [rewrite H2; exact (L p xp Ep)|].
    exists (x_Txid xp), (x_Gxid xp). unfold txid_of, gxid_of, caller_of. rewrite Ep', Ey'. cbn. rewrite Tp, Gp, Cy, Gy, H1, H2. auto.
  - destruct (nth_error (a_ctx a1) p) as [xp|] eqn:Ep.
    + destruct (inherit_call n a1 cx p xp h K L Ep D) as (_ & y & Ey & H1 & H2).
      destruct (K2 p xp Ep (L p xp Ep)) as (xp' & Ep' & Gp & _ & Tp). destruct (K1 h y Ey) as (y' & Ey' & Gy & Cy & _); [rewrite H2; exact (L p xp Ep)|].
      exists (x_Txid xp), (x_Gxid xp). unfold txid_of, gxid_of, caller_of. rewrite Ep', Ey'. cbn. rewrite Tp, Gp, Cy, Gy, H1, H2. auto.
    + cbn [do_call] in D. unfold fmap, start_inheritance, recovered, bind, read in D. rewrite Ep in D. discriminate.
Qed.

Theorem C43_root_links c ops h : Forall (fun nk => n_key (fst nk) <> 0) ops -> root c ops h ->
  exists t, txid_of (after c ops) h = Some t /\ gxid_of (after c ops) h = Some t /\ caller_of (after c ops) h = Some 0.
Proof.
  intros F (i & k & R & Hk). destruct (returned_at _ _ _ _ _ F R) as (n & a1 & K & L & D & K1 & _).
  destruct (root_call n a1 k h K Hk D) as (y & Ey & H1 & H2 & H3). destruct (K1 h y Ey) as (y' & Ey' & Gy & Cy & Ty); [congruence|].
  exists (n_key n). unfold txid_of, gxid_of, caller_of. rewrite Ey'. cbn. repeat split; congruence.
Qed.

(** the whole tree under a root has the root's transaction id as global id *)
Theorem C43_spawn_tree c ops r h : Forall (fun nk => n_key (fst nk) <> 0) ops -> root c ops r -> clos_refl_trans nat (under c ops) r h ->
  exists t, txid_of (after c ops) r = Some t /\ gxid_of (after c ops) h = Some t.
Proof.
  intros F Hr T. destruct (C43_root_links c ops r F Hr) as (t & T1 & T2 & _). exists t. split; [exact T1|].
  apply clos_rt_rtn1 in T. induction T as [|p h Hp _ IH]; [exact T2|].
  destruct (C43_child_links c ops p h F Hp) as (? & g & _ & _ & G1 & G2). congruence.
Qed.

(** and what is sent says so *)
Theorem C43_xlogs_carry_links c ops h p : Forall (fun nk => n_key (fst nk) <> 0) ops -> In (EvXlog h p) (a_log (after c ops)) ->
  txid_of (after c ops) h = Some (xl_Txid p) /\ gxid_of (after c ops) h = Some (xl_Gxid p) /\ caller_of (after c ops) h = Some (xl_Caller p).
Proof.
  intros F Hin. destruct (xlinks_run c ops F) as (_ & X). destruct (X h p Hin) as (x & E & _ & T & G & C).
  unfold txid_of, gxid_of, caller_of. rewrite E. cbn. repeat split; congruence.
Qed.

Definition tree_ops : list (env * call) :=
  [(env0 11 1000000, KStartService CNil (of_string "/a") []);
   (env0 12 2000000, KGo (CTrace 0) (of_string "w1"));
   (env0 13 3000000, KGo (CTrace 1) (of_string "w2"));
   (env0 14 4000000, KEndService (CTrace 0));
   (env0 15 5000000, KGoEnd (CTrace 2))].
Example C43_case : Forall (fun nk => n_key (fst nk) <> 0) tree_ops /\ root sconf0 tree_ops 0%nat /\
  spawned sconf0 tree_ops 0%nat 1%nat /\ spawned sconf0 tree_ops 1%nat 2%nat /\ clos_refl_trans nat (under sconf0 tree_ops) 0%nat 2%nat /\
  map (gxid_of (after sconf0 tree_ops)) [0%nat; 1%nat; 2%nat] = [Some 11; Some 11; Some 11] /\
  map (caller_of (after sconf0 tree_ops)) [0%nat; 1%nat; 2%nat] = [Some 0; Some 11; Some 12] /\
  exists p, In (EvXlog 2%nat p) (a_log (after sconf0 tree_ops)) /\ xl_Caller p = 12.
Proof.
  assert (forall p h i name, nth_error tree_ops i = Some (env0 (12 + Z.of_nat p) (2000000 + 1000000 * Z.of_nat p), KGo (CTrace p) name) ->
    match snd (run tree_ops (a_init sconf0)) with Some rs => nth_error rs i | None => None end = Some (RRun (Some (CTrace h))) -> p <> h -> spawned sconf0 tree_ops p h) as Hs.
  { intros p h i name E1 E2 Hn. split; [exact Hn|]. exists i, name. destruct (snd (run tree_ops (a_init sconf0))) as [rs|] eqn:R; [|discriminate]. eexists _, rs. split; [exact R|]. split; [exact E1|exact E2]. }
  assert (spawned sconf0 tree_ops 0%nat 1%nat) as S1 by (eapply (Hs 0%nat 1%nat 1%nat); [reflexivity|vm_compute; reflexivity|discriminate]).
  assert (spawned sconf0 tree_ops 1%nat 2%nat) as S2 by (eapply (Hs 1%nat 2%nat 2%nat); [reflexivity|vm_compute; reflexivity|discriminate]).
  split; [repeat constructor; discriminate|]. split; [|split; [exact S1|split; [exact S2|split]]].
  - destruct (snd (run tree_ops (a_init sconf0))) as [rs|] eqn:R; [|vm_compute in R; discriminate].
    assert (match snd (run tree_ops (a_init sconf0)) with Some rs => nth_error rs 0 | None => None end = Some (RCtx (CTrace 0))) as R0 by (vm_compute; reflexivity).
    rewrite R in R0. exists O, (KStartService CNil (of_string "/a") []). split; [|discriminate]. eexists _, rs. split; [exact R|]. split; [reflexivity|exact R0].
  - eapply rt_trans; apply rt_step; left; eassumption.
  - split; [vm_compute; reflexivity|]. split; [vm_compute; reflexivity|]. eexists. split; [vm_compute; do 3 right; left; reflexivity|]. reflexivity.
Qed.

(** With key 0 (one of the 2^63 values of the generator) as root id the link is lost: an API call with propagation in the
    child replaces the global id 0 by the child's own id. *)
Definition zero_ops : list (env * call) :=
  [(env0 0 1000000, KStartService CNil (of_string "/a") []);
   (env0 12 2000000, KGo (CTrace 0) (of_string "w1"));
   (env0 13 3000000, KStartApiProp (CTrace 1) true (of_string "api") [])].
Theorem C43_zero_key_refuted : spawned sconf0 zero_ops 0%nat 1%nat /\
  gxid_of (after sconf0 zero_ops) 0%nat = Some 0 /\ gxid_of (after sconf0 zero_ops) 1%nat = Some 12.
Proof.
  split; [|split; vm_compute; reflexivity]. split; [discriminate|]. exists 1%nat, (of_string "w1").
  destruct (snd (run zero_ops (a_init sconf0))) as [rs|] eqn:R; [|vm_compute in R; discriminate].
  assert (match snd (run zero_ops (a_init sconf0)) with Some rs => nth_error rs 1 | None => None end = Some (RRun (Some (CTrace 1)))) as R0 by (vm_compute; reflexivity).
  rewrite R in R0. eexists _, rs. split; [exact R|]. split; [reflexivity|exact R0].
Qed.

(* ------------------------------------------------------------------ *)
(** ** C44: a transaction in error is sent, with its profile *)
Theorem C44_error_always_sent n k h a x : is_end (CTrace h) k -> nth_error (a_ctx a) h = Some x -> x_Closed x = false -> x_Error x <> 0 ->
  1 <= cf_bulk (n_conf n) ->
  let a' := fst (do_call n k a) in
  exists el p y gs, a_log a' = a_log a ++ [EvMeter h el true; EvXlog h p] /\ xl_Txid p = x_Txid x /\ xl_Error p = x_Error x /\
    nth_error (a_ctx a') h = Some y /\ concat gs = p_buf (x_Profile x) /\ Forall (fun g => 1 <= zlen g <= cf_bulk (n_conf n)) gs /\
    p_sent (x_Profile y) = p_sent (x_Profile x) ++ map (pack_of n x) gs.
Proof.
  intros Hk E C He Hb. cbv zeta. destruct (end_call_eq n k h a x Hk E C ltac:(lia)) as (p & Ep & ->). cbn [fst]. cbv zeta in *.
  set (y := with_status k x) in *. assert (x_Error y = x_Error x) as Ey by (unfold y, with_status; destruct k; try reflexivity; destruct status; reflexivity).
  assert (pack_of n y = pack_of n x /\ x_Profile y = x_Profile x /\ x_Txid y = x_Txid x) as (Q1 & Q2 & Q3).
  { unfold y, with_status. destruct k; try (split; [reflexivity|split; reflexivity]). destruct status; (split; [reflexivity|split; reflexivity]). }
  rewrite (discard_error n a y) in * by (rewrite Ey; exact He).
  destruct (close_flush n y Hb p Ep) as (gs & G1 & G2 & G3). rewrite Q1, Q2 in *.
  assert (h < length (a_ctx a))%nat as Hh by (apply nth_error_Some; congruence).
  eexists _, _, _, gs. split; [|split; [|split; [|split; [apply list_set_same; exact Hh|split; [exact G1|split; [exact G2|exact G3]]]]]].
  - cbn [end_state a_log]. unfold end_events, sends. rewrite Ey. destruct (Z.eqb_spec (x_Error x) 0); [contradiction|]. cbn. reflexivity.
  - exact Q3.
  - exact Ey.
Qed.

(** MarkAsError, MarkAsErrorForcibly and EndApiCall with an error put the service in error when the message's hash is not 0 *)
Lemma fmap_fst {A B} (f : A -> B) m a : fst (fmap f m a) = fst (m a).
Proof. unfold fmap, bind. destruct (m a) as [b [x|]]; reflexivity. Qed.
Lemma recovered_ctx {A} (d : A) m a : a_ctx (fst (recovered d m a)) = a_ctx (fst (m a)).
Proof. unfold recovered. destruct (m a) as [b [x|]]; reflexivity. Qed.

Theorem C44_marking_sets_error n a h x msg k : nth_error (a_ctx a) h = Some x -> text_hash msg <> 0 ->
  k = KMarkError (CTrace h) msg \/ k = KMarkErrorForcibly (CTrace h) msg \/
    (exists ptr s t hs e cpu er o ad, k = KEndApi (CTrace h) (Some ptr) (Some msg) /\ deref (p_heap (x_Profile x)) ptr = Some (SApiCall s t hs e cpu er o ad)) ->
  exists y, nth_error (a_ctx (fst (do_call n k a))) h = Some y /\ x_Error y <> 0.
Proof.
  intros E Hm Hk. assert (h < length (a_ctx a))%nat as Hh by (apply nth_error_Some; congruence).
  destruct Hk as [-> | [-> |(ptr & s & t & hs & e & cpu & er & o & ad & -> & Ed)]]; cbn [do_call]; rewrite fmap_fst.
  - unfold mark_as_error. rewrite recovered_ctx. unfold traced. erewrite bind_some; [|cbn [get_tctx]; rewrite E; reflexivity].
    cbn iota. rewrite (bind_some _ _ _ _ _ (read_eq _ _ _ _ E)).
    assert (exists a1 x1, nth_error (a_ctx a1) h = Some x1 /\ x_Error x1 <> 0 /\
      forall f : unit -> M unit, bind (if x_Error x =? 0 then e <- send_text n KError msg ;; modify h (set_Error e) else ret tt) f a = f tt a1) as (a1 & x1 & E1 & H1 & ->).
    { destruct (Z.eqb_spec (x_Error x) 0) as [Z0|Z0]; [|exists a, x; split; [exact E|]; split; [exact Z0|]; intros f; apply bind_ret].
      set (a0 := set_text (after_send n KError msg (a_text a)) a). assert (nth_error (a_ctx a0) h = Some x) as E0 by exact E.
      exists (upd a0 h (set_Error (text_hash msg) x)), (set_Error (text_hash msg) x). split; [eapply nth_upd; exact E0|]. split; [exact Hm|].
      intros f. rewrite bind_assoc, (bind_some _ _ _ _ _ (send_text_eq _ _ _ _)). fold a0. rewrite (bind_some _ _ _ _ _ (modify_eq _ _ _ _ E0)). reflexivity. }
    destruct (call_error n (KAddPMessage (CTrace h) PMSG_ERROR msg 0 []) a1 h x1 ltac:(intros (m & Hx & _); discriminate) E1 H1) as (y & Ey & Hy).
    cbn [do_call] in Ey. rewrite fmap_fst in Ey. exists y. auto.
  - unfold mark_as_error_forcibly. rewrite recovered_ctx. unfold traced. erewrite bind_some; [|cbn [get_tctx]; rewrite E; reflexivity].
    cbn iota. rewrite (bind_some _ _ _ _ _ (send_text_eq _ _ _ _)). unfold modify. cbn [set_text a_ctx]. rewrite E. cbn [fst set_ctxs a_ctx].
    eexists. split; [apply list_set_same; exact Hh|exact Hm].
  - unfold end_api_call. rewrite recovered_ctx. unfold traced. erewrite bind_some; [|cbn [get_tctx]; rewrite E; reflexivity].
    cbn iota. unfold read_step. rewrite (bind_some _ _ _ _ _ (read_eq _ _ _ _ E)). rewrite Ed. unfold millis. rewrite (bind_some _ _ _ _ _ (read_eq _ _ _ _ E)).
    cbv zeta. rewrite (bind_some _ _ _ _ _ (modify_eq _ _ _ _ E)). match goal with |- context [list_set (a_ctx a) h ?v] => set (x1 := v) end. fold (upd a h x1).
    assert (nth_error (a_ctx (upd a h x1)) h = Some x1) as E1 by (eapply nth_upd; exact E). set (a1 := upd a h x1) in *.
    rewrite bind_assoc, (bind_some _ _ _ _ _ (send_text_eq _ _ _ _)). set (a2 := set_text _ a1). assert (nth_error (a_ctx a2) h = Some x1) as E2 by exact E1.
    rewrite bind_assoc, (bind_some _ _ _ _ _ (modify_eq _ _ _ _ E2)), bind_ret. match goal with |- context [list_set (a_ctx a2) h ?v] => set (x2 := v) end. fold (upd a2 h x2).
    assert (nth_error (a_ctx (upd a2 h x2)) h = Some x2) as E3 by (eapply nth_upd; exact E2).
    assert (x_Error x2 <> 0) as H2 by (unfold x2; destruct (Z.eqb_spec (x_Error x1) 0); [exact Hm|assumption]). set (a3 := upd a2 h x2) in *.
    unfold profile_pop. match goal with |- context [profile_op h ?f a3] => destruct (profile_op_cases h f a3 x2 E3) as [-> |(p & r & ->)] end.
    + exists x2. auto.
    + exists (set_Profile p x2). split; [eapply nth_upd; exact E3|exact H2].
Qed.

(** calls that take the error back: MarkAsErrorForcibly with a message whose hash is 0, such as the empty one *)
Definition clears (h : nat) (k : call) : Prop := exists m, k = KMarkErrorForcibly (CTrace h) m /\ text_hash m = 0.
Theorem C44_error_persists h ops : forall a x, nth_error (a_ctx a) h = Some x -> x_Error x <> 0 -> Forall (fun nk => ~ clears h (snd nk)) ops ->
  exists y, nth_error (a_ctx (fst (run ops a))) h = Some y /\ x_Error y <> 0.
Proof.
  intros a x E He F. refine (run_ind (fun b => exists y, nth_error (a_ctx b) h = Some y /\ x_Error y <> 0) (fun nk => ~ clears h (snd nk)) ops a _ F _).
  - intros n k b Hc (y & Ey & Hy). exact (call_error n k b h y Hc Ey Hy).
  - exists x. auto.
Qed.

(** all together: a service that was put in error at some point and ends normally later is sent *)
Theorem C44_marked_service_is_sent a n mk msg ops n' k h : running a h -> text_hash msg <> 0 ->
  mk = KMarkError (CTrace h) msg \/ mk = KMarkErrorForcibly (CTrace h) msg ->
  Forall (fun nk => ~ clears h (snd nk)) ops ->
  let b := fst (run ops (fst (do_call n mk a))) in
  running b h -> is_end (CTrace h) k -> 1 <= cf_bulk (n_conf n') ->
  exists el p, a_log (fst (do_call n' k b)) = a_log b ++ [EvMeter h el true; EvXlog h p] /\ xl_Error p <> 0.
Proof.
  intros (x & E & _) Hm Hk F b (y & Ey & Cy) He Hb.
  destruct (C44_marking_sets_error n a h x msg mk E Hm) as (x1 & E1 & H1); [tauto|].
  destruct (C44_error_persists h ops _ x1 E1 H1 F) as (y' & Ey' & Hy). fold b in Ey'. rewrite Ey in Ey'. injection Ey' as <-.
  destruct (C44_error_always_sent n' k h b y He Ey Cy Hy Hb) as (el & p & z & gs & L & _ & Er & _). exists el, p. split; [exact L|]. rewrite Er. exact Hy.
Qed.

(** sampling that keeps nothing *)
Definition rates_none := mkRates true false 1000 0 1000 0 1000 0 0.
Definition sconf1 := mkSConf [] true [] rates_none rates_none [] rates_none [] rates_none [].
Definition env1 (key now : Z) : env := mkN (mkConf 100 100 77 3000 8000 300000 true false false [] false sconf1) now (fun _ _ => true) 50 key 7 [].
Example C44_case : let a := after sconf1
    [(env1 11 1000000, KStartService CNil (of_string "/a") []); (env1 12 2000000, KStartService CNil (of_string "/b") []);
     (env1 13 3000000, KMarkError (CTrace 0) (of_string "boom")); (env1 14 4000000, KEndService (CTrace 0)); (env1 15 4000000, KEndService (CTrace 1))] in
  text_hash (of_string "boom") <> 0 /\ xlogs 0 (a_log a) = 1%nat /\ xlogs 1 (a_log a) = 0%nat.
Proof. vm_compute. split; [discriminate|split; reflexivity]. Qed.

(** an error with an empty message is not noticed: the transaction is sampled away *)
Theorem C44_empty_message_refuted : let a := after sconf1
    [(env1 11 1000000, KStartService CNil (of_string "/a") []); (env1 12 3000000, KMarkError (CTrace 0) []); (env1 14 4000000, KEndService (CTrace 0))] in
  samples 0 (a_log a) = 1%nat /\ xlogs 0 (a_log a) = 0%nat /\ In (EvMeter 0%nat 3 false) (a_log a).
Proof. vm_compute. split; [reflexivity|split; [reflexivity|left; reflexivity]]. Qed.

(* ------------------------------------------------------------------ *)
(** ** C46: what is sent at the end, for every discard type *)

(** a transaction is driving when it is the root of its global transaction *)
Definition driving (x : tctx) : Prop := x_Gxid x = x_Txid x \/ x_Gxid x = 0.

Theorem C46_sending_rule n k h a x : is_end (CTrace h) k -> nth_error (a_ctx a) h = Some x -> x_Closed x = false -> 1 <= cf_bulk (n_conf n) ->
  let a' := fst (do_call n k a) in
  let el := millis_between (x_StartTime x) (n_now n) in
  let d := find_xlog_discard (cf_sampling (n_conf n)) (a_sampler a) (n_draw n) (x_Error x) el (x_ServiceName x) in
  exists y, nth_error (a_ctx a') h = Some y /\
  (* the xlog *)
  (d = drop_force \/ (d = drop_all /\ driving x) -> a_log a' = a_log a ++ [EvMeter h el (negb (x_Error x =? 0))]) /\
  (~ (d = drop_force \/ (d = drop_all /\ driving x)) ->
     exists p, a_log a' = a_log a ++ [EvMeter h el (negb (x_Error x =? 0)); EvXlog h p] /\
       xl_DiscardType p = d /\ xl_Txid p = x_Txid x /\ xl_Elapsed p = el /\ xl_Error p = x_Error x) /\
  (* the profile *)
  (d <> keep_all -> p_sent (x_Profile y) = p_sent (x_Profile x)) /\
  (d = keep_all -> exists gs, concat gs = p_buf (x_Profile x) /\ Forall (fun g => 1 <= zlen g <= cf_bulk (n_conf n)) gs /\
     p_sent (x_Profile y) = p_sent (x_Profile x) ++ map (pack_of n x) gs).
Proof.
  intros Hk E C Hb. cbv zeta. destruct (end_call_eq n k h a x Hk E C ltac:(lia)) as (p & Ep & ->). cbn [fst]. cbv zeta in *.
  set (y := with_status k x) in *.
  assert (pack_of n y = pack_of n x /\ x_Profile y = x_Profile x /\ x_Txid y = x_Txid x /\ x_Error y = x_Error x /\ x_Gxid y = x_Gxid x /\ x_StartTime y = x_StartTime x /\ x_ServiceName y = x_ServiceName x) as (Q1 & Q2 & Q3 & Q4 & Q5 & Q6 & Q7).
  { unfold y, with_status. destruct k; try (split; [reflexivity|repeat split]). destruct status; (split; [reflexivity|repeat split]). }
  assert (discard_of n a y = find_xlog_discard (cf_sampling (n_conf n)) (a_sampler a) (n_draw n) (x_Error x) (millis_between (x_StartTime x) (n_now n)) (x_ServiceName x)) as Ed.
  { unfold discard_of. rewrite Q4, Q6, Q7. reflexivity. }
  rewrite <- Ed in *. set (d := discard_of n a y) in *.
  assert (h < length (a_ctx a))%nat as Hh by (apply nth_error_Some; congruence).
  exists (set_Profile p (closed_ctx y)). split; [apply list_set_same; exact Hh|]. cbn [end_state a_log]. unfold end_events. rewrite Q4, Q6.
  assert (sends y d = true <-> ~ (d = DISCARD_ALL_FORCE \/ (d = DISCARD_ALL /\ driving x))) as Hs.
  { unfold sends, driving. rewrite Q5, Q3. unfold DISCARD_ALL, DISCARD_ALL_FORCE. lia. }
  split; [|split; [|split]].
  - intros H. destruct (sends y d); [exfalso; apply Hs; [reflexivity|exact H]|reflexivity].
  - intros H. apply Hs in H. rewrite H. eexists. split; [reflexivity|]. split; [reflexivity|]. split; [exact Q3|]. split; [reflexivity|exact Q4].
  - intros H. destruct (Z.eqb_spec d DISCARD_NONE) as [|_]; [contradiction|]. apply close_keep in Ep. cbn. rewrite Ep, Q2. reflexivity.
  - intros H. rewrite H in Ep. destruct (close_flush n y Hb p Ep) as (gs & G1 & G2 & G3). rewrite Q1, Q2 in *. exists gs. auto.
Qed.

(** hypotheses met: a child of a service whose sampling keeps nothing is discarded with ALL but sent, the root is not *)
Example C46_case : let a := after sconf1
    [(env1 11 1000000, KStartService CNil (of_string "/a") []); (env1 12 2000000, KGo (CTrace 0) (of_string "w"));
     (env1 13 4000000, KGoEnd (CTrace 1)); (env1 14 4000000, KEndService (CTrace 0))] in
  map (fun h => (samples h (a_log a), xlogs h (a_log a))) [0%nat; 1%nat] = [(1%nat, 0%nat); (1%nat, 1%nat)].
Proof. vm_compute. reflexivity. Qed.

Print Assumptions C40_xlog_counts_refuted.
Print Assumptions C43_child_links.
Print Assumptions C43_root_links.
Print Assumptions C43_spawn_tree.
Print Assumptions C43_xlogs_carry_links.
Print Assumptions C43_zero_key_refuted.
Print Assumptions C44_error_always_sent.
Print Assumptions C44_marking_sets_error.
Print Assumptions C44_error_persists.
Print Assumptions C44_marked_service_is_sent.
Print Assumptions C44_empty_message_refuted.
Print Assumptions C46_sending_rule.
