(** Property C95: what the goroutines that read the settings without the lock see of a refresh. *)
From Verif Require Import GoInt M_Util M_Conf M_Half M_Text M_Tcp S_Conf S_Hash S_Wire S_Tcp S_Half L_Conf L_Half P_Conf P_Tcp.
From Coq Require Import Lia.
Local Open Scope nat_scope.

Lemma sint_inj x y : SInt x = SInt y -> x = y.
Proof. intro H. injection H as H. exact H. Qed.
Lemma stext_inj x y : SText x = SText y -> x = y.
Proof. intro H. injection H as H. exact H. Qed.

(** ** One setting *)

(** Every setting that is read while a refresh is under way is the one before or the one after it; only of a text that is being assigned right then can a mixture
    be read. What is missing: C95_torn_refuted. *)
Theorem C95_each_setting_partial k mid old new f : In f fields_in_order ->
  mixture (f old) (f new) (f (half k mid old new)) /\
  (mid = None -> f (half k mid old new) = f old \/ f (half k mid old new) = f new).
Proof.
  intros H. apply In_nth_error in H as [i H]. rewrite (field_half k mid old new i f H). split; [apply pick_mixture|]. intros ->. apply pick_word.
Qed.

(** Of a number or a boolean there is no mixture. *)
Theorem C95_numbers_whole k mid old new f : In f fields_in_order -> (forall x, f old <> SText x) ->
  f (half k mid old new) = f old \/ f (half k mid old new) = f new.
Proof.
  intros H N. destruct (C95_each_setting_partial k mid old new f H) as [[M|[M|(x & y & w & E & _)]] _]; [auto|auto|destruct (N x E)].
Qed.

(** What does not change is never seen changed. *)
Theorem C95_unchanged k mid old new f : In f fields_in_order -> mid = None \/ (forall x, f old <> SText x) -> f old = f new -> f (half k mid old new) = f old.
Proof.
  intros H [M|M] E.
  - destruct (C95_each_setting_partial k mid old new f H) as [_ [A|A]]; [exact M|exact A|rewrite E; exact A].
  - destruct (C95_numbers_whole k mid old new f H M) as [A|A]; [exact A|rewrite E; exact A].
Qed.
(** a text too: its mixture with an equal text is that text *)
Theorem C95_unchanged_text k mid old new f x : In f fields_in_order -> f old = SText x -> f new = SText x -> f (half k mid old new) = SText x.
Proof.
  intros H A B. destruct (C95_each_setting_partial k mid old new f H) as [[M|[M|(a & b & w & Ea & Eb & M)]] _]; [congruence|congruence|].
  rewrite M. rewrite A in Ea. rewrite B in Eb. injection Ea as <-. injection Eb as <-. rewrite firstn_app, Nat.sub_diag, firstn_all. cbn [firstn]. rewrite app_nil_r. reflexivity.
Qed.

(** ** The beginning, the end and the order *)
Theorem C95_finished old new : half 0 None old new = old /\ (forall mid, half assignments mid old new = new).
Proof.
  split.
  - apply fields_determine. apply Forall_forall. intros f H. apply In_nth_error in H as [i H]. rewrite (field_half 0 None old new i f H). apply pick_start.
  - intro mid. apply fields_determine. apply Forall_forall. intros f H. apply In_nth_error in H as [i H]. rewrite (field_half _ mid old new i f H). apply pick_end.
    rewrite <- fields_count. apply nth_error_Some. rewrite H. discriminate.
Qed.

(** Later is never older: once a setting has been read as the new one, every setting assigned before it, and the setting itself, is read as new. *)
Theorem C95_order k mid k' mid' old new i j f g : nth_error fields_in_order i = Some f -> nth_error fields_in_order j = Some g -> i <= j -> k <= k' ->
  mid = None -> g (half k mid old new) <> g old -> f (half k' mid' old new) = f new.
Proof.
  intros Hf Hg L K -> N. rewrite (field_half _ _ _ _ _ _ Hf). rewrite (field_half _ _ _ _ _ _ Hg) in N. apply pick_end.
  unfold pick in N. destruct (Nat.ltb_spec j k); [lia|]. destruct (j =? k); destruct (g old); destruct N; reflexivity.
Qed.

(** A refresh that changes one setting is seen whole: before or after. *)
Theorem C95_one_setting k old new i : (forall j f, nth_error fields_in_order j = Some f -> j <> i -> f old = f new) ->
  half k None old new = old \/ half k None old new = new.
Proof.
  intro H. destruct (Nat.ltb_spec i k) as [L|L]; [right|left]; apply fields_determine, Forall_forall; intros f I; apply In_nth_error in I as [j J]; rewrite (field_half _ _ _ _ _ _ J).
  - destruct (Nat.eq_dec j i) as [-> |N]; [apply pick_end; exact L|]. rewrite <- (H j f J N). destruct (pick_word k j (f old) (f old)) as [E|E]; exact E.
  - destruct (Nat.eq_dec j i) as [-> |N].
    + unfold pick. destruct (Nat.ltb_spec i k); [lia|]. destruct (i =? k); [|reflexivity]. destruct (f old); reflexivity.
    + rewrite <- (H j f J N). destruct (pick_word k j (f old) (f old)) as [E|E]; exact E.
Qed.

(** ** The object hash *)
(** While a refresh changes the object's name, the hash that is sent is that of the old or of the new name: never another number. *)
Theorem C95_hash w s s' ch fp k mid : refresh_conf w s = Some (s', ch) -> reloads w s fp ->
  Forall is_byte (cf_ObjName (c_conf s)) -> Forall is_byte (cf_ObjName (c_conf s')) -> cf_ObjHash (c_conf s) = as_int32 (crc32 (cf_ObjName (c_conf s))) ->
  exists name, (name = cf_ObjName (c_conf s) \/ name = cf_ObjName (c_conf s')) /\ cf_ObjHash (half k mid (c_conf s) (c_conf s')) = as_int32 (crc32 name).
Proof.
  intros R L B B' H. destruct (C59_object_name w s s' ch fp R L) as (_ & H' & _). specialize (H' B').
  destruct (C95_numbers_whole k mid (c_conf s) (c_conf s') (fun c => SInt (cf_ObjHash c))) as [E|E].
  - right. right. left. reflexivity.
  - discriminate.
  - first [apply sint_inj in E | apply stext_inj in E]. exists (cf_ObjName (c_conf s)). split; [left; reflexivity|]. rewrite E. exact H.
  - first [apply sint_inj in E | apply stext_inj in E]. exists (cf_ObjName (c_conf s')). split; [right; reflexivity|]. rewrite E. exact H'.
Qed.

(** ** Settings that belong together *)

(** a file that gives the collector's address *)
Definition at_collector (ip port : gostring) (m : Z) : world :=
  mk_world [] (StatTime m) (Loaded [(of_string "net_collector_ip", ip); (of_string "net_collector_tcp_port", port)]) (of_string "h").

Definition with_conf (c : configure) (s : cstate) : cstate := mk_cstate c (c_last s) (c_descs s) (c_sampler s).

(** The collector moves from 10.0.0.1:6100 to 10.0.0.2:7200; the connection is made while the refresh is under way. It is made to 10.0.0.2:6100, which was never
    configured, and, since the rest of the refresh happens before the client looks at the settings again, it is kept for ever (as long as that host answers). *)
Theorem C95_address_refuted h a d f n :
  exists w old new ch k s' out,
    w = at_collector (of_string "10.0.0.2") (of_string "7200") 2 /\ refresh_conf w old = Some (new, ch) /\
    cf_NetCollectorIP (c_conf old) = of_string "10.0.0.1" /\ cf_NetCollectorTCPPort (c_conf old) = 6100%Z /\
    cf_NetCollectorIP (c_conf new) = of_string "10.0.0.2" /\ cf_NetCollectorTCPPort (c_conf new) = 7200%Z /\
    (let seen := half k None (c_conf old) (c_conf new) in
     session (mk_hstate d a (with_conf seen old) f) [CRefresh w] (repeat ([], h) n) (repeat (frame keep_alive) n) =
       Some (of_string "10.0.0.2", 6100%Z, out, (s', repeat [4%Z] n, None)) /\
     c_conf (hs_conf s') = c_conf new).
Proof.
  pose (w1 := at_collector (of_string "10.0.0.1") (of_string "6100") 1). pose (w2 := at_collector (of_string "10.0.0.2") (of_string "7200") 2).
  pose (test := fun (old new again : cstate) => let seen := half 8 None (c_conf old) (c_conf new) in
     (beqb (cf_NetCollectorIP (c_conf old)) (of_string "10.0.0.1") && beqb (cf_NetCollectorIP (c_conf new)) (of_string "10.0.0.2") &&
     beqb (cf_NetCollectorIP seen) (of_string "10.0.0.2") && (cf_NetCollectorTCPPort (c_conf old) =? 6100)%Z &&
     (cf_NetCollectorTCPPort (c_conf new) =? 7200)%Z && (cf_NetCollectorTCPPort seen =? 6100)%Z && (cf_ObjHash seen =? cf_ObjHash (c_conf new))%Z)%bool).
  assert (match refresh_conf w1 initial_cstate with
          | Some (old, _) => match refresh_conf w2 old with
             | Some (new, _) => match refresh_conf w2 (with_conf (half 8 None (c_conf old) (c_conf new)) old) with Some (again, _) => test old new again | None => false end
             | None => false end
          | None => false end = true) as K by (vm_compute; reflexivity).
  destruct (refresh_conf w1 initial_cstate) as [[old c1]|]; [|discriminate K].
  destruct (refresh_conf w2 old) as [[new ch]|] eqn:E; [|discriminate K].
  destruct (refresh_conf w2 (with_conf _ old)) as [[again c3]|] eqn:E3; [|discriminate K].
  destruct (andb_prop _ _ K) as [K6 K7]. destruct (andb_prop _ _ K6) as [K5 k6]. destruct (andb_prop _ _ K5) as [K4 k5]. destruct (andb_prop _ _ K4) as [K3 k4].
  destruct (andb_prop _ _ K3) as [K2 k3]. destruct (andb_prop _ _ K2) as [k1 k2]. clear K K6 K5 K4 K3 K2.
  apply beqb_eq in k1, k2, k3. apply Z.eqb_eq in k4, k5, k6, K7.
  assert (c_conf again = c_conf new) as S.
  { destruct (refresh_old w2 old _ new ch again c3 E E3) as [S|[S _]]; [exact S|]. exfalso. rewrite S, k1 in k2. discriminate k2. }
  exists w2, old, new, ch, 8, (mk_hstate d a again f), (handshake (cf_ObjHash (half 8 None (c_conf old) (c_conf new)))).
  split; [reflexivity|]. split; [exact E|]. split; [exact k1|]. split; [exact k4|]. split; [exact k2|]. split; [exact k5|].
  cbv zeta. split; [|cbn [hs_conf]; exact S].
  unfold session. cbn [hs_conf conf_run conf_step]. rewrite E3. cbn [fst snd]. cbn [with_conf c_conf]. rewrite k3, k6.
  rewrite keep_alive_loop; [reflexivity|]. cbn [hs_conf set_conf]. unfold identity. rewrite S, K7. reflexivity.
Qed.

(** What remains true of the address: what is dialled is an address and a port out of the old and the new settings. *)
Theorem C95_address_partial k k' old new :
  let ip := cf_NetCollectorIP (half k None old new) in let port := cf_NetCollectorTCPPort (half k' None old new) in
  (ip = cf_NetCollectorIP old \/ ip = cf_NetCollectorIP new) /\ (port = cf_NetCollectorTCPPort old \/ port = cf_NetCollectorTCPPort new) /\
  (cf_NetCollectorIP old = cf_NetCollectorIP new \/ cf_NetCollectorTCPPort old = cf_NetCollectorTCPPort new ->
   (ip, port) = (cf_NetCollectorIP old, cf_NetCollectorTCPPort old) \/ (ip, port) = (cf_NetCollectorIP new, cf_NetCollectorTCPPort new)).
Proof.
  cbv zeta.
  assert (cf_NetCollectorIP (half k None old new) = cf_NetCollectorIP old \/ cf_NetCollectorIP (half k None old new) = cf_NetCollectorIP new) as A.
  { destruct (proj2 (C95_each_setting_partial k None old new (fun c => SText (cf_NetCollectorIP c)) ltac:(apply (nth_error_In _ 7); reflexivity)) eq_refl) as [E|E];
      first [apply sint_inj in E | apply stext_inj in E]; auto. }
  assert (cf_NetCollectorTCPPort (half k' None old new) = cf_NetCollectorTCPPort old \/ cf_NetCollectorTCPPort (half k' None old new) = cf_NetCollectorTCPPort new) as B.
  { destruct (proj2 (C95_each_setting_partial k' None old new (fun c => SInt (cf_NetCollectorTCPPort c)) ltac:(apply (nth_error_In _ 9); reflexivity)) eq_refl) as [E|E];
      first [apply sint_inj in E | apply stext_inj in E]; auto. }
  split; [exact A|]. split; [exact B|]. intros [E|E]; destruct A as [-> | ->], B as [-> | ->]; rewrite ?E; auto.
Qed.

(** ** Torn texts *)
(** The collector moves from 10.0.0.9 (8 bytes) to 127.0.0.1 (9 bytes): the UDP client can read "127.0.0.", which was never configured, and the sampler, from
    "/api" to "/", a text longer than the new one that goes on with whatever lies behind it in memory. *)
Theorem C95_torn_refuted :
  (exists k old new, cf_NetCollectorIP old = of_string "10.0.0.9" /\ cf_NetCollectorIP new = of_string "127.0.0.1" /\
     forall beyond, cf_NetCollectorIP (half k (Some beyond) old new) = of_string "127.0.0.") /\
  (forall beyond, exists k old new, cf_XlogDiscardServicePatterns old = of_string "/api" /\ cf_XlogDiscardServicePatterns new = of_string "/" /\
     cf_XlogDiscardServicePatterns (half k (Some beyond) old new) = of_string "/" ++ firstn 3 beyond).
Proof.
  assert (exists c, cf_NetCollectorIP c = of_string "10.0.0.9") as [o Ho].
  { assert (match refresh_conf (at_collector (of_string "10.0.0.9") [] 1) initial_cstate with Some (s, _) => beqb (cf_NetCollectorIP (c_conf s)) (of_string "10.0.0.9") | None => false end = true) as K by (vm_compute; reflexivity).
    destruct (refresh_conf _ _) as [[s ch]|]; [|discriminate K]. exists (c_conf s). apply beqb_eq. exact K. }
  assert (exists c, cf_NetCollectorIP c = of_string "127.0.0.1") as [n Hn].
  { assert (match refresh_conf (at_collector (of_string "127.0.0.1") [] 1) initial_cstate with Some (s, _) => beqb (cf_NetCollectorIP (c_conf s)) (of_string "127.0.0.1") | None => false end = true) as K by (vm_compute; reflexivity).
    destruct (refresh_conf _ _) as [[s ch]|]; [|discriminate K]. exists (c_conf s). apply beqb_eq. exact K. }
  split.
  - exists 7, o, n. split; [exact Ho|]. split; [exact Hn|]. intro beyond.
    assert (SText (cf_NetCollectorIP (half 7 (Some beyond) o n)) = SText (of_string "127.0.0.")) as E.
    { rewrite (field_half 7 (Some beyond) o n 7 (fun c => SText (cf_NetCollectorIP c)) eq_refl). unfold pick. cbn [Nat.ltb Nat.leb Nat.eqb]. rewrite Ho, Hn. reflexivity. }
    first [apply sint_inj in E | apply stext_inj in E]. exact E.
  - assert (exists c, cf_XlogDiscardServicePatterns c = of_string "/api") as [o2 Ho2].
    { pose (w := mk_world [] (StatTime 1) (Loaded [(of_string "xlog_discard_service_patterns", of_string "/api")]) (of_string "h")).
      assert (match refresh_conf w initial_cstate with Some (s, _) => beqb (cf_XlogDiscardServicePatterns (c_conf s)) (of_string "/api") | None => false end = true) as K by (vm_compute; reflexivity).
      destruct (refresh_conf _ _) as [[s ch]|]; [|discriminate K]. exists (c_conf s). apply beqb_eq. exact K. }
    assert (exists c, cf_XlogDiscardServicePatterns c = of_string "/") as [n2 Hn2].
    { pose (w := mk_world [] (StatTime 1) (Loaded [(of_string "xlog_discard_service_patterns", of_string "/")]) (of_string "h")).
      assert (match refresh_conf w initial_cstate with Some (s, _) => beqb (cf_XlogDiscardServicePatterns (c_conf s)) (of_string "/") | None => false end = true) as K by (vm_compute; reflexivity).
      destruct (refresh_conf _ _) as [[s ch]|]; [|discriminate K]. exists (c_conf s). apply beqb_eq. exact K. }
    intro beyond. exists 24, o2, n2. split; [exact Ho2|]. split; [exact Hn2|].
    assert (SText (cf_XlogDiscardServicePatterns (half 24 (Some beyond) o2 n2)) = SText (of_string "/" ++ firstn 3 beyond)) as E.
    { rewrite (field_half 24 (Some beyond) o2 n2 24 (fun c => SText (cf_XlogDiscardServicePatterns c)) eq_refl). unfold pick. cbn [Nat.ltb Nat.leb Nat.eqb]. rewrite Ho2, Hn2. reflexivity. }
    first [apply sint_inj in E | apply stext_inj in E]. exact E.
Qed.

(** ** Sampling limits: a whole group of settings that belong together *)
(** A refresh raises both limits of the first two sampling steps; whoever samples meanwhile works with the first limit of the new settings and the second one of the
    old: limits that were never configured and are out of order. *)
Theorem C95_limits_refuted old new : (cf_XlogSamplingStep1Ms old <= cf_XlogSamplingStep2Ms old)%Z -> (cf_XlogSamplingStep1Ms new <= cf_XlogSamplingStep2Ms new)%Z ->
  (cf_XlogSamplingStep2Ms old < cf_XlogSamplingStep1Ms new)%Z ->
  exists k, (cf_XlogSamplingStep2Ms (half k None old new) < cf_XlogSamplingStep1Ms (half k None old new))%Z.
Proof.
  intros _ _ L. exists 30.
  assert (SInt (cf_XlogSamplingStep2Ms (half 30 None old new)) = SInt (cf_XlogSamplingStep2Ms old)) as A.
  { rewrite (field_half 30 None old new 31 (fun c => SInt (cf_XlogSamplingStep2Ms c)) eq_refl). reflexivity. }
  assert (SInt (cf_XlogSamplingStep1Ms (half 30 None old new)) = SInt (cf_XlogSamplingStep1Ms new)) as B.
  { rewrite (field_half 30 None old new 29 (fun c => SInt (cf_XlogSamplingStep1Ms c)) eq_refl). reflexivity. }
  first [apply sint_inj in A | apply stext_inj in A]. first [apply sint_inj in B | apply stext_inj in B]. rewrite A, B. exact L.
Qed.

(** the hypotheses are met *)
Example ex_order : forall old new, cf_ObjHash old <> cf_ObjHash new ->
  cf_ObjName (half 5 None old new) = cf_ObjName new.
Proof.
  intros old new N.
  pose proof (C95_order 3 None 5 None old new 1 2 (fun c => SText (cf_ObjName c)) (fun c => SInt (cf_ObjHash c)) eq_refl eq_refl ltac:(lia) ltac:(lia) eq_refl) as E.
  assert (SInt (cf_ObjHash (half 3 None old new)) <> SInt (cf_ObjHash old)) as D.
  { rewrite (field_half 3 None old new 2 (fun c => SInt (cf_ObjHash c)) eq_refl). cbn. intro F. apply N. injection F as F. symmetry. exact F. }
  specialize (E D). first [apply sint_inj in E | apply stext_inj in E]. exact E.
Qed.
Example ex_one a b : cf_ObjHash a <> cf_ObjHash b -> exists old new, (forall j f, nth_error fields_in_order j = Some f -> j <> 2 -> f old = f new) /\ cf_ObjHash old <> cf_ObjHash new.
Proof.
  intro D. exists (half 2 None a b), (half 3 None a b). split.
  - intros j f J N. rewrite !(field_half _ _ _ _ _ _ J). unfold pick.
    destruct (Nat.ltb_spec j 2), (Nat.ltb_spec j 3); try lia; try reflexivity. destruct (j =? 2), (j =? 3), (f a); reflexivity.
  - intro E. apply D. exact E.
Qed.

Print Assumptions C95_each_setting_partial.
Print Assumptions C95_numbers_whole.
Print Assumptions C95_unchanged.
Print Assumptions C95_unchanged_text.
Print Assumptions C95_finished.
Print Assumptions C95_order.
Print Assumptions C95_one_setting.
Print Assumptions C95_hash.
Print Assumptions C95_address_refuted.
Print Assumptions C95_address_partial.
Print Assumptions C95_torn_refuted.
Print Assumptions C95_limits_refuted.
