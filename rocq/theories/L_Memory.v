(** Lemmas for P_Memory.v. *)
From Verif Require Import GoInt M_Util L_Util M_OutX M_Packs M_Access M_Cache M_Text M_Hash M_Conf M_Udp M_Net M_NetLimit M_Redirect M_Agent M_Trace M_Meter M_Tasks M_Whole
  L_Cache L_Trace L_Text L_TraceRel L_TraceInv L_Redirect S_Tasks L_Whole P_Whole S_Memory.
From Coq Require Import Permutation ZifyBool.

(** ** Caches *)
Definition neat (cap : Z) (c : lra) : Prop := wf c /\ lmax c = cap /\ zlen (L_Cache.view c) <= cap.
Lemma neat_entries cap c : neat cap c -> entries_at_most cap c.
Proof.
  intros (W & _ & Hv). unfold L_Cache.view, zlen in Hv. rewrite map_length in Hv. split; [exact Hv|]. unfold zlen in *. rewrite (Permutation_length (wf_tab c W)). unfold tab_of. rewrite map_length. exact Hv.
Qed.
Lemma neat_new cap : 0 <= cap -> neat cap (lra_new cap).
Proof. intros H. split; [apply wf_new|]. split; [reflexivity|cbn; exact H]. Qed.
Lemma vset_len k v l : zlen (vset k v l) = zlen l.
Proof. unfold zlen. rewrite <- (map_length fst (vset k v l)), vset_keys, map_length. reflexivity. Qed.
Lemma neat_add cap c k v : 0 < cap -> neat cap c -> neat cap (fst (lra_add c k v)).
Proof.
  intros Hc (W & M & Hv). destruct (alook k (L_Cache.view c)) eqn:E.
  - destruct (add_present c k v W) as (W' & V' & _ & M'); [congruence|]. split; [exact W'|]. split; [congruence|]. rewrite V', vset_len. exact Hv.
  - destruct (add_absent c k v W E) as (W' & M' & V'). split; [exact W'|]. split; [congruence|]. rewrite M in V'.
    destruct (negb (cap =? 0) && (cap <? zlen (L_Cache.view c) + 1)) eqn:F.
    + destruct V' as (l & o & El & Vl & _). rewrite Vl. apply (f_equal zlen) in El. rewrite zlen_cons, zlen_app, zlen_cons in El. change (zlen (@nil (Z * option Z))) with 0 in El. lia.
    + destruct V' as (Vl & _). rewrite Vl, zlen_cons. lia.
Qed.
Lemma adel_len k (l : list (Z * option Z)) : zlen (adel k l) <= zlen l.
Proof. induction l as [|[a b] l IH]; [cbn; lia|]. cbn [adel]. destruct (k =? a); rewrite ?zlen_cons; lia. Qed.
Lemma neat_remove cap c k : neat cap c -> neat cap (fst (lra_remove c k)).
Proof.
  intros (W & M & Hv). destruct (remove_view c k W) as (W' & M' & V' & _). split; [exact W'|]. split; [congruence|]. rewrite V'. pose proof (adel_len k (L_Cache.view c)). lia.
Qed.
Lemma neat_clear cap c o : 0 <= cap -> neat cap c -> neat cap (fst (lra_clear c o)).
Proof. intros H (W & M & Hv). unfold lra_clear. cbn [fst]. split; [constructor; cbn; try constructor; intros a []|]. split; [exact M|cbn; exact H]. Qed.

(** ** The table of active services *)
Lemma neat_minor N a b : minor N a b -> neat 10000 (a_active a) -> neat 10000 (a_active b).
Proof. intros H I. rewrite (mn_active _ _ _ H). exact I. Qed.
Lemma neat_closes N z a b : closes N z a b -> neat 10000 (a_active a) -> neat 10000 (a_active b).
Proof. intros [(h & x & x' & _ & _ & _ & _ & _ & _ & _ & Ea & _)] I. rewrite Ea. apply neat_remove, I. Qed.
Lemma neat_ends N z a b : ends N z a b -> neat 10000 (a_active a) -> neat 10000 (a_active b).
Proof. induction 1 as [a|a b c _ IH H|a b c _ IH H]; intros I; [exact I|eapply neat_minor; eauto|eapply neat_closes; eauto]. Qed.
Lemma neat_effect N z a b : effect N z a b -> neat 10000 (a_active a) -> neat 10000 (a_active b).
Proof.
  intros [[H|(b1 & c1 & H1 & [(x & _ & _ & Ea) _] & H3)]|H] I.
  - eapply neat_minor; eassumption.
  - eapply neat_minor; [exact H3|]. rewrite Ea. apply neat_add; [lia|]. eapply neat_minor; eassumption.
  - eapply neat_ends; eassumption.
Qed.
Lemma neat_run ops : forall a, neat 10000 (a_active a) -> neat 10000 (a_active (fst (run ops a))).
Proof.
  induction ops as [|[n k] ops IH]; intros a I; [exact I|]. cbn [run]. pose proof (neat_effect _ _ _ _ (call_effect 0 n k a (Nat.le_0_l _)) I) as J.
  destruct (do_call n k a) as [a' [r|]]; cbn [fst] in J |- *; [|exact J]. specialize (IH a' J). destruct (run ops a') as [a'' [rs|]]; exact IH.
Qed.

(** ** The texts *)
Definition neat_texts (t : tstate) : Prop := forall k, neat (kind_cap k) (t_cache t k).
Lemma cap_pos k : 0 < kind_cap k.
Proof. destruct k; cbn; lia. Qed.
Lemma texts_add_key k h t : neat_texts t -> neat_texts (t_add_key k h t).
Proof.
  intros I k'. specialize (I k'). cbn [t_add_key t_cache]. destruct (L_Text.kind_eqb_spec k' k) as [->|Nk]; [rewrite set_cache_same|rewrite set_cache_other by assumption; exact I].
  apply neat_add; [apply cap_pos|exact I].
Qed.
Lemma texts_clear k t : neat_texts t -> neat_texts (t_clear k t).
Proof.
  intros I k'. specialize (I k'). cbn [t_clear t_cache]. destruct (L_Text.kind_eqb_spec k' k) as [->|Nk]; [rewrite set_cache_same|rewrite set_cache_other by assumption; exact I].
  apply neat_clear; [pose proof (cap_pos k); lia|exact I].
Qed.
Lemma texts_reset t : neat_texts t -> neat_texts (reset_text_sent t).
Proof. unfold reset_text_sent. generalize reset_order. intros l. revert t. induction l as [|k l IH]; intros t I; [exact I|]. cbn [fold_left]. apply IH, texts_clear, I. Qed.

(** ** The sender *)
(** the channel is within its capacity, and what the goroutine has taken or announced to take was once in it *)
Definition loaded (qcap : Z) (u : usys) : Prop :=
  zlen (queue u) <= qcap /\ match snd_state u with Idle => True | Sending todo held _ => zlen held + Z.of_nat todo <= qcap end.
Lemma loaded_add qcap b u : loaded qcap u -> loaded qcap (add_buffer qcap b u).
Proof.
  intros (A & B). unfold add_buffer. destruct (Z.ltb_spec (zlen (queue u)) qcap); split; cbn [queue snd_state]; try assumption. rewrite zlen_app, zlen_cons. change (zlen (@nil bytes)) with 0. lia.
Qed.
Lemma loaded_step thr max pks qcap u u' : 0 <= qcap -> loaded qcap u -> sender_step2 thr max pks u = Some u' -> loaded qcap u'.
Proof.
  intros Hq (A & B). unfold sender_step2. destruct (snd_state u) as [|[|n] held size] eqn:Es.
  - destruct (queue u) as [|b [|b2 q]] eqn:Eq.
    + intros [= <-]. split; [rewrite Eq; exact A|rewrite Es; exact I].
    + destruct (write_buffer _ _ _); [|discriminate]. intros [= <-]. split; cbn; [exact Hq|exact I].
    + intros [= <-]. split; [exact A|]. cbn [snd_state]. unfold zlen in *. cbn [length] in *. lia.
  - destruct (write_buffer_list _ _ _); [|discriminate]. intros [= <-]. split; [exact A|exact I].
  - destruct (queue u) as [|b q] eqn:Eq; [intros [= <-]; split; [rewrite Eq; exact A|rewrite Es; exact B]|].
    rewrite zlen_cons in A. pose proof (zlen_nonneg held). destruct (_ <=? _).
    + destruct (send_list _ _ _); [|discriminate]. intros [= <-]. split; cbn [queue snd_state]; [lia|]. rewrite zlen_cons. change (zlen (@nil bytes)) with 0. lia.
    + intros [= <-]. split; cbn [queue snd_state]; [lia|]. rewrite zlen_app, zlen_cons. change (zlen (@nil bytes)) with 0. lia.
Qed.

(** ** Meters *)
Lemma tab_set_len {B} (t : list B) i b t' : tab_set t i b = Some t' -> zlen t' = zlen t.
Proof.
  unfold tab_set. destruct ((0 <=? i) && (i <? zlen t)) eqn:E; [|discriminate]. intros H. apply (f_equal (fun o => match o with Some l => zlen l | None => 0 end)) in H. cbv beta iota in H. rewrite <- H. unfold zlen in *. rewrite len_put by lia. reflexivity.
Qed.
Lemma advance_len {B} (b0 : B) n : forall pos t r, advance b0 n pos t = Some r -> zlen (snd r) = zlen t.
Proof.
  induction n as [|n IH]; intros pos t r; cbn [advance]; [intros [= <-]; reflexivity|]. destruct (tab_set _ _ _) as [t'|] eqn:E; [|discriminate]. intros H. apply IH in H. rewrite H. eapply tab_set_len; exact E.
Qed.
Lemma position_len {B} (b0 : B) cur m p m' : get_position b0 cur m = Some (p, m') -> zlen (m_table m') = zlen (m_table m).
Proof.
  unfold get_position. destruct (cur =? m_time m); [intros [= <- <-]; reflexivity|]. destruct (advance _ _ _ _) as [[q t]|] eqn:E; [|discriminate]. intros [= <- <-]. apply advance_len in E. exact E.
Qed.
Lemma current_len {B} (b0 : B) cur f m m' : on_current b0 cur f m = Some m' -> zlen (m_table m') = zlen (m_table m).
Proof.
  unfold on_current. destruct (get_position _ _ _) as [[p m1]|] eqn:E; [|discriminate]. apply position_len in E. destruct (tab_get _ _); [|discriminate].
  destruct (tab_set _ _ _) as [t|] eqn:Et; [|discriminate]. intros [= <-]. cbn [m_table]. apply tab_set_len in Et. congruence.
Qed.
Lemma search_len {B} (b0 : B) cur p m q bs m' : search b0 cur p m = Some (q, bs, m') -> zlen (m_table m') = zlen (m_table m).
Proof.
  unfold search. cbv zeta. destruct (get_position _ _ _) as [[r m1]|] eqn:E; [|discriminate]. apply position_len in E. destruct (walk _ _ _); [|discriminate]. intros [= <- <- <-]. exact E.
Qed.
Lemma samples_len now es : forall m m', add_samples now es m = Some m' -> zlen (m_table m') = zlen (m_table m).
Proof.
  induction es as [|e es IH]; intros m m'; cbn [add_samples]; [intros [= <-]; reflexivity|]. destruct e; try apply IH.
  destruct (service_add _ _ _ _) as [m1|] eqn:E; [|discriminate]. intros H. apply IH in H. apply current_len in E. congruence.
Qed.
Definition tables (w : M_Tasks.world) : Z * Z := (zlen (m_table (ct_service (w_ct w))), zlen (m_table (ct_active (w_ct w)))).
Lemma task_tables t w ps w' : task_step t w = Some (ps, w') -> tables w' = tables w.
Proof.
  intros H. assert (do_task t w = Some (ps, w')) as E by (destruct t; cbn [task_step] in H; [destruct (snd _); [exact H|discriminate]|exact H|exact H]). clear H. unfold tables.
  destruct t as [n k|n r obj|n obj]; cbn [do_task] in E.
  - unfold w_call in E. destruct (add_samples _ _ _) as [m|] eqn:Es; [|discriminate]. injection E as <- <-. cbn. apply samples_len in Es. rewrite Es. reflexivity.
  - unfold real_tick in E. destruct (get_active_count _ _) as [b [act|]]; [|discriminate]. destruct (all_counters _ _ _ _) as [[t s]|] eqn:Ea; [|discriminate].
    destruct (add_samples _ _ _) as [m|] eqn:Es; [|discriminate]. injection E as <- <-. cbn. apply samples_len in Es. rewrite Es.
    unfold all_counters in Ea. destruct act as [[a0 a1] a2]. destruct (service_counters _ _ _) as [[sc m1]|] eqn:E1; [|discriminate].
    destruct (value_add _ _ _) as [mv|] eqn:E2; [|discriminate]. destruct (value_counters _ _ _) as [[vc mv']|] eqn:E3; [|discriminate]. injection Ea as _ <-. cbn [ct_service ct_active].
    unfold service_counters in E1. destruct (search _ _ _ _) as [[[q bs] m2]|] eqn:S1; [|discriminate]. injection E1 as _ <-. apply search_len in S1.
    unfold value_counters in E3. destruct (search _ _ _ mv) as [[[q2 bs2] m3]|] eqn:S3; [|discriminate]. injection E3 as _ <-. apply search_len in S3. apply current_len in E2.
    rewrite S1, S3, E2. reflexivity.
  - unfold five_tick, five_min_counters in E. destruct (service_counters _ _ _) as [[sc m1]|] eqn:E1; [|discriminate]. destruct (value_counters _ _ _) as [[vc mv']|] eqn:E3; [|discriminate].
    injection E as <- <-. cbn.
    unfold service_counters in E1. destruct (search _ _ _ _) as [[[q bs] m2]|] eqn:S1; [|discriminate]. injection E1 as _ <-. apply search_len in S1.
    unfold value_counters in E3. destruct (search _ _ _ (ct_active _)) as [[[q2 bs2] m3]|] eqn:S3; [|discriminate]. injection E3 as _ <-. apply search_len in S3. rewrite S1, S3. reflexivity.
Qed.
