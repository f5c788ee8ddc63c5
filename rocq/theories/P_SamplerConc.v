(** C86: deciding whether to keep a service's record while the settings are being reloaded. *)
From Verif Require Import GoInt M_Util M_StrMatch M_Sampler S_Sampler M_SamplerConc S_SamplerConc L_SamplerConc P_Sampler.

(** nobody reloading: the decision of the settings in force *)
Theorem C86_undisturbed st draw error elapsed name m :
  decides st [] (decide_p draw error elapsed name) m <-> m = find_xlog_discard (st_conf st) (st_sampler st) draw error elapsed name.
Proof.
  split; intros H.
  - apply decides_quiet in H. rewrite H. apply answer_decide.
  - subst m. rewrite <- answer_decide. apply decides_answer.
Qed.

(** once all the writes of a reload are done, the agent is as if started with the new settings *)
Theorem C86_reload_completes old new :
  fold_left (fun st w => write w st) (reload new) (mk_store old (new_sampler old)) = mk_store new (new_sampler new).
Proof.
  change (writes (reload new) (mk_store old (new_sampler old)) = mk_store new (new_sampler new)). rewrite reload_all. cbn [st_sampler]. f_equal.
  apply C47_follows_configuration with (c := new). apply rs_run with (c := old). apply rs_new.
Qed.

(** a decision is always reached, whatever is being written *)
Theorem C86_always_decides st ws draw error elapsed name : exists m, decides st ws (decide_p draw error elapsed name) m.
Proof. eexists. apply decides_answer. Qed.

(** A decision made while any number of reloads happen is the decision of settings every single one of which was in force. *)
Theorem C86_mixture old news draw error elapsed name m :
  decides (mk_store old (new_sampler old)) (concat (map reload news)) (decide_p draw error elapsed name) m ->
  exists c, mixed (old :: news) c /\ m = find_xlog_discard c (new_sampler c) draw error elapsed name.
Proof.
  intros D. assert (I : In old (old :: news)) by (left; reflexivity).
  destruct (decide_mixed (old :: news) old _ _ _ _ _ _ _ I (conj (inv_start _ _ I) (ok_reloads _ _ (incl_tl old (incl_refl news)))) D) as (r & F & ->).
  exists (set_group G0 r old). split; [apply mixed_replace; [exact I|apply rates_frm_mixed; exact F]|].
  rewrite C47_patterns_have_no_effect by constructor. reflexivity.
Qed.

(** consequences: sampling off in all of them, or all percentages 100 and more in all of them: nothing is withheld *)
Theorem C86_off old news draw error elapsed name m :
  (forall c, In c (old :: news) -> r_Enabled (sc_Sampling c) = false) ->
  decides (mk_store old (new_sampler old)) (concat (map reload news)) (decide_p draw error elapsed name) m -> kept m = true.
Proof.
  intros H D. destruct (C86_mixture _ _ _ _ _ _ _ D) as (c & M & ->). rewrite C47_patterns_have_no_effect by constructor.
  destruct M as (_ & _ & _ & ((a & I & E) & _) & _). apply in_map_iff in I. destruct I as (x & <- & I). rewrite E, (H x I).
  destruct (negb (error =? 0)); reflexivity.
Qed.
Theorem C86_all_kept old news draw error elapsed name m : In draw draws ->
  (forall c, In c (old :: news) -> let r := sc_Sampling c in
     100 <= r_Step1RatePct r /\ 100 <= r_Step2RatePct r /\ 100 <= r_Step3RatePct r /\ 100 <= r_OverRatePct r) ->
  decides (mk_store old (new_sampler old)) (concat (map reload news)) (decide_p draw error elapsed name) m -> kept m = true.
Proof.
  intros Dr H D. destruct (C86_mixture _ _ _ _ _ _ _ D) as (c & M & ->). rewrite C47_patterns_have_no_effect by constructor.
  destruct (negb (error =? 0)); [reflexivity|]. destruct (r_Enabled (sc_Sampling c)); [|reflexivity].
  assert (L : draw < 100) by (unfold draws in Dr; apply in_map_iff in Dr; destruct Dr as (k & <- & K); apply in_seq in K; lia).
  destruct M as (_ & _ & _ & (_ & _ & _ & (a1 & I1 & E1) & _ & (a2 & I2 & E2) & _ & (a3 & I3 & E3) & (a4 & I4 & E4)) & _).
  apply in_map_iff in I1, I2, I3, I4. destruct I1 as (x1 & <- & I1), I2 as (x2 & <- & I2), I3 as (x3 & <- & I3), I4 as (x4 & <- & I4).
  pose proof (H x1 I1) as H1. pose proof (H x2 I2) as H2. pose proof (H x3 I3) as H3. pose proof (H x4 I4) as H4. cbv zeta in H1, H2, H3, H4.
  unfold sampling4elapsed. rewrite E1, E2, E3, E4.
  destruct (elapsed <? _). { destruct (draw >=? _) eqn:G; [|reflexivity]. clear - G L H1. lia. }
  destruct (elapsed <? _). { destruct (draw >=? _) eqn:G; [|reflexivity]. clear - G L H2. lia. }
  destruct (elapsed <? _); (destruct (draw >=? _) eqn:G; [|reflexivity]); clear - G L H3 H4; lia.
Qed.

(** a reload that changes one of the nine sampling settings: the decision is that of the old or that of the new settings *)
Theorem C86_one_change old new n draw error elapsed name m : same_but (sc_Sampling old) (sc_Sampling new) n ->
  decides (mk_store old (new_sampler old)) (reload new) (decide_p draw error elapsed name) m ->
  m = find_xlog_discard old (new_sampler old) draw error elapsed name \/ m = find_xlog_discard new (new_sampler new) draw error elapsed name.
Proof.
  intros Sm D. rewrite <- (app_nil_r (reload new)) in D. change (reload new ++ []) with (concat (map reload [new])) in D.
  destruct (C86_mixture _ _ _ _ _ _ _ D) as (c & M & ->). rewrite !C47_patterns_have_no_effect by constructor.
  assert (X : sc_Sampling c = sc_Sampling old \/ sc_Sampling c = sc_Sampling new); [|destruct X as [-> | ->]; auto].
  destruct M as (_ & _ & _ & M & _). cbn [map] in M.
  destruct (sc_Sampling old) as [o0 o1 o2 o3 o4 o5 o6 o7 o8], (sc_Sampling new) as [n0 n1 n2 n3 n4 n5 n6 n7 n8], (sc_Sampling c) as [c0 c1 c2 c3 c4 c5 c6 c7 c8].
  clear D. unfold same_but, rates_mixed, from in *. cbn in Sm, M. destruct Sm as (S0 & S1 & S2 & S3 & S4 & S5 & S6 & S7 & S8).
  destruct M as (F0 & F1 & F2 & F3 & F4 & F5 & F6 & F7 & F8).
  repeat match goal with F : exists a, _ |- _ => destruct F as (? & [<- | [<- | []]] & F); cbn in F; subst end;
  do 9 (destruct n as [|n]; [rewrite ?S0, ?S1, ?S2, ?S3, ?S4, ?S5, ?S6, ?S7, ?S8 by discriminate; auto|]);
  rewrite ?S0, ?S1, ?S2, ?S3, ?S4, ?S5, ?S6, ?S7, ?S8 by discriminate; auto.
Qed.

(** With more than one change the decision can be one neither the old nor the new settings make: sampling is switched on with
    every record kept (rates 100 where the old, inactive, ones were the default 2, 7 and 15 per cent), and a record is withheld. *)
Definition switched_off : sconf := default_sconf false.
Definition switched_on : sconf :=
  mkSConf [] true [] (mkRates true false 100 100 500 100 1000 100 100) (default_rates false) [] (default_rates false) [] (default_rates false) [].
Lemma mixture_possible : decides (mk_store switched_off (new_sampler switched_off)) (reload switched_on) (decide_p 50 0 10 (of_string "/a")) DISCARD_ALL.
Proof.
  unfold reload, patterned_writes, step_writes. cbn [app map]. do 4 apply d_write.
  match goal with |- decides ?st ?ws ?p _ => replace DISCARD_ALL with (answer st p) by (vm_compute; reflexivity); apply decides_answer end.
Qed.
Theorem C86_old_or_new_refuted : ~ (forall old new draw error elapsed name m,
  decides (mk_store old (new_sampler old)) (reload new) (decide_p draw error elapsed name) m ->
  m = find_xlog_discard old (new_sampler old) draw error elapsed name \/ m = find_xlog_discard new (new_sampler new) draw error elapsed name).
Proof. intros H. specialize (H _ _ _ _ _ _ _ mixture_possible). vm_compute in H. destruct H as [H | H]; discriminate H. Qed.
(** in particular: kept for certain under both, withheld in between *)
Theorem C86_kept_by_both_refuted : ~ (forall old new error elapsed name,
  (forall draw, In draw draws -> kept (find_xlog_discard old (new_sampler old) draw error elapsed name) = true /\
                                 kept (find_xlog_discard new (new_sampler new) draw error elapsed name) = true) ->
  forall draw m, In draw draws -> decides (mk_store old (new_sampler old)) (reload new) (decide_p draw error elapsed name) m -> kept m = true).
Proof.
  intros H. specialize (H switched_off switched_on 0 10 (of_string "/a")).
  assert (A : In 50 draws) by (unfold draws; apply in_map_iff; exists 50%nat; split; [reflexivity|apply in_seq; lia]).
  assert (K : forall draw, In draw draws -> kept (find_xlog_discard switched_off (new_sampler switched_off) draw 0 10 (of_string "/a")) = true /\
                                            kept (find_xlog_discard switched_on (new_sampler switched_on) draw 0 10 (of_string "/a")) = true).
  { intros d D. rewrite !C47_patterns_have_no_effect by constructor. cbn. split; [reflexivity|].
    unfold draws in D. apply in_map_iff in D. destruct D as (k & <- & I). apply in_seq in I. destruct (Z.of_nat k >=? 100) eqn:E; [|reflexivity].
    clear - E I. lia. }
  specialize (H K 50 _ A mixture_possible). discriminate H.
Qed.

(** the hypotheses are met: a reload that changes one percentage, interleaved *)
Example C86_one_change_case : same_but (default_rates true) (mkRates true false 100 99 500 7 1000 15 3000) 3.
Proof. repeat split; intros H; try reflexivity. elim H. reflexivity. Qed.
Example C86_all_kept_case : forall c, In c [switched_on] -> let r := sc_Sampling c in
     100 <= r_Step1RatePct r /\ 100 <= r_Step2RatePct r /\ 100 <= r_Step3RatePct r /\ 100 <= r_OverRatePct r.
Proof. intros c [<- | []]. cbn. lia. Qed.

Print Assumptions C86_undisturbed.
Print Assumptions C86_reload_completes.
Print Assumptions C86_always_decides.
Print Assumptions C86_mixture.
Print Assumptions C86_off.
Print Assumptions C86_all_kept.
Print Assumptions C86_one_change.
Print Assumptions C86_old_or_new_refuted.
Print Assumptions C86_kept_by_both_refuted.
