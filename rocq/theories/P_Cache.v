(** Properties C23-C28. The cache states are those reachable by any sequence of calls ([lra_run],
    [orun]); S_Cache.v defines what a client observes ([holds], [fifo]) and the bounded FIFO map. *)
From Verif Require Import GoInt M_Cache S_Cache L_Cache M_RWLock L_RWLock L_CacheMap.
From Coq Require Import ZifyBool Permutation.

(** ** C23 *)
Theorem C23_capacity cap log c : lra_run cap log c -> 0 < cap -> lra_size c <= cap.
Proof. intros R Hc. destruct (lra_run_inv _ _ _ R) as (_ & _ & _ & Bd). rewrite lra_size_view. exact (Bd Hc). Qed.

(** one entry per key: the stored keys are distinct, and they are the keys [Contains] reports *)
Theorem C23_one_entry_per_key cap log c : lra_run cap log c ->
  NoDup (map (fun e => ekey (snd e)) (lst c)) /\
  (forall k, lra_contains c k = true <-> In k (map (fun e => ekey (snd e)) (lst c))).
Proof.
  intros R. destruct (lra_run_inv _ _ _ R) as (W & _ & _ & _). pose proof (wf_keys c W) as N.
  unfold view in N. rewrite map_map in N. split; [exact N|]. intros k. rewrite lra_contains_view by assumption.
  replace (map (fun e => ekey (snd e)) (lst c)) with (map fst (view c)) by (unfold view; rewrite map_map; reflexivity).
  destruct (alook k (view c)) eqn:E; [apply alook_some_key in E; intuition|apply alook_none in E; intuition congruence].
Qed.

(** capacity 0 is unbounded: adding never evicts anything *)
Theorem C23_zero_unbounded log c k v : lra_run 0 log c ->
  snd (lra_add c k v) = [] /\ lra_contains (fst (lra_add c k v)) k = true /\
  forall k', lra_contains c k' = true -> lra_contains (fst (lra_add c k v)) k' = true.
Proof.
  intros R. destruct (lra_run_inv _ _ _ R) as (W & M & _ & _). destruct (alook k (view c)) eqn:E.
  - destruct (add_present c k v W) as (W' & V' & O' & _); [congruence|]. split; [assumption|]. split.
    + rewrite lra_contains_view, V', alook_vset, Z.eqb_refl, E by assumption. reflexivity.
    + intros k'. rewrite !lra_contains_view, V', alook_vset by assumption. destruct (k' =? k); destruct (alook k' (view c)); auto.
  - destruct (add_absent c k v W E) as (W' & _ & H). rewrite M in H. cbn [Z.eqb negb andb] in H. destruct H as (V' & O').
    split; [assumption|]. split.
    + rewrite lra_contains_view, V' by assumption. cbn [alook]. rewrite Z.eqb_refl. reflexivity.
    + intros k'. rewrite !lra_contains_view, V' by assumption. cbn [alook]. destruct (k' =? k); auto.
Qed.

(** ** C24: [holds log k] is the value of the most recent event about [k] (S_Cache.v) *)
Theorem C24_lookups cap log c k : lra_run cap log c ->
  lra_get c k = match holds log k with Some v => v | None => None end /\
  lra_contains c k = match holds log k with Some _ => true | None => false end.
Proof.
  intros R. destruct (lra_run_inv _ _ _ R) as (W & _ & (_ & _ & _ & H) & _).
  rewrite lra_get_view, lra_contains_view, H by assumption. split; reflexivity.
Qed.

(** AddKey: the key is there, with something that is not nil, whatever the (non-negative) capacity *)
Theorem C24_add_key cap log c k : lra_run cap log c -> 0 <= cap ->
  let c' := fst (lra_add_key c k) in
  lra_contains c' k = true /\ lra_get c' k <> None /\ lra_empty c' = false.
Proof.
  intros R Hc c'. destruct (lra_run_inv _ _ _ R) as (W & M & _ & _).
  assert (wf c' /\ alook k (view c') = Some item_exists) as (W' & E).
  { unfold c', lra_add_key. destruct (alook k (view c)) as [v0|] eqn:E.
    - destruct (add_present c k item_exists W) as (W' & V' & _ & _); [congruence|]. split; [exact W'|]. rewrite V', alook_vset, Z.eqb_refl, E. reflexivity.
    - destruct (add_absent c k item_exists W E) as (W' & _ & H). split; [exact W'|]. rewrite M in H. destruct (negb (cap =? 0) && (cap <? zlen (view c) + 1)) eqn:B.
      + destruct H as (l & o & El & V' & _). rewrite V'. destruct l as [|x l].
        * apply (f_equal zlen) in El. unfold zlen in El, B. cbn [app length] in El. lia.
        * cbn [app] in El. injection El as <- _. cbn [alook]. rewrite Z.eqb_refl. reflexivity.
      + destruct H as (V' & _). rewrite V'. cbn [alook]. rewrite Z.eqb_refl. reflexivity. }
  rewrite lra_contains_view, lra_get_view, E by exact W'. split; [reflexivity|]. split; [discriminate|].
  unfold lra_empty. rewrite lra_size_view. destruct (view c'); [discriminate E|]. rewrite zlen_cons'. unfold zlen. lia.
Qed.

Theorem C24_size_empty_values cap log c it : lra_run cap log c -> Permutation it (table c) ->
  lra_size c = zlen (fifo log) /\
  (lra_empty c = true <-> forall k, holds log k = None) /\
  Permutation (lra_values c it)
              (filter (fun v => match v with Some _ => true | None => false end)
                      (map (fun k => match holds log k with Some v => v | None => None end) (fifo log))).
Proof.
  intros R P. destruct (lra_run_inv _ _ _ R) as (W & _ & (_ & N & F & H) & _). split; [|split].
  - rewrite lra_size_view, F. unfold zlen. rewrite rev_length, map_length. reflexivity.
  - unfold lra_empty. rewrite lra_size_view. split.
    + intros E k. rewrite H. destruct (view c); [reflexivity|unfold zlen in E; cbn in E; lia].
    + intros E. destruct (view c) as [|[k0 v0] m]; [reflexivity|]. specialize (H k0). rewrite E in H. cbn [alook] in H. rewrite Z.eqb_refl in H. discriminate.
  - unfold lra_values, non_nil.
    assert (forall f (a b : list (option Z)), Permutation a b -> Permutation (filter f a) (filter f b)) as PF.
    { intros f a b. induction 1 as [|x a b Hp IH|x y a|a b d H1 IH1 H2 IH2]; cbn [filter];
      [constructor|destruct (f x); [constructor|]; assumption|destruct (f x), (f y); try reflexivity; constructor|etransitivity; eassumption]. }
    apply PF. etransitivity; [apply Permutation_map, (entries_of_perm c it W P)|].
    rewrite F, map_rev. etransitivity; [|apply Permutation_rev]. rewrite map_map.
    replace (map snd (view c)) with (map (fun x : Z * option Z => match holds log (fst x) with Some v => v | None => None end) (view c)); [reflexivity|].
    apply map_ext_in. intros [k v] Hin. cbn [fst snd]. rewrite H. rewrite (proj2 (alook_in k v _ N) Hin). reflexivity.
Qed.

(** ** C25: [fifo log] lists the present keys, oldest insertion first (S_Cache.v) *)
Theorem C25_evicts_the_oldest cap log c k v : lra_run cap log c ->
  snd (lra_add c k v) =
    (if match holds log k with Some _ => false | None => true end && (0 <? cap) && (cap <=? zlen (fifo log))
     then match fifo log with
          | old :: _ => match holds log old with Some v' => [(old, v')] | None => [] end
          | [] => []
          end
     else if (cap <? 0) && match holds log k with Some _ => false | None => true end then [(k, v)] else []).
Proof.
  intros R. destruct (lra_run_inv _ _ _ R) as (W & M & (_ & N & F & H) & Bd). rewrite H.
  assert (zlen (fifo log) = zlen (view c)) as Zf by (rewrite F; unfold zlen; rewrite rev_length, map_length; reflexivity).
  destruct (alook k (view c)) eqn:E.
  - destruct (add_present c k v W) as (_ & _ & O' & _); [congruence|]. rewrite O'. cbn [andb]. rewrite andb_false_r. reflexivity.
  - destruct (add_absent c k v W E) as (_ & _ & Ha). rewrite M in Ha. cbn [andb]. rewrite andb_true_r, Zf.
    assert (forall m, cap < 0 -> lra_run cap m c -> zlen (view c) = 0) as Hneg.
    { clear. intros m Hc R. induction R as [|log c k v R IH|log c k R IH|log c it R IH P].
      - reflexivity.
      - destruct (lra_run_inv _ _ _ R) as (W & M & _ & _). destruct (view c) as [|x l] eqn:Ev; [|rewrite zlen_cons' in IH; unfold zlen in IH; lia].
        destruct (add_absent c k v W) as (_ & _ & Ha); [rewrite Ev; reflexivity|]. rewrite M, Ev in Ha.
        replace (negb (cap =? 0) && (cap <? zlen [] + 1)) with true in Ha by (unfold zlen; cbn; lia).
        destruct Ha as (l & o & El & V' & _). destruct l; [rewrite V'; reflexivity|destruct l; discriminate].
      - destruct (lra_run_inv _ _ _ R) as (W & M & _ & _). destruct (remove_view c k W) as (_ & _ & -> & _).
        pose proof (adel_zlen k (view c)) as Hz. unfold zlen in *. lia.
      - reflexivity. }
    destruct ((0 <? cap) && (cap <=? zlen (view c))) eqn:Eb.
    + replace (negb (cap =? 0) && (cap <? zlen (view c) + 1)) with true in Ha by lia. destruct Ha as (l & [ko vo] & El & _ & ->).
      destruct (view c) as [|x m] eqn:Ev; [unfold zlen in Eb; cbn in Eb; lia|]. destruct l as [|y l]; [discriminate El|].
      injection El as <- El. rewrite F. rewrite <- Ev in *. assert (view c = l ++ [(ko, vo)]) as Ev' by congruence.
      rewrite Ev', map_app, rev_app_distr. cbn [map rev app fst]. rewrite H, Ev'. rewrite Ev' in N.
      rewrite (proj2 (alook_in ko vo _ N)); [reflexivity|]. apply in_or_app. right. left. reflexivity.
    + destruct (cap <? 0) eqn:En.
      * rewrite (Hneg log) in Ha by (assumption || lia). replace (negb (cap =? 0) && (cap <? 0 + 1)) with true in Ha by lia.
        destruct Ha as (l & o & El & _ & ->). assert (view c = []) as Ev by (specialize (Hneg log ltac:(lia) R); destruct (view c); [reflexivity|rewrite zlen_cons' in Hneg; unfold zlen in Hneg; lia]).
        rewrite Ev in El. destruct l; [injection El as <-; reflexivity|destruct l; discriminate].
      * replace (negb (cap =? 0) && (cap <? zlen (view c) + 1)) with false in Ha by lia. apply Ha.
Qed.

(** re-adding a present key leaves the insertion order unchanged *)
Theorem C25_readd_keeps_age cap log c k v : lra_run cap log c -> lra_contains c k = true ->
  snd (lra_add c k v) = [] /\ fifo (EAdd k v :: log) = fifo log /\
  map (fun e => ekey (snd e)) (lst (fst (lra_add c k v))) = map (fun e => ekey (snd e)) (lst c).
Proof.
  intros R Hc. destruct (lra_run_inv _ _ _ R) as (W & M & A & Bd). rewrite lra_contains_view in Hc by assumption.
  destruct (alook k (view c)) eqn:E; [|discriminate]. destruct (add_present c k v W) as (_ & V' & O' & _); [congruence|].
  split; [assumption|split].
  - destruct (agrees_set log (view c) k v A) as (_ & _ & F & _); [congruence|]. rewrite F, vset_keys. symmetry. apply A.
  - pose proof (f_equal (map fst) V') as Hm. rewrite vset_keys in Hm. unfold view in Hm. rewrite !map_map in Hm. exact Hm.
Qed.

(** every departure is reported exactly once, with the entry's current value: each report concerns a
    present key with its value, and insertions = departures + presence *)
Theorem C25_reported_once cap log c : lra_run cap log c ->
  (forall newer k v older, log = newer ++ ELeft k v :: older -> holds older k = Some v) /\
  forall k, inserts k log = (leaves k log + if lra_contains c k then 1 else 0)%nat.
Proof.
  intros R. destruct (lra_run_inv _ _ _ R) as (W & _ & (S & _ & _ & H) & _). split.
  - intros newer k v older ->. clear - S. induction newer as [|[k' v'|k' v'] n IH]; cbn [app sound_log] in S; [apply S|auto|apply IH, S].
  - intros k. rewrite (inserts_leaves log k S), H, lra_contains_view by assumption. destruct (alook k (view c)); reflexivity.
Qed.

Example C23_case : exists log c, lra_run 2 log c /\ lra_size c = 2 /\ leaves 7 log = 1%nat.
Proof.
  eexists. eexists. split.
  - apply run_remove with (k := 5). apply run_add with (k := 9) (v := Some 3). apply run_add with (k := 8) (v := None).
    apply run_add with (k := 7) (v := Some 2). apply run_add with (k := 7) (v := Some 1). apply run_new.
  - split; vm_compute; reflexivity.
Qed.

(** ** C26 *)
Theorem C26_cachemap cap ops : 0 < cap ->
  exists c, orun cmap_step ops (cmap_new cap) = Some c /\
    (forall k, cmap_get c k = match fm_find k (fm_run cap ops) with Some e => snd e | None => None end) /\
    (forall k, cmap_contains c k = match fm_find k (fm_run cap ops) with Some _ => true | None => false end) /\
    cmap_size c = zlen (fm_run cap ops) /\ cmap_size c <= cap /\
    (cmap_empty c = true <-> fm_run cap ops = []) /\
    cmap_values c = filter (fun v => match v with Some _ => true | None => false end) (map snd (fm_run cap ops)).
Proof.
  intros Hc. eexists. split; [apply cmap_run_spec; assumption|]. pose proof (fm_run_ok cap ops Hc) as (N & L).
  unfold cmap_get, cmap_contains, cmap_size, cmap_empty, cmap_values, cmap_size. cbn [ctab].
  split; [intros k; rewrite fm_find_alook; destruct (alook k _); reflexivity|].
  split; [intros k; rewrite fm_find_alook; destruct (alook k _); reflexivity|].
  split; [reflexivity|]. split; [assumption|]. split; [|reflexivity].
  destruct (fm_run cap ops); [split; reflexivity|]. rewrite zlen_cons'. unfold zlen. split; [lia|discriminate].
Qed.

Theorem C26_cacheset cap ops : 0 < cap ->
  exists c, orun cset_step ops (cset_new cap) = Some c /\
    (forall k, cset_contains c k = match fm_find k (fm_run cap (map as_mop ops)) with Some _ => true | None => false end) /\
    cset_size c = zlen (fm_run cap (map as_mop ops)) /\ cset_size c <= cap /\
    (cset_empty c = true <-> fm_run cap (map as_mop ops) = []).
Proof.
  intros Hc. eexists. split; [apply cset_run_spec; assumption|]. pose proof (fm_run_ok cap (map as_mop ops) Hc) as (N & L).
  unfold cset_contains, cset_size, cset_empty, cset_size. cbn [stab].
  assert (zlen (map fst (fm_run cap (map as_mop ops))) = zlen (fm_run cap (map as_mop ops))) as E by (unfold zlen; rewrite map_length; reflexivity).
  rewrite E. split; [intros k; rewrite memb_alook, fm_find_alook; destruct (alook k _); reflexivity|].
  split; [reflexivity|]. split; [assumption|].
  destruct (fm_run cap (map as_mop ops)); [split; reflexivity|]. rewrite zlen_cons'. unfold zlen. split; [lia|discriminate].
Qed.

(** the specification map itself: bounded, one entry per key, and a full map loses its oldest entry only *)
Theorem C26_spec_bounded cap ops : 0 < cap -> NoDup (map fst (fm_run cap ops)) /\ zlen (fm_run cap ops) <= cap.
Proof. exact (fm_run_ok cap ops). Qed.

(** outside the domain: with a capacity of 0 or less every Add of a new key panics *)
Theorem C26_nonpositive_capacity_panics cap k v : cap <= 0 -> cmap_add (cmap_new cap) k v = None.
Proof. intros H. apply cmap_nonpos; [assumption|reflexivity]. Qed.

Example C26_case : exists c, orun cmap_step [MAdd 1 (Some 1); MAdd 2 (Some 2); MAdd 1 (Some 9); MAdd 3 (Some 3)] (cmap_new 2) = Some c
  /\ cmap_contains c 1 = false /\ cmap_get c 2 = Some 2.
Proof. eexists. split; [vm_compute; reflexivity|split; reflexivity]. Qed.

(** ** C27 *)
(** full statement: cachemap2 is the bounded FIFO map, like cachemap; it is false after Remove *)
Theorem C27_fifo_refuted :
  ~ (forall cap ops, 0 < cap -> exists c, orun cmap2_step ops (cmap2_new cap) = Some c /\
       (forall k, cmap2_contains c k = match fm_find k (fm_run cap ops) with Some _ => true | None => false end) /\
       cmap2_size c = zlen (fm_run cap ops)).
Proof.
  intros H. destruct (H 2 [MAdd 1 (Some 1); MRemove 1] ltac:(lia)) as (c & E & _ & Hs). vm_compute in E. injection E as <-. vm_compute in Hs. discriminate.
Qed.

(** a removed and re-added key can be evicted although the map holds fewer entries than its capacity *)
Theorem C27_early_eviction_refuted : exists ops c, orun cmap2_step ops (cmap2_new 2) = Some c /\
  length (tab2 c) = 1%nat /\ cmap2_contains c 1 = false /\
  fm_find 1 (fm_run 2 ops) <> None /\ zlen (fm_run 2 ops) = 2.
Proof.
  exists [MAdd 1 (Some 1); MRemove 1; MAdd 1 (Some 1); MAdd 2 (Some 2)]. eexists. split; [vm_compute; reflexivity|].
  split; [reflexivity|]. split; [reflexivity|]. split; [vm_compute; discriminate|reflexivity].
Qed.

(** missing part: histories with Remove *)
Theorem C27_fifo_partial cap ops : 0 < cap -> Forall no_remove ops ->
  exists c, orun cmap2_step ops (cmap2_new cap) = Some c /\
    (forall k, cmap2_get c k = match fm_find k (fm_run cap ops) with Some e => snd e | None => None end) /\
    (forall k, cmap2_contains c k = match fm_find k (fm_run cap ops) with Some _ => true | None => false end) /\
    cmap2_size c = zlen (fm_run cap ops) /\ cmap2_size c <= cap /\ (cmap2_empty c = true <-> fm_run cap ops = []).
Proof.
  intros Hc Hf. destruct (cmap2_run_spec cap ops Hc Hf) as (c & E & (M & O & H)). exists c. split; [assumption|].
  pose proof (fm_run_ok cap ops Hc) as (N & L). unfold cmap2_get, cmap2_contains, cmap2_size. rewrite O.
  split; [intros k; rewrite H, fm_find_alook; destruct (alook k _); reflexivity|].
  split; [intros k; rewrite H, fm_find_alook; destruct (alook k _); reflexivity|].
  unfold cmap2_empty, cmap2_size. rewrite O. unfold zlen in *. rewrite map_length. split; [reflexivity|split; [assumption|]].
  destruct (fm_run cap ops); cbn [length]; split; intro X; try reflexivity; discriminate X.
Qed.

(** with Remove the map still never exceeds its capacity and every call returns *)
Theorem C27_bounded_returns cap ops : 0 < cap ->
  exists c, orun cmap2_step ops (cmap2_new cap) = Some c /\ cmap2_size c <= cap /\
    (cmap2_empty c = true -> forall k, cmap2_contains c k = false) /\
    forall ks, NoDup ks -> (forall k, In k ks -> cmap2_contains c k = true) -> zlen ks <= cap.
Proof.
  intros Hc. destruct (cmap2_run_inv cap ops Hc) as (c & E & (M & L & N & I)). exists c. split; [assumption|split; [assumption|split]].
  { unfold cmap2_empty, cmap2_size, cmap2_contains. intros E' k. destruct (alook k (tab2 c)) eqn:Ek; [|reflexivity]. apply alook_some_key, I in Ek.
    destruct (ord2 c); [destruct Ek|]. unfold zlen in E'. cbn [length] in E'. lia. }
  intros ks Hn Hk. assert (incl ks (ord2 c)) as Hi.
  { intros k Hin. apply I. specialize (Hk k Hin). unfold cmap2_contains in Hk. destruct (alook k (tab2 c)) eqn:E'; [|discriminate]. eapply alook_some_key; eassumption. }
  pose proof (NoDup_incl_length Hn Hi). unfold zlen in *. lia.
Qed.

(** with a capacity of 0 or less Add of a new key never returns *)
Theorem C27_nonpositive_capacity_hangs cap k v : cap <= 0 -> cmap2_add (cmap2_new cap) k v = None.
Proof. intros H. unfold cmap2_add, cmap2_new. cbn [tab2 ord2 max2 alook]. rewrite pop_exceeded_nonpos by assumption. reflexivity. Qed.

(** ** C28 *)
Theorem C28_no_deadlock_refuted : exists callers n ts,
  steps n (programs callers) ts /\ (exists t, In t ts /\ ~ finished t) /\ ~ exists ts', step ts ts'.
Proof.
  exists [[LraEmpty]; [LraAdd]], 2%nat,
    [mkThread [ARLock; ARUnlock; ARUnlock] 1 WNone; mkThread [ALock; AUnlock] 0 WPending].
  split; [|split].
  - eapply steps_S; [eapply steps_S; [apply steps_0|]|].
    + apply (step_at [] _ [program [LraAdd]]). reflexivity.
    + apply (step_at [_] _ []). reflexivity.
  - eexists. split; [left; reflexivity|]. intros H. discriminate H.
  - intros (ts' & St). inversion St as [bf t af t' E Eq]. destruct bf as [|b1 [|b2 bf]]; cbn [app] in Eq.
    + injection Eq as -> ->. discriminate E.
    + injection Eq as -> -> ->. discriminate E.
    + injection Eq as _ _ Eq. destruct bf; discriminate Eq.
Qed.

(** every other operation of every cache package: whatever has happened, an unfinished caller can
    always make progress somewhere, and no schedule runs for ever *)
Theorem C28_no_deadlock_partial callers : Forall (fun ops => ~ In LraEmpty ops) callers ->
  forall n ts, steps n (programs callers) ts ->
    ((exists t, In t ts /\ ~ finished t) -> exists ts', step ts ts') /\
    (n <= total (programs callers))%nat.
Proof.
  intros H n ts St. pose proof (programs_ok callers H) as Hok. split.
  - apply progress. eapply steps_ok; eassumption.
  - pose proof (steps_total _ _ _ St Hok). lia.
Qed.

(** the lock really excludes: while one goroutine is inside a writing section nobody else holds the lock *)
Theorem C28_mutual_exclusion callers n ts : steps n (programs callers) ts ->
  forall before t after, ts = before ++ t :: after -> wr t = WHeld ->
    Forall (fun u => wr u = WNone /\ rd u = O) (before ++ after).
Proof.
  intros St before t after -> Hw. destruct (steps_excl _ _ _ St (excl_init callers)) as (H1 & H2).
  assert (no_reader (before ++ t :: after) = true) as Hr by (apply H2; exists t; split; [apply in_or_app; right; left; reflexivity|assumption]).
  rewrite filter_app, app_length in H1. cbn [filter] in H1. unfold busy at 2 in H1. unfold is_wnone in H1. rewrite Hw in H1. cbn [negb length] in H1.
  assert (forall l, length (filter busy l) = O -> Forall (fun u => wr u = WNone) l) as Hf.
  { induction l as [|u l IH]; cbn [filter]; [constructor|]. unfold busy at 1, is_wnone. destruct (wr u) eqn:E; cbn [negb length]; try discriminate. constructor; auto. }
  rewrite no_reader_mid in Hr. apply andb_true_iff in Hr as [Hra Hr]. apply andb_true_iff in Hr as [_ Hrb].
  assert (forall l, no_reader l = true -> length (filter busy l) = O -> Forall (fun u => wr u = WNone /\ rd u = O) l) as Hall.
  { intros l Hn Hl. specialize (Hf l Hl). rewrite Forall_forall in *. intros u Hu. split; [auto|].
    unfold no_reader in Hn. rewrite forallb_forall in Hn. apply Nat.eqb_eq. auto. }
  apply Forall_app. split; apply Hall; (assumption || lia).
Qed.

Example C28_case : exists ts, steps 1 (programs [[LraAdd; LraGetValues 3]; [LraSize; LraRemove]]) ts /\ exists t, In t ts /\ ~ finished t.
Proof.
  eexists. split; [eapply steps_S; [apply steps_0|]; apply (step_at [] _ [program [LraSize; LraRemove]]); reflexivity|].
  eexists. split; [left; reflexivity|]. intros H. discriminate H.
Qed.

Print Assumptions C23_capacity.
Print Assumptions C23_one_entry_per_key.
Print Assumptions C23_zero_unbounded.
Print Assumptions C24_lookups.
Print Assumptions C24_size_empty_values.
Print Assumptions C25_evicts_the_oldest.
Print Assumptions C25_readd_keeps_age.
Print Assumptions C25_reported_once.
Print Assumptions C26_cachemap.
Print Assumptions C26_cacheset.
Print Assumptions C26_spec_bounded.
Print Assumptions C26_nonpositive_capacity_panics.
Print Assumptions C27_fifo_refuted.
Print Assumptions C27_early_eviction_refuted.
Print Assumptions C27_fifo_partial.
Print Assumptions C27_bounded_returns.
Print Assumptions C27_nonpositive_capacity_hangs.
Print Assumptions C28_no_deadlock_refuted.
Print Assumptions C28_no_deadlock_partial.
Print Assumptions C28_mutual_exclusion.
Print Assumptions C24_add_key.
