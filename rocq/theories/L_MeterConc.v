(** Invariant of goroutines sharing the service meter. *)
From Coq Require Import ZifyBool Permutation.
From Verif Require Import GoInt L_Codec M_Meter S_Meter L_Meter M_MeterConc S_MeterConc.

Notation bof := (bucket_of sbucket0 smp_add).

(** the bucket with the first [k] fields updated *)
Fixpoint part (k : nat) (e : Z) (r : bool) (b : sbucket) : sbucket :=
  match k with O => b | S k' => field_add k' e r (part k' e r b) end.
Lemma part_3 e r b : part 3 e r b = smp_add (e, r) b.
Proof. cbn [part field_add sb_count sb_elapsed sb_error]. unfold smp_add, sb_add, clamp. cbn [fst snd]. reflexivity. Qed.

(** ** thread lists *)
Lemma thread_set_split l i old t : nth_error l i = Some old -> exists l1 l2, l = l1 ++ old :: l2 /\ thread_set l i t = l1 ++ t :: l2 /\ length l1 = i.
Proof.
  intros H. destruct (nth_error_split l i H) as (l1 & l2 & -> & L). exists l1, l2. split; [reflexivity|]. split; [|exact L]. subst i.
  unfold thread_set. rewrite firstn_app, firstn_all, Nat.sub_diag. cbn [firstn]. rewrite app_nil_r.
  rewrite skipn_app, skipn_all2 by lia. replace (S (length l1) - length l1)%nat with 1%nat by lia. reflexivity.
Qed.
Lemma thread_set_same l i old t : nth_error l i = Some old -> nth_error (thread_set l i t) i = Some t.
Proof.
  intros H. destruct (thread_set_split l i old t H) as (l1 & l2 & _ & -> & <-). rewrite nth_error_app2, Nat.sub_diag by lia. reflexivity.
Qed.
Lemma thread_set_other l i j old t : nth_error l i = Some old -> j <> i -> nth_error (thread_set l i t) j = nth_error l j.
Proof.
  intros H N. destruct (thread_set_split l i old t H) as (l1 & l2 & -> & -> & <-).
  destruct (Nat.lt_ge_cases j (length l1)) as [Hl|Hl]; [rewrite !nth_error_app1 by lia; reflexivity|].
  rewrite !nth_error_app2 by lia. destruct (j - length l1)%nat as [|d] eqn:E; [lia|]. reflexivity.
Qed.
Lemma returned_app a b : returned (a ++ b) = returned a ++ returned b.
Proof. induction a as [|t a IH]; [reflexivity|]. cbn [app returned]. rewrite IH. destruct t; reflexivity. Qed.
Lemma returned_set l i old t : nth_error l i = Some old -> returned [old] = [] ->
  Permutation (returned (thread_set l i t)) (returned [t] ++ returned l).
Proof.
  intros H R. destruct (thread_set_split l i old t H) as (l1 & l2 & -> & -> & _).
  change (l1 ++ t :: l2) with (l1 ++ [t] ++ l2). change (l1 ++ old :: l2) with (l1 ++ [old] ++ l2). rewrite !returned_app, R. cbn [app].
  rewrite !app_assoc. apply Permutation_app_tail. apply Permutation_app_comm.
Qed.

(** ** the ring with any contents *)
Lemma get_position_contents (F : Z -> sbucket) cur m : 0 <= cur -> shape m -> m_time m <= cur ->
  (forall s, cur - 301 < s <= m_time m -> tab_get (m_table m) (ring s) = Some (F s)) -> (forall s, m_time m < s -> F s = sbucket0) ->
  exists m', get_position sbucket0 cur m = Some (ring cur, m') /\ shape m' /\ m_time m' = cur /\
    (forall s, m_time m' - 301 < s <= m_time m' -> tab_get (m_table m') (ring s) = Some (F s)).
Proof.
  intros Hc Sh Hl C Z0. destruct (get_position_shape sbucket0 cur m Hc Sh) as (m' & E & Sh' & T' & G). exists m'.
  split; [exact E|]. split; [exact Sh'|]. split; [exact T'|]. intros s Hs. rewrite T' in Hs. rewrite (G Hl s Hs).
  destruct (s <=? m_time m) eqn:Es; [apply C; lia|]. rewrite Z0 by lia. reflexivity.
Qed.

(** ** the invariant *)
(** [x]: the call inside Add, if any: goroutine, clock reading, sample, fields updated; [h]: the calls that have left *)
Definition contents (x : option (nat * Z * Z * bool * nat)) (h : list (Z * (Z * bool))) (s : Z) : sbucket :=
  match x with
  | Some (_, t, e, r, k) => if s =? t then part k e r (bof s h) else bof s h
  | None => bof s h
  end.
Definition holder (x : option (nat * Z * Z * bool * nat)) (s : mconc) : Prop :=
  match x with
  | Some (i, t, e, r, k) => c_locked s = true /\ nth_error (c_threads s) i = Some (AIn t (ring t) e r k) /\ (k <= 3)%nat /\
      m_time (c_meter s) - 301 < t <= m_time (c_meter s) /\
      (forall j t' pos e' r' k', nth_error (c_threads s) j = Some (AIn t' pos e' r' k') -> j = i)
  | None => c_locked s = false /\ no_add s
  end.
Definition in_log (x : option (nat * Z * Z * bool * nat)) : list (Z * (Z * bool)) :=
  match x with Some (_, t, e, r, _) => [(t, (e, r))] | None => [] end.
Record minv (x : option (nat * Z * Z * bool * nat)) (h : list (Z * (Z * bool))) (s : mconc) : Prop := {
  mi_shape : shape (c_meter s);
  mi_log : c_log s = h ++ in_log x;
  mi_old : Forall (fun e => fst e <= m_time (c_meter s)) (c_log s);
  mi_holder : holder x s;
  mi_contents : forall t, m_time (c_meter s) - 301 < t <= m_time (c_meter s) -> tab_get (m_table (c_meter s)) (ring t) = Some (contents x h t);
  mi_returned : Permutation (map snd h) (returned (c_threads s)) }.

Lemma bof_old h m s : Forall (fun e => fst e <= m) h -> m < s -> bof s h = sbucket0.
Proof. intros F H. unfold bucket_of. rewrite (second_nil sbucket0 smp_add); [reflexivity|]. eapply Forall_impl; [|exact F]. cbn beta. lia. Qed.

Lemma contents_old x h s0 s : minv x h s0 -> m_time (c_meter s0) < s -> contents x h s = sbucket0.
Proof.
  intros I Hs. pose proof (mi_old _ _ _ I) as F. rewrite (mi_log _ _ _ I) in F. apply Forall_app in F. destruct F as [F _].
  unfold contents. destruct x as [[[[[i t] e] r] k]|]; [|exact (bof_old h _ s F Hs)].
  destruct (mi_holder _ _ _ I) as (_ & _ & _ & Ht & _). replace (s =? t) with false by lia. exact (bof_old h _ s F Hs).
Qed.

Lemma bof_snoc h t e r s : bof s (h ++ [(t, (e, r))]) = if s =? t then part 3 e r (bof s h) else bof s h.
Proof.
  rewrite part_3. unfold bucket_of. rewrite second_snoc. rewrite (Z.eqb_sym s t). destruct (t =? s); [|reflexivity].
  rewrite fold_left_app. reflexivity.
Qed.

(** what one step does to the invariant; [x'] and [h'] after it *)
Lemma mstep_inv x h s cur i : minv x h s -> 0 <= cur -> m_time (c_meter s) <= cur ->
  (forall j t pos e r k, nth_error (c_threads s) j = Some (AIn t pos e r k) -> cur < t + 301) ->
  exists x' h', minv x' h' (mstep cur i s) /\ m_time (c_meter s) <= m_time (c_meter (mstep cur i s)) <= cur /\
    (exists more, h' = h ++ more) /\ (exists more, c_log (mstep cur i s) = c_log s ++ more).
Proof.
  intros I Hc Hl Pr. pose proof I as [Sh Lg Old Ho Co Re]. 
  assert (forall u, minv x h u -> u = s -> exists x' h', minv x' h' u /\ m_time (c_meter s) <= m_time (c_meter u) <= cur /\ (exists more, h' = h ++ more) /\ exists more, c_log u = c_log s ++ more) as Same.
  { intros u Iu ->. exists x, h. split; [exact Iu|]. split; [lia|]. split; exists []; rewrite app_nil_r; reflexivity. }
  assert (exists m', get_position sbucket0 cur (c_meter s) = Some (ring cur, m') /\ shape m' /\ m_time m' = cur /\
    (forall u, m_time m' - 301 < u <= m_time m' -> tab_get (m_table m') (ring u) = Some (contents x h u))) as (m' & Eg & Sh' & T' & Co').
  { apply get_position_contents; try assumption; [|intros u Hu; exact (contents_old x h s u I Hu)]. intros u Hu. apply Co. lia. }
  assert (Forall (fun e => fst e <= m_time m') (c_log s)) as Old' by (rewrite T'; eapply Forall_impl; [|exact Old]; cbn beta; lia).
  unfold mstep. destruct (nth_error (c_threads s) i) as [th|] eqn:En; [|apply Same; [exact I|reflexivity]].
  destruct th as [e r|t pos e r k|e r|p|p pos n k acc|p acc].
  - (* enters Add *)
    destruct (c_locked s) eqn:El; [apply Same; [exact I|reflexivity]|]. rewrite Eg.
    destruct x as [[[[[i0 t0] e0] r0] k0]|]; [destruct Ho as (Ho & _); congruence|]. destruct Ho as [_ NA].
    cbn [in_log] in Lg. rewrite app_nil_r in Lg.
    exists (Some (i, cur, e, r, 0%nat)), h. split; [|cbn [c_meter c_log]; rewrite T'; split; [lia|]; split; [exists []; rewrite app_nil_r; reflexivity|exists [(cur, (e, r))]; reflexivity]].
    constructor; cbn [c_meter c_log c_threads c_locked].
    + exact Sh'.
    + rewrite Lg. reflexivity.
    + apply Forall_app. split; [exact Old'|]. constructor; [cbn [fst]; lia|constructor].
    + cbn [holder c_meter c_threads c_locked]. split; [reflexivity|]. split; [apply (thread_set_same _ _ _ _ En)|]. split; [lia|]. split; [lia|].
      intros j t' pos' e' r' k' Hj. destruct (Nat.eq_dec j i) as [->|N]; [reflexivity|]. rewrite (thread_set_other _ _ _ _ _ En N) in Hj. exfalso. exact (NA _ _ _ _ _ _ Hj).
    + intros u Hu. rewrite (Co' u Hu). cbn [contents part]. destruct (u =? cur); reflexivity.
    + etransitivity; [exact Re|]. symmetry. etransitivity; [apply (returned_set _ _ _ _ En eq_refl)|]. reflexivity.
  - (* inside Add *)
    destruct x as [[[[[i0 t0] e0] r0] k0]|].
    2:{ destruct Ho as [_ NA]. exfalso. exact (NA _ _ _ _ _ _ En). }
    destruct Ho as (Hk1 & Hk2 & Hk3 & Hk4 & Hk5). assert (i = i0) as -> by exact (Hk5 _ _ _ _ _ _ En). rewrite Hk2 in En. injection En as <- <- <- <- <-.
    destruct (k0 <? 3)%nat eqn:Ek.
    + pose proof (ring_range t0) as Rr. destruct Sh as (S1 & S2 & S3). rewrite (Co t0) by lia. cbn [contents]. rewrite Z.eqb_refl.
      destruct (tab_set_some (m_table (c_meter s)) (ring t0) (field_add k0 e0 r0 (part k0 e0 r0 (bof t0 h))) ltac:(lia)) as (tb & -> & L & G).
      exists (Some (i0, t0, e0, r0, S k0)), h. split; [|cbn [c_meter m_time c_log]; split; [lia|]; split; exists []; rewrite app_nil_r; reflexivity].
      constructor; cbn [c_meter c_log c_threads c_locked m_time m_table].
      * split; [exact S1|]. split; [exact S2|]. cbn [m_table]. lia.
      * exact Lg.
      * exact Old.
      * cbn [holder c_meter c_threads c_locked m_time]. split; [exact Hk1|]. split; [apply (thread_set_same _ _ _ _ Hk2)|]. split; [lia|]. split; [lia|].
        intros j t' pos' e' r' k' Hj. destruct (Nat.eq_dec j i0) as [->|N]; [reflexivity|]. rewrite (thread_set_other _ _ _ _ _ Hk2 N) in Hj. exact (Hk5 _ _ _ _ _ _ Hj).
      * intros u Hu. pose proof (ring_range u). rewrite G by lia. cbn [contents]. destruct (u =? t0) eqn:Eu.
        -- apply Z.eqb_eq in Eu. subst u. rewrite Z.eqb_refl. reflexivity.
        -- destruct (ring u =? ring t0) eqn:Er; [apply Z.eqb_eq in Er; apply ring_inj in Er; lia|]. rewrite (Co u Hu). cbn [contents]. rewrite Eu. reflexivity.
      * etransitivity; [exact Re|]. symmetry. etransitivity; [apply (returned_set _ _ _ _ Hk2 eq_refl)|]. reflexivity.
    + assert (k0 = 3%nat) as -> by lia. exists None, (h ++ [(t0, (e0, r0))]).
      split; [|cbn [c_meter c_log]; split; [lia|]; split; [exists [(t0, (e0, r0))]; reflexivity|exists []; rewrite app_nil_r; reflexivity]].
      constructor; cbn [c_meter c_log c_threads c_locked].
      * exact Sh.
      * rewrite Lg. cbn [in_log]. rewrite app_nil_r. reflexivity.
      * exact Old.
      * split; [reflexivity|]. intros j t' pos' e' r' k' Hj. cbn [c_threads] in Hj. destruct (Nat.eq_dec j i0) as [->|N].
        -- rewrite (thread_set_same _ _ _ _ Hk2) in Hj. discriminate.
        -- rewrite (thread_set_other _ _ _ _ _ Hk2 N) in Hj. exact (N (Hk5 _ _ _ _ _ _ Hj)).
      * intros u Hu. rewrite (Co u Hu). cbn [contents]. rewrite bof_snoc. reflexivity.
      * rewrite map_app. cbn [map snd]. symmetry. etransitivity; [apply (returned_set _ _ _ _ Hk2 eq_refl)|]. cbn [returned app].
        etransitivity; [apply (Permutation_app_comm [(e0, r0)])|]. apply Permutation_app_tail. symmetry. exact Re.
  - apply Same; [exact I|reflexivity].
  - (* a reader starts *)
    rewrite Eg. exists x, h. split; [|cbn [c_meter c_log]; rewrite T'; split; [lia|]; split; exists []; rewrite app_nil_r; reflexivity].
    constructor; cbn [c_meter c_log c_threads c_locked]; [exact Sh'|exact Lg|exact Old'| |exact Co'|].
    + destruct x as [[[[[i0 t0] e0] r0] k0]|].
      * destruct Ho as (Hk1 & Hk2 & Hk3 & Hk4 & Hk5). cbn [holder c_meter c_threads c_locked]. split; [exact Hk1|].
        assert (i0 <> i) as N by congruence. split; [rewrite (thread_set_other _ _ _ _ _ En N); exact Hk2|]. split; [exact Hk3|].
        split; [specialize (Pr _ _ _ _ _ _ Hk2); lia|]. intros j t' pos' e' r' k' Hj. destruct (Nat.eq_dec j i) as [->|N2].
        -- rewrite (thread_set_same _ _ _ _ En) in Hj. discriminate.
        -- rewrite (thread_set_other _ _ _ _ _ En N2) in Hj. exact (Hk5 _ _ _ _ _ _ Hj).
      * destruct Ho as [Hk1 NA]. split; [exact Hk1|]. intros j t' pos' e' r' k' Hj. cbn [c_threads] in Hj. destruct (Nat.eq_dec j i) as [->|N2].
        -- rewrite (thread_set_same _ _ _ _ En) in Hj. discriminate.
        -- rewrite (thread_set_other _ _ _ _ _ En N2) in Hj. exact (NA _ _ _ _ _ _ Hj).
    + etransitivity; [exact Re|]. symmetry. etransitivity; [apply (returned_set _ _ _ _ En eq_refl)|]. reflexivity.
  - (* a reader goes on *)
    assert (forall th, returned [th] = [] -> (forall t pos e r k, th <> AIn t pos e r k) ->
      exists x' h', minv x' h' (mkMC (c_meter s) (c_locked s) (thread_set (c_threads s) i th) (c_log s)) /\
        m_time (c_meter s) <= m_time (c_meter s) <= cur /\ (exists more, h' = h ++ more) /\ exists more, c_log s = c_log s ++ more) as Go.
    { intros th Rt NAt. exists x, h. split; [|split; [lia|]; split; exists []; rewrite app_nil_r; reflexivity].
      constructor; cbn [c_meter c_log c_threads c_locked]; [exact Sh|exact Lg|exact Old| |exact Co|].
      - destruct x as [[[[[i0 t0] e0] r0] k0]|].
        + destruct Ho as (Hk1 & Hk2 & Hk3 & Hk4 & Hk5). cbn [holder c_meter c_threads c_locked]. split; [exact Hk1|].
          assert (i0 <> i) as N by congruence. split; [rewrite (thread_set_other _ _ _ _ _ En N); exact Hk2|]. split; [exact Hk3|].
          split; [exact Hk4|]. intros j t' pos' e' r' k' Hj. destruct (Nat.eq_dec j i) as [->|N2].
          * rewrite (thread_set_same _ _ _ _ En) in Hj. injection Hj as Hj. exfalso. exact (NAt _ _ _ _ _ Hj).
          * rewrite (thread_set_other _ _ _ _ _ En N2) in Hj. exact (Hk5 _ _ _ _ _ _ Hj).
        + destruct Ho as [Hk1 NA]. split; [exact Hk1|]. intros j t' pos' e' r' k' Hj. cbn [c_threads] in Hj. destruct (Nat.eq_dec j i) as [->|N2].
          * rewrite (thread_set_same _ _ _ _ En) in Hj. injection Hj as Hj. exact (NAt _ _ _ _ _ Hj).
          * rewrite (thread_set_other _ _ _ _ _ En N2) in Hj. exact (NA _ _ _ _ _ _ Hj).
      - etransitivity; [exact Re|]. symmetry. etransitivity; [apply (returned_set _ _ _ _ En eq_refl)|]. rewrite Rt. reflexivity. }
    destruct n as [|n']; [apply Go; [reflexivity|discriminate]|].
    destruct (tab_get (m_table (c_meter s)) pos) as [b|]; [|apply Same; [exact I|reflexivity]].
    apply Go; destruct (k <? 2)%nat; (reflexivity || discriminate).
  - apply Same; [exact I|reflexivity].
Qed.

Lemma minv_init now ts : 0 <= now -> Forall waiting ts -> minv None [] (minit now ts).
Proof.
  intros Hn F. constructor; cbn [minit c_meter c_log c_threads c_locked new_metering m_time m_table].
  - split; [exact Hn|]. split; [apply ring_rem; exact Hn|]. unfold new_metering. cbn [m_table]. unfold zlen. rewrite repeat_length. reflexivity.
  - reflexivity.
  - constructor.
  - split; [reflexivity|]. intros j t pos e r k Hj. cbn [c_threads minit] in Hj. apply nth_error_In in Hj. rewrite Forall_forall in F. exact (F _ Hj).
  - intros t _. apply tab_get_repeat. change (Z.of_nat (Z.to_nat bucket_size)) with 301. apply ring_range.
  - cbn [map]. replace (returned ts) with (@nil sample); [constructor|]. clear - F. induction F as [|t ts Ht F IH]; [reflexivity|]. cbn [returned]. destruct t; (contradiction || exact IH).
Qed.

Lemma mrun_inv : forall sched x h s now, minv x h s -> 0 <= now -> m_time (c_meter s) <= now -> ticking now sched -> prompt sched s ->
  exists x' h', minv x' h' (mrun sched s) /\ m_time (c_meter (mrun sched s)) <= last_time now sched /\ now <= last_time now sched /\
    m_time (c_meter s) <= m_time (c_meter (mrun sched s)) /\
    (exists more, h' = h ++ more) /\ (exists more, c_log (mrun sched s) = c_log s ++ more).
Proof.
  induction sched as [|[cur i] sched IH]; intros x h s now I Hn Hm T P; cbn [mrun last_time].
  - exists x, h. split; [exact I|]. split; [exact Hm|]. split; [lia|]. split; [lia|]. split; exists []; rewrite app_nil_r; reflexivity.
  - destruct T as [Hc T]. cbn [prompt] in P. destruct P as [P1 P2]. destruct (mstep_inv x h s cur i I ltac:(lia) ltac:(lia) P1) as (x1 & h1 & I1 & M1 & (a1 & ->) & (b1 & B1)).
    destruct (IH x1 (h ++ a1) _ cur I1 ltac:(lia) ltac:(lia) T P2) as (x2 & h2 & I2 & L2 & L3 & L4 & (a2 & ->) & (b2 & B2)).
    exists x2, ((h ++ a1) ++ a2). split; [exact I2|]. split; [exact L2|]. split; [lia|]. split; [lia|]. split; [exists (a1 ++ a2); rewrite app_assoc; reflexivity|].
    exists (b1 ++ b2). rewrite B2, B1, app_assoc. reflexivity.
Qed.
