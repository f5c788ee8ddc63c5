(** Lemmas for C83. *)
From Verif Require Import GoInt M_ProfileConc S_ProfileConc.
From Coq Require Import Permutation.

Lemma put_split {A} (l : list A) : forall i t, nth_error l i = Some t -> exists a b, l = a ++ t :: b /\ length a = i /\ forall t', put i t' l = a ++ t' :: b.
Proof.
  induction l as [|x l IH]; intros [|i] t H; try discriminate.
  - injection H as <-. exists [], l. repeat split.
  - destruct (IH i t H) as (a & b & -> & <- & P). exists (x :: a), b. repeat split. intros t'. cbn. rewrite P. reflexivity.
Qed.
Lemma put_length {A} i (x : A) l : length (put i x l) = length l.
Proof. revert i. induction l as [|y l IH]; intros [|i]; cbn; auto. Qed.
Lemma nth_put {A} (l : list A) : forall i j x d, nth j (put i x l) d = if (j =? i)%nat && (i <? length l)%nat then x else nth j l d.
Proof.
  induction l as [|y l IH]; intros i j x d; [destruct i, j; cbn; rewrite ?andb_false_r; reflexivity|]. destruct i, j; cbn; try reflexivity. rewrite IH. reflexivity.
Qed.

(** * Whatever the schedule, only recorded steps are sent, in batches of bounded size *)
Definition hand (p : pc) : list nat :=
  match p with AIndex s | AParent s | ALevel s | ALevel2 s _ | OParent s | RSlice s | RPos s _ | RStore s _ _ => [s] | _ => [] end.

Lemma arr_fresh keep c a : nth a (c_arrays c ++ [repeat None keep]) [] = if (a =? length (c_arrays c))%nat then repeat None keep else arr a c.
Proof.
  unfold arr. destruct (Nat.eqb_spec a (length (c_arrays c))) as [->|N]; [rewrite app_nth2, Nat.sub_diag by lia; reflexivity|].
  destruct (Nat.lt_ge_cases a (length (c_arrays c))); [apply app_nth1; assumption|]. rewrite !nth_overflow by (rewrite ?app_length; cbn; lia). reflexivity.
Qed.
Lemma nth_repeat_none n : forall i, nth i (repeat (@None nat) n) None = None.
Proof. induction n as [|n IH]; intros [|i]; cbn; auto. Qed.

Section Any.
Variables (keep bulk : nat).
Hypothesis Hb : (1 <= bulk)%nat.
(** ghost: where each stored step went *)
Definition gt := list (nat * (nat * nat)).
Definition pc_ok (g : gt) (p : pc) : Prop :=
  match p with
  | Sending o hi i acc => (length acc <= i mod bulk)%nat /\ NoDup acc /\ forall s, In s acc -> exists j, (j < i)%nat /\ In (s, (o, j)) g
  | _ => True
  end.
Definition pending_of (t : pc * list pop_call) : list nat := hand (fst t) ++ recorded (snd t).
Record inv (U : list nat) (g : gt) (lost : list nat) (y : psys) : Prop := {
  iv_arr : forall a i s, nth i (arr a (y_coll y)) None = Some s -> In (s, (a, i)) g;
  iv_thr : Forall (fun t => pc_ok g (fst t)) (y_thr y);
  iv_all : Permutation U (map fst g ++ lost ++ flat_map pending_of (y_thr y));
  iv_sent : Forall (fun b => (length b <= bulk)%nat /\ NoDup b /\ incl b (map fst g)) (c_sent (y_coll y)) }.

Lemma pc_ok_more g x p : pc_ok g p -> pc_ok (g ++ [x]) p.
Proof.
  destruct p; try (intros; exact I). intros (A & B & C). split; [exact A|]. split; [exact B|]. intros s H. destruct (C s H) as (j & J1 & J2). exists j. split; [exact J1|apply in_or_app; left; exact J2].
Qed.
Lemma key_once {B} (g : list (nat * B)) s x y : NoDup (map fst g) -> In (s, x) g -> In (s, y) g -> x = y.
Proof.
  induction g as [|[k v] g IH]; cbn; intros N; [intros []|]. inversion_clear N as [|? ? N1 N2]. intros [E|H] [E'|H'].
  - congruence.
  - injection E as -> ->. exfalso. apply N1. apply in_map_iff. exists (s, y). split; [reflexivity|exact H'].
  - injection E' as -> ->. exfalso. apply N1. apply in_map_iff. exists (s, x). split; [reflexivity|exact H].
  - auto.
Qed.
Lemma mod_next i : (S i mod bulk <> 0 -> S i mod bulk = S (i mod bulk))%nat /\ (S i mod bulk = 0 -> S (i mod bulk) = bulk)%nat.
Proof.
  pose proof (Nat.mod_upper_bound i bulk ltac:(lia)) as U. pose proof (Nat.div_mod_eq i bulk) as E.
  destruct (Nat.eq_dec (S (i mod bulk)) bulk) as [Q|Q].
  - assert (S i mod bulk = 0)%nat as Z0. { replace (S i) with (0 + (S (i / bulk)) * bulk)%nat by lia. rewrite Nat.mod_add by lia. apply Nat.mod_0_l. lia. } lia.
  - assert (S i mod bulk = S (i mod bulk))%nat as Z0. { replace (S i) with (S (i mod bulk) + (i / bulk) * bulk)%nat by lia. rewrite Nat.mod_add by lia. apply Nat.mod_small. lia. } lia.
Qed.
Lemma nodup_left {A} (a b : list A) : NoDup (a ++ b) -> NoDup a.
Proof. induction a as [|x a IH]; cbn; [constructor|]. intros N. inversion_clear N as [|? ? N1 N2]. constructor; [|auto]. intros H. apply N1, in_or_app. left. exact H. Qed.
Lemma perm_out {A} (a b c : list A) s : Permutation (a ++ b ++ s :: c) (s :: a ++ b ++ c).
Proof. rewrite !app_assoc. symmetry. apply Permutation_middle. Qed.
Lemma inv_step U g lost y i : NoDup U -> inv U g lost y -> exists g' lost', inv U g' lost' (sys_step keep bulk i y).
Proof.
  intros ND I. unfold sys_step. destruct (nth_error (y_thr y) i) as [[p r]|] eqn:E; [|exists g, lost; exact I]. destruct (put_split _ _ _ E) as (l1 & l2 & El & _ & Pt).
  destruct I as [Ia It Il Is]. assert (NoDup (map fst g)) as Ng by (apply (Permutation_NoDup Il) in ND; apply nodup_left in ND; exact ND).
  rewrite El in It, Il. apply Forall_app in It as (It1 & It). inversion_clear It as [|? ? Itp It2]. cbn [fst] in Itp.
  assert (forall p' r' c', (forall a j s, nth j (arr a c') None = Some s -> In (s, (a, j)) g) -> pc_ok g p' -> Permutation (pending_of (p', r')) (pending_of (p, r)) ->
    Forall (fun b => (length b <= bulk)%nat /\ NoDup b /\ incl b (map fst g)) (c_sent c') -> inv U g lost (mkPsys c' (put i (p', r') (y_thr y)))) as Go.
  { intros p' r' c' Ca Cp Cm Cs. rewrite Pt. constructor; cbn [y_coll y_thr]; [exact Ca| |rewrite Il|exact Cs].
    - apply Forall_app. split; [exact It1|]. constructor; [exact Cp|exact It2].
    - do 2 apply Permutation_app_head. rewrite !flat_map_app. apply Permutation_app_head. cbn [flat_map]. apply Permutation_app_tail. symmetry. exact Cm. }
  unfold step_thread. destruct p; cbn [act].
  all: try (exists g, lost; apply Go; [exact Ia|exact I|reflexivity|exact Is]).
  - destruct r as [|o r]; exists g, lost; apply Go; auto; destruct o; (exact I || reflexivity).
  - (* store *) destruct (Nat.ltb_spec i0 (length (arr a (y_coll y)))) as [Lt|Ge].
    2:{ (* panic: the step is dropped *) exists g, (lost ++ [s]). rewrite Pt. constructor; cbn [y_coll y_thr add_panic c_sent]; [exact Ia| | |exact Is].
        - apply Forall_app. split; [exact It1|]. constructor; [exact I|exact It2].
        - rewrite Il. apply Permutation_app_head. rewrite <- app_assoc. apply Permutation_app_head. rewrite !flat_map_app. cbn [flat_map pending_of hand app fst snd]. symmetry. apply Permutation_middle. }
    exists (g ++ [(s, (a, i0))]), lost. rewrite Pt. constructor; cbn [y_coll y_thr store c_sent].
    + intros b j x H. unfold arr in H at 1. cbn [store c_arrays] in H. rewrite nth_put in H. destruct ((b =? a)%nat && _) eqn:Q; [|apply in_or_app; left; apply Ia; exact H].
      rewrite nth_put in H. destruct ((j =? i0)%nat && _) eqn:Q2; [|apply in_or_app; left; apply andb_prop in Q as (Q & _); apply Nat.eqb_eq in Q; subst b; apply Ia; exact H].
      apply in_or_app. right. left. apply andb_prop in Q as (Q & _), Q2 as (Q2 & _). apply Nat.eqb_eq in Q, Q2. injection H as <-. congruence.
    + apply Forall_app. split; [eapply Forall_impl; [|exact It1]; intros; apply pc_ok_more; assumption|]. constructor; [exact I|eapply Forall_impl; [|exact It2]; intros; apply pc_ok_more; assumption].
    + rewrite Il, map_app, <- app_assoc. apply Permutation_app_head. rewrite !flat_map_app. cbn [flat_map map fst snd pending_of hand app]. apply perm_out.
    + eapply Forall_impl; [|exact Is]. intros b (B1 & B2 & B3). split; [exact B1|]. split; [exact B2|]. intros x Hx. rewrite map_app. apply in_or_app. left. auto.
  - destruct (Nat.leb _ _); exists g, lost; apply Go; auto; (exact I || reflexivity).
  - exists g, lost. apply Go; [|exact I|reflexivity|exact Is]. intros b j x H. unfold arr in H. cbn [fresh_slice c_arrays] in H. rewrite arr_fresh in H.
    destruct (b =? _)%nat; [rewrite nth_repeat_none in H; discriminate|apply Ia; exact H].
  - exists g, lost. apply Go; [exact Ia| |reflexivity|exact Is]. cbn. split; [lia|]. split; [constructor|intros x []].
  - exists g, lost. destruct Itp as (A1 & A2 & A3). destruct (Nat.ltb_spec i0 hi) as [Lt|Ge]; [|apply Go; [exact Ia|exact I|reflexivity|exact Is]]. cbv zeta.
    set (acc' := match nth i0 (arr o (y_coll y)) None with Some s => acc ++ [s] | None => acc end).
    assert ((length acc' <= S (i0 mod bulk))%nat /\ NoDup acc' /\ forall s, In s acc' -> exists j, (j < S i0)%nat /\ In (s, (o, j)) g) as (B1 & B2 & B3).
    { unfold acc'. destruct (nth i0 (arr o (y_coll y)) None) as [s|] eqn:En.
      - apply Ia in En. rewrite app_length. cbn [length]. split; [lia|]. split.
        + apply (Permutation_NoDup (Permutation_cons_append acc s)). constructor; [|exact A2]. intros H. destruct (A3 s H) as (j & J1 & J2). pose proof (key_once _ _ _ _ Ng En J2) as K. injection K as K. lia.
        + intros x H. apply in_app_or in H as [H|[<-|[]]]; [destruct (A3 x H) as (j & J1 & J2); exists j; split; [lia|exact J2]|exists i0; split; [lia|exact En]].
      - split; [lia|]. split; [exact A2|]. intros x H. destruct (A3 x H) as (j & J1 & J2). exists j. split; [lia|exact J2]. }
    pose proof (mod_next i0) as (M1 & M2). pose proof (Nat.mod_upper_bound i0 bulk ltac:(lia)) as Ub.
    destruct (Nat.eqb_spec (S i0 mod bulk) 0) as [Z0|N0]; [|destruct (Nat.eqb_spec (S i0) hi) as [Eh|Nh]]; cbn [orb].
    3:{ apply Go; [exact Ia| |reflexivity|exact Is]. cbn [pc_ok]. split; [lia|]. split; [exact B2|exact B3]. }
    all: apply Go; [exact Ia| |reflexivity|]; [cbn [pc_ok length]; split; [lia|]; split; [constructor|intros x []]|].
    all: cbn [add_sent c_sent]; apply Forall_app; split; [exact Is|]; constructor; [|constructor]; split; [lia|]; split; [exact B2|]; intros x H; destruct (B3 x H) as (j & _ & J); apply in_map_iff; exists (x, (o, j)); split; [reflexivity|exact J].
  - destruct (Nat.ltb _ _); exists g, lost; apply Go; auto; (exact I || reflexivity).
  - exists g, lost. destruct (Nat.leb _ _); apply Go; auto; try (exact I || reflexivity). cbn. split; [lia|]. split; [constructor|intros x []].
Qed.
Lemma inv_run U sched : NoDup U -> forall g lost y, inv U g lost y -> exists g' lost', inv U g' lost' (sys_run keep bulk sched y).
Proof.
  intros N. induction sched as [|i sched IH]; intros g lost y H; [exists g, lost; exact H|]. destruct (inv_step _ _ _ _ i N H) as (g' & lost' & H'). exact (IH _ _ _ H').
Qed.
Lemma inv_start progs : inv (all_recorded progs) [] [] (psys0 keep progs).
Proof.
  constructor; cbn [psys0 y_coll y_thr coll0 c_sent map app].
  - intros [|a] i s; unfold arr; cbn [coll0 c_arrays nth]; [rewrite nth_repeat_none; discriminate|destruct a, i; discriminate].
  - apply Forall_forall. intros t H. apply in_map_iff in H as (p & <- & _). exact I.
  - unfold all_recorded. induction progs as [|p progs IH]; [constructor|]. cbn [map flat_map pending_of hand fst snd app]. apply Permutation_app_head. exact IH.
  - constructor.
Qed.
End Any.

(** without the distinctness of the steps: only recorded steps are held *)
Section Known.
Variables (keep bulk : nat) (U : list nat).
Definition acc_of (p : pc) : list nat := match p with Sending _ _ _ acc => acc | _ => [] end.
Record known (y : psys) : Prop := {
  kn_arr : forall a i s, nth i (arr a (y_coll y)) None = Some s -> In s U;
  kn_thr : Forall (fun t => incl (acc_of (fst t)) U /\ incl (hand (fst t)) U /\ incl (recorded (snd t)) U) (y_thr y);
  kn_sent : Forall (fun b => incl b U) (c_sent (y_coll y)) }.
Lemma known_step y i : known y -> known (sys_step keep bulk i y).
Proof.
  intros [Ka Kt Ks]. unfold sys_step. destruct (nth_error (y_thr y) i) as [[p r]|] eqn:E; [|constructor; assumption]. destruct (put_split _ _ _ E) as (l1 & l2 & El & _ & Pt).
  rewrite El in Kt. apply Forall_app in Kt as (K1 & Kt). inversion_clear Kt as [|? ? (Kp1 & Kp2 & Kr) K2]. cbn [fst snd] in *.
  assert (forall p' r' c', (forall a j s, nth j (arr a c') None = Some s -> In s U) -> incl (acc_of p') U -> incl (hand p') U -> incl (recorded r') U -> Forall (fun b => incl b U) (c_sent c') ->
    known (mkPsys c' (put i (p', r') (y_thr y)))) as Go.
  { intros p' r' c' Ca C1 C2 C3 Cs. rewrite Pt. constructor; cbn [y_coll y_thr]; [exact Ca| |exact Cs]. apply Forall_app. split; [exact K1|]. constructor; [auto|exact K2]. }
  assert (incl [] U) as N by (intros ? F0; destruct F0).
  unfold step_thread. destruct p; cbn [act hand acc_of] in *.
  all: try (apply Go; [exact Ka|exact N|first [exact N|exact Kp2]|exact Kr|exact Ks]).
  - destruct r as [|o r]; [apply Go; auto|]. apply Go; [exact Ka|destruct o; exact N| | |exact Ks].
    + destruct o as [s0|s0|s0|]; cbn [begin hand]; try exact N; intros z Hz; destruct Hz as [Hz|[]]; rewrite <- Hz; apply Kr; left; reflexivity.
    + intros z H. apply Kr. cbn [recorded flat_map]. apply in_or_app. right. exact H.
  - destruct (Nat.ltb _ _); apply Go; try assumption; try exact N. intros b j z H. unfold arr in H at 1. cbn [store c_arrays] in H. rewrite nth_put in H. destruct ((b =? a)%nat && _); [|eapply Ka; exact H].
    rewrite nth_put in H. destruct ((j =? i0)%nat && _); [|eapply Ka; exact H]. injection H as <-. apply Kp2. left. reflexivity.
  - destruct (Nat.leb _ _); apply Go; assumption || exact N.
  - apply Go; try assumption; try exact N. intros b j z H. unfold arr in H. cbn [fresh_slice c_arrays] in H. rewrite arr_fresh in H. destruct (b =? _)%nat; [rewrite nth_repeat_none in H; discriminate|eapply Ka; exact H].
  - destruct (Nat.ltb _ _); [|apply Go; assumption || exact N]. cbv zeta.
    assert (incl (match nth i0 (arr o (y_coll y)) None with Some s => acc ++ [s] | None => acc end) U) as A.
    { destruct (nth i0 (arr o (y_coll y)) None) as [s|] eqn:En; [|exact Kp1]. intros z H. apply in_app_or in H as [H|[<-|[]]]; [auto|eapply Ka; exact En]. }
    destruct (_ || _); apply Go; try assumption; try exact N. cbn [add_sent c_sent]. apply Forall_app. split; [exact Ks|constructor; [exact A|constructor]].
  - destruct (Nat.ltb _ _); apply Go; assumption || exact N.
  - destruct (Nat.leb _ _); apply Go; assumption || exact N.
Qed.
Lemma known_run sched : forall y, known y -> known (sys_run keep bulk sched y).
Proof. induction sched as [|i sched IH]; intros y H; [exact H|]. apply IH, known_step, H. Qed.
End Known.

(** the size of a batch *)
Section Size.
Variables (keep bulk : nat).
Hypothesis Hb : (1 <= bulk)%nat.
Definition len_ok (p : pc) : Prop := match p with Sending _ _ i acc => (length acc <= i mod bulk)%nat | _ => True end.
Definition sized (y : psys) : Prop := Forall (fun t => len_ok (fst t)) (y_thr y) /\ Forall (fun b => (length b <= bulk)%nat) (c_sent (y_coll y)).
Lemma sized_step y i : sized y -> sized (sys_step keep bulk i y).
Proof.
  intros (Kt & Ks). unfold sys_step. destruct (nth_error (y_thr y) i) as [[p r]|] eqn:E; [|split; assumption]. destruct (put_split _ _ _ E) as (l1 & l2 & El & _ & Pt).
  rewrite El in Kt. apply Forall_app in Kt as (K1 & Kt). inversion_clear Kt as [|? ? Kp K2]. cbn [fst] in Kp.
  assert (forall p' r' c', len_ok p' -> Forall (fun b => (length b <= bulk)%nat) (c_sent c') -> sized (mkPsys c' (put i (p', r') (y_thr y)))) as Go.
  { intros p' r' c' C1 Cs. rewrite Pt. split; cbn [y_coll y_thr]; [|exact Cs]. apply Forall_app. split; [exact K1|]. constructor; [exact C1|exact K2]. }
  unfold step_thread. destruct p; cbn [act len_ok] in *.
  all: try (apply Go; [exact I|exact Ks]).
  - destruct r as [|o r]; [apply Go; auto|]. apply Go; [destruct o; exact I|exact Ks].
  - destruct (Nat.ltb _ _); apply Go; exact I || exact Ks.
  - destruct (Nat.leb _ _); apply Go; exact I || exact Ks.
  - apply Go; [cbn; lia|exact Ks].
  - destruct (Nat.ltb _ _); [|apply Go; exact I || exact Ks]. cbv zeta.
    set (acc' := match nth i0 (arr o (y_coll y)) None with Some s => acc ++ [s] | None => acc end).
    assert (length acc' <= S (i0 mod bulk))%nat as A by (unfold acc'; destruct (nth i0 (arr o (y_coll y)) None); rewrite ?app_length; cbn [length]; lia).
    pose proof (mod_next bulk Hb i0) as (M1 & M2). pose proof (Nat.mod_upper_bound i0 bulk ltac:(lia)) as Ub.
    destruct (Nat.eqb_spec (S i0 mod bulk) 0) as [Z0|N0]; [|destruct (Nat.eqb_spec (S i0) hi)]; cbn [orb].
    3:{ apply Go; [cbn [len_ok]; lia|exact Ks]. }
    all: apply Go; [cbn [len_ok length]; lia|]; cbn [add_sent c_sent]; apply Forall_app; split; [exact Ks|constructor; [lia|constructor]].
  - destruct (Nat.ltb _ _); apply Go; exact I || exact Ks.
  - destruct (Nat.leb _ _); apply Go; try exact I; try exact Ks. cbn. lia.
Qed.
Lemma sized_run sched : forall y, sized y -> sized (sys_run keep bulk sched y).
Proof. induction sched as [|i sched IH]; intros y H; [exact H|]. apply IH, sized_step, H. Qed.
Lemma sized_start progs : sized (psys0 keep progs).
Proof. split; [|constructor]. apply Forall_forall. intros t H. apply in_map_iff in H as (p & <- & _). exact I. Qed.
End Size.
Lemma known_start keep progs : known (all_recorded progs) (psys0 keep progs).
Proof.
  constructor; cbn [psys0 y_coll y_thr coll0 c_sent].
  - intros [|a] i s; unfold arr; cbn [coll0 c_arrays nth]; [rewrite nth_repeat_none; discriminate|destruct a, i; discriminate].
  - apply Forall_forall. intros t H. apply in_map_iff in H as (p & <- & Hp). cbn [fst snd acc_of hand]. split; [intros x []|]. split; [intros x []|]. intros x Hx. unfold all_recorded. apply in_flat_map. exists p. auto.
  - constructor.
Qed.

