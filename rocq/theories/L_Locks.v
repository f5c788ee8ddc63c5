(** Lemmas for C85: locks taken in a fixed order cannot deadlock. *)
From Verif Require Import GoInt M_Locks S_Locks.

Definition rank (l : lockid) : nat :=
  match l with
  | KAgentOnce => 0 | KSamplerOnce => 1 | KConf => 2 | KObservers => 3 | KUdpOnce => 4 | KChanOnce => 5 | KDesc => 6 | KText => 7
  | KMeterOnce => 8 | KService => 9 | KValue => 10 | KServiceBuckets => 11 | KValueBuckets => 12 | KStats => 13 | KKey => 14
  end.
Lemma lock_eqb_spec a b : reflect (a = b) (lock_eqb a b).
Proof. destruct a, b; constructor; congruence. Qed.

(** locks are taken upwards and given back in the opposite order *)
Fixpoint ordered (h : list lockid) (p : list lact) : Prop :=
  match p with
  | [] => h = []
  | (Shared l | Exclusive l) :: r => (forall x, In x h -> (rank x < rank l)%nat) /\ ordered (l :: h) r
  | Release l :: r => match h with x :: h' => x = l /\ ordered h' r | [] => False end
  end.
(** a piece of program that takes only locks above [b] and leaves nothing behind *)
Definition above (b : nat) (p : list lact) : Prop := forall h r, (forall x, In x h -> (rank x < b)%nat) -> ordered h r -> ordered h (p ++ r).

Lemma above_nil b : above b [].
Proof. intros h r _ H. exact H. Qed.
Lemma above_app b p q : above b p -> above b q -> above b (p ++ q).
Proof. intros P Q h r Hh Hr. rewrite <- app_assoc. apply P; [exact Hh|]. apply Q; assumption. Qed.
Lemma above_under b l p : (b <= rank l)%nat -> above (S (rank l)) p -> above b (under l p).
Proof.
  intros Hb P h r Hh Hr. unfold under. cbn [app ordered]. split; [intros x Hx; specialize (Hh x Hx); lia|]. rewrite <- app_assoc. apply P; [intros x [<-|Hx]; [lia|specialize (Hh x Hx); lia]|].
  cbn [app ordered]. split; [reflexivity|exact Hr].
Qed.
Lemma above_under_shared b l p : (b <= rank l)%nat -> above (S (rank l)) p -> above b (under_shared l p).
Proof.
  intros Hb P h r Hh Hr. unfold under_shared. cbn [app ordered]. split; [intros x Hx; specialize (Hh x Hx); lia|]. rewrite <- app_assoc. apply P; [intros x [<-|Hx]; [lia|specialize (Hh x Hx); lia]|].
  cbn [app ordered]. split; [reflexivity|exact Hr].
Qed.
Lemma above_once b l st p : (b <= rank l)%nat -> above (S (rank l)) p -> above b (once l st p).
Proof. intros Hb P. destruct st; [apply above_nil|apply above_under; [exact Hb|apply above_nil]|apply above_under; assumption]. Qed.
Lemma above_repeat b p n : above b p -> above b (concat (repeat p n)).
Proof. intros P. induction n as [|n IH]; [apply above_nil|]. apply above_app; assumption. Qed.
Ltac ab := repeat lazymatch goal with
  | |- above _ [] => apply above_nil
  | |- above _ (_ ++ _) => apply above_app
  | |- above _ (under _ _) => apply above_under; [cbn; lia|]
  | |- above _ (under_shared _ _) => apply above_under_shared; [cbn; lia|]
  | |- above _ (once _ _ _) => apply above_once; [cbn; lia|]
  | |- above _ (concat (repeat _ _)) => apply above_repeat
  | |- above _ (if ?b then _ else _) => destruct b
  | |- above _ (match ?o with _ => _ end) => destruct o as [?|]
  | |- above _ (udp_instance _ _) => unfold udp_instance
  | |- above _ (send_text _ _ _) => unfold send_text
  | |- above _ setting => unfold setting
  | |- above _ conf_changed => unfold conf_changed
  | |- above _ (obj_changed _) => unfold obj_changed
  | |- above _ (refresh_acts _ _ _) => unfold refresh_acts
  end.
Lemma list_above n : above 0 (list_acts n).
Proof. induction n as [|n IH]; cbn [list_acts]; ab. exact IH. Qed.
Lemma op_above o : above 0 (op_acts o).
Proof.
  destruct o; cbn [op_acts]; ab; try apply list_above. destruct p as [[? ?] ?]. ab.
Qed.
Lemma program_ordered ops : ordered [] (flat_map op_acts ops).
Proof.
  rewrite <- (app_nil_r (flat_map op_acts ops)). assert (above 0 (flat_map op_acts ops)) as A; [|apply A; [intros x []|reflexivity]].
  induction ops as [|o ops IH]; [apply above_nil|]. cbn [flat_map]. apply above_app; [apply op_above|exact IH].
Qed.

(** * Progress *)
Record good (t : lthread) : Prop := {
  gd_order : ordered (map fst (l_held t)) (l_todo t);
  gd_wait : match l_wait t with None => True | Some l => exists r, l_todo t = Exclusive l :: r end }.
Lemma drop_top l x h : fst x = l -> drop l (x :: h) = Some h.
Proof. intros <-. cbn. destruct (lock_eqb_spec (fst x) (fst x)); [reflexivity|contradiction]. Qed.
Lemma good_advance ts t t' : good t -> l_advance ts t = Some t' -> good t'.
Proof.
  intros [O W]. unfold l_advance. destruct (l_todo t) as [|[l|l|l] r] eqn:E; [discriminate| | |].
  - destruct (l_wait t); [discriminate|]. destruct (no_writer l ts); [|discriminate]. intros [= <-]. cbn [ordered] in O. constructor; cbn [l_held l_todo l_wait map fst]; [apply O|exact I].
  - destruct (l_wait t).
    + destruct (no_reader l ts); [|discriminate]. intros [= <-]. cbn [ordered] in O. constructor; cbn [l_held l_todo l_wait map fst]; [apply O|exact I].
    + destruct (no_writer l ts); [|discriminate]. intros [= <-]. constructor; cbn [l_held l_todo l_wait]; [exact O|eauto].
  - destruct (l_wait t); [discriminate|]. cbn [ordered] in O. destruct (l_held t) as [|x h]; cbn [map] in O; [contradiction|]. destruct O as (Ox & O). rewrite (drop_top l x h Ox). intros [= <-]. constructor; cbn; auto.
Qed.
Lemma good_steps n a b : lsteps n a b -> Forall good a -> Forall good b.
Proof.
  induction 1 as [|n a b c H IH St]; [auto|]. intros G. specialize (IH G). destruct St as [l1 t l2 t' A]. apply Forall_app in IH as (G1 & G2). inversion_clear G2 as [|? ? Gt G2'].
  apply Forall_app. split; [exact G1|]. constructor; [|exact G2']. eapply good_advance; eassumption.
Qed.
Lemma good_start callers : Forall good (l_programs callers).
Proof. apply Forall_forall. intros t H. apply in_map_iff in H as (ops & <- & _). constructor; cbn; [apply program_ordered|exact I]. Qed.

(** the lock a goroutine wants next *)
Definition wants (t : lthread) : option lockid := match l_todo t with (Shared l | Exclusive l) :: _ => Some l | _ => None end.
Lemma blocked_wants ts t : good t -> l_todo t <> [] -> l_advance ts t = None -> exists l, wants t = Some l /\ exists u, In u ts /\ (holds_ex l u = true \/ announces l u = true \/ holds_sh l u = true /\ l_wait t <> None).
Proof.
  intros [O W] Ne. unfold l_advance, wants. destruct (l_todo t) as [|[l|l|l] r] eqn:E; [contradiction| | |].
  - destruct (l_wait t); [destruct W as (? & ?); discriminate|]. destruct (no_writer l ts) eqn:N; [discriminate|]. intros _. exists l. split; [reflexivity|].
    unfold no_writer in N. rewrite <- not_true_iff_false, forallb_forall in N. destruct (existsb (fun u => holds_ex l u || announces l u) ts) eqn:X.
    + apply existsb_exists in X as (u & Hu & Hx). exists u. split; [exact Hu|]. apply orb_prop in Hx. tauto.
    + exfalso. apply N. intros u Hu. destruct (holds_ex l u) eqn:A, (announces l u) eqn:B; cbn; try reflexivity; exfalso; rewrite <- not_true_iff_false in X; apply X, existsb_exists; exists u; rewrite A, B; auto.
  - destruct (l_wait t) as [m|] eqn:Ew.
    + destruct (no_reader l ts) eqn:N; [discriminate|]. intros _. exists l. split; [reflexivity|]. unfold no_reader in N. rewrite <- not_true_iff_false, forallb_forall in N.
      destruct (existsb (holds_sh l) ts) eqn:X; [apply existsb_exists in X as (u & Hu & Hx); exists u; split; [exact Hu|]; right; right; split; [exact Hx|discriminate]|].
      exfalso. apply N. intros u Hu. destruct (holds_sh l u) eqn:A; [|reflexivity]. exfalso. rewrite <- not_true_iff_false in X. apply X, existsb_exists. exists u. auto.
    + destruct (no_writer l ts) eqn:N; [discriminate|]. intros _. exists l. split; [reflexivity|].
      unfold no_writer in N. rewrite <- not_true_iff_false, forallb_forall in N. destruct (existsb (fun u => holds_ex l u || announces l u) ts) eqn:X.
      * apply existsb_exists in X as (u & Hu & Hx). exists u. split; [exact Hu|]. apply orb_prop in Hx. tauto.
      * exfalso. apply N. intros u Hu. destruct (holds_ex l u) eqn:A, (announces l u) eqn:B; cbn; try reflexivity; exfalso; rewrite <- not_true_iff_false in X; apply X, existsb_exists; exists u; rewrite A, B; auto.
  - destruct (l_wait t); [destruct W as (? & ?); discriminate|]. cbn [ordered] in O. destruct (l_held t) as [|x h]; cbn [map] in O; [contradiction|]. destruct O as (Ox & O). rewrite (drop_top l x h Ox). discriminate.
Qed.
Lemma holder_wants l t m : good t -> In l (map fst (l_held t)) -> wants t = Some m -> (rank l < rank m)%nat.
Proof.
  intros [O _] Hi. unfold wants. destruct (l_todo t) as [|[x|x|x] r]; try discriminate; intros [= <-]; cbn [ordered] in O; apply O; exact Hi.
Qed.
Lemma holder_busy l t : good t -> In l (map fst (l_held t)) -> l_todo t <> [].
Proof. intros [O _] Hi E. rewrite E in O. cbn in O. rewrite O in Hi. exact Hi. Qed.
Lemma holds_in (f : bool -> bool) l t : existsb (fun h => lock_eqb (fst h) l && f (snd h)) (l_held t) = true -> In l (map fst (l_held t)).
Proof. intros H. apply existsb_exists in H as ([m x] & Hi & H). apply andb_prop in H as (H & _). cbn in H. destruct (lock_eqb_spec m l) as [<-|]; [|discriminate]. apply in_map_iff. exists (m, x). auto. Qed.

Lemma progress ts : Forall good ts -> (exists t, In t ts /\ l_todo t <> []) -> exists ts', lstep ts ts'.
Proof.
  intros G (t0 & H0 & N0). rewrite Forall_forall in G.
  destruct (existsb (fun t => match l_advance ts t with Some _ => true | None => false end) ts) eqn:X.
  { apply existsb_exists in X as (t & Ht & A). destruct (l_advance ts t) as [t'|] eqn:E; [|discriminate]. apply in_split in Ht as (l1 & l2 & ->). eexists. apply lstep_at. exact E. }
  exfalso. assert (forall t, In t ts -> l_advance ts t = None) as St.
  { intros t Ht. destruct (l_advance ts t) eqn:E; [|reflexivity]. exfalso. rewrite <- not_true_iff_false in X. apply X, existsb_exists. exists t. rewrite E. auto. }
  assert (forall k t l, In t ts -> wants t = Some l -> (14 - rank l <= k)%nat -> False) as Up.
  { induction k as [k IH] using lt_wf_ind. intros t l Ht Hw Hk.
    assert (l_todo t <> []) as Nt by (unfold wants in Hw; destruct (l_todo t); congruence).
    assert (forall u, In u ts -> In l (map fst (l_held u)) -> False) as Hold.
    { intros u Hu Hl. destruct (blocked_wants ts u (G u Hu) (holder_busy l u (G u Hu) Hl) (St u Hu)) as (m & Hm & _). pose proof (holder_wants l u m (G u Hu) Hl Hm) as Lt.
      assert (rank m <= 14)%nat by (destruct m; cbn; lia). exact (IH (14 - rank m)%nat ltac:(lia) u m Hu Hm ltac:(lia)). }
    destruct (blocked_wants ts t (G t Ht) Nt (St t Ht)) as (l' & Hl' & u & Hu & C). rewrite Hw in Hl'. injection Hl' as <-. destruct C as [C|[C|(C & _)]].
    - exact (Hold u Hu (holds_in (fun b => b) l u C)).
    - unfold announces in C. destruct (l_wait u) as [m|] eqn:Eu; [|discriminate]. destruct (lock_eqb_spec m l) as [->|]; [|discriminate].
      pose proof (gd_wait u (G u Hu)) as Wu. rewrite Eu in Wu. destruct Wu as (r & Er). pose proof (St u Hu) as Au. unfold l_advance in Au. rewrite Er, Eu in Au. destruct (no_reader l ts) eqn:N; [discriminate|].
      unfold no_reader in N. rewrite <- not_true_iff_false, forallb_forall in N. apply N. intros w Hw'. destruct (holds_sh l w) eqn:A; [|reflexivity]. exfalso. exact (Hold w Hw' (holds_in negb l w A)).
    - exact (Hold u Hu (holds_in negb l u C)). }
  destruct (blocked_wants ts t0 (G t0 H0) N0 (St t0 H0)) as (l & Hl & _). exact (Up _ t0 l H0 Hl (le_n _)).
Qed.

(** * Every schedule ends *)
Definition work (t : lthread) : nat := 2 * length (l_todo t) - match l_wait t with Some _ => 1 | None => 0 end.
Lemma work_advance ts t t' : good t -> l_advance ts t = Some t' -> (S (work t') <= work t)%nat.
Proof.
  intros G. unfold l_advance, work. destruct (l_todo t) as [|[l|l|l] r]; [discriminate| | |]; destruct (l_wait t); try discriminate.
  - destruct (no_writer l ts); [|discriminate]. intros [= <-]. cbn. lia.
  - destruct (no_reader l ts); [|discriminate]. intros [= <-]. cbn. lia.
  - destruct (no_writer l ts); [|discriminate]. intros [= <-]. cbn. lia.
  - destruct (drop l (l_held t)); [|discriminate]. intros [= <-]. cbn. lia.
Qed.
Definition total (ts : list lthread) : nat := fold_right (fun t n => work t + n)%nat 0%nat ts.
Lemma total_app a b : total (a ++ b) = (total a + total b)%nat.
Proof. unfold total. induction a as [|x a IH]; [reflexivity|]. cbn [app fold_right]. rewrite IH. lia. Qed.
Lemma steps_bounded n a b : Forall good a -> lsteps n a b -> (n + total b <= total a)%nat.
Proof.
  intros G. induction 1 as [|n a b c H IH St]; [lia|]. specialize (IH G). pose proof (good_steps _ _ _ H G) as Gb. destruct St as [l1 t l2 t' A]. rewrite total_app in IH |- *. change (total (t :: l2)) with (work t + total l2)%nat in IH. change (total (t' :: l2)) with (work t' + total l2)%nat.
  apply Forall_app in Gb as (_ & Gb). inversion_clear Gb as [|? ? Gt _]. pose proof (work_advance _ _ _ Gt A). lia.
Qed.

(** * Exclusion *)
(** two goroutines do not disturb each other *)
Definition apart (t u : lthread) : Prop := forall l,
  ((holds_ex l t || announces l t) && (holds_ex l u || announces l u) = false) /\ holds_ex l t && holds_sh l u = false /\ holds_sh l t && holds_ex l u = false.
Lemma apart_sym t u : apart t u -> apart u t.
Proof. intros H l. destruct (H l) as (A & B & C). rewrite (andb_comm (holds_ex l u || _)), (andb_comm (holds_ex l u)), (andb_comm (holds_sh l u)). auto. Qed.
Fixpoint all_apart (ts : list lthread) : Prop := match ts with [] => True | t :: r => Forall (apart t) r /\ all_apart r end.
Lemma all_apart_app a b : all_apart (a ++ b) <-> all_apart a /\ all_apart b /\ Forall (fun t => Forall (apart t) b) a.
Proof.
  induction a as [|x a IH]; cbn [app all_apart]; [split; [intros H; repeat split; [exact H|constructor]|tauto]|]. rewrite Forall_app, IH. split.
  - intros ((A & B) & C & D & E). repeat split; try assumption. constructor; assumption.
  - intros ((A & B) & C & D). inversion_clear D. tauto.
Qed.
Lemma apart_replace l1 t l2 t' : all_apart (l1 ++ t :: l2) -> (forall u, In u (l1 ++ l2) -> apart t u -> apart t' u) -> all_apart (l1 ++ t' :: l2).
Proof.
  intros H R. apply all_apart_app in H as (H1 & H2 & H3). cbn [all_apart] in H2. destruct H2 as (H2 & H4). apply all_apart_app. split; [exact H1|]. rewrite Forall_forall in *. split.
  - cbn [all_apart]. split; [|exact H4]. apply Forall_forall. intros u Hu. apply R; [apply in_or_app; right; exact Hu|auto].
  - intros u Hu. specialize (H3 u Hu). inversion_clear H3 as [|? ? A B]. constructor; [|exact B]. apply apart_sym, R; [apply in_or_app; left; exact Hu|apply apart_sym; exact A].
Qed.
Lemma drop_sub l h h' f : drop l h = Some h' -> existsb f h = false -> existsb f h' = false.
Proof.
  revert h'. induction h as [|x h IH]; cbn; intros h' E H; [discriminate|]. apply orb_false_elim in H as (Hx & H). destruct (lock_eqb (fst x) l); [injection E as <-; exact H|].
  destruct (drop l h) as [r|]; [|discriminate]. injection E as <-. cbn. rewrite Hx. apply IH; auto.
Qed.
Lemma apart_advance ts t t' u : good t -> In u ts -> l_advance ts t = Some t' -> apart t u -> apart t' u.
Proof.
  intros G Hu. unfold l_advance. destruct (l_todo t) as [|[l|l|l] r] eqn:Et; [discriminate| | |]; destruct (l_wait t) as [w|] eqn:Ew; try discriminate.
  - destruct (no_writer l ts) eqn:N; [|discriminate]. intros [= <-] A m. unfold no_writer in N. rewrite forallb_forall in N. specialize (N u Hu). apply andb_prop in N as (N1 & N2). apply negb_true_iff in N1, N2.
    destruct (A m) as (A1 & A2 & A3). unfold holds_ex, holds_sh, announces in A1, A2, A3 |- *. cbn [l_held l_wait existsb fst snd]. rewrite Ew in A1. cbn [negb andb orb] in *. rewrite andb_false_r. cbn [orb]. split; [exact A1|]. split; [exact A2|].
    destruct (lock_eqb_spec l m) as [->|]; cbn [andb orb]; [|exact A3]. unfold holds_ex in N1. rewrite N1. reflexivity.
  - destruct (no_reader l ts) eqn:N; [|discriminate]. intros [= <-] A m. unfold no_reader in N. rewrite forallb_forall in N. specialize (N u Hu). apply negb_true_iff in N.
    assert (w = l) as ->. { pose proof (gd_wait t G) as W. rewrite Ew in W. destruct W as (r' & W). congruence. }
    destruct (A m) as (A1 & A2 & A3). unfold holds_ex, holds_sh, announces in A1, A2, A3 |- *. cbn [l_held l_wait existsb fst snd negb andb orb]. rewrite Ew in A1. rewrite ?andb_false_r, ?andb_true_r, ?orb_false_r in *. cbn [orb]. split; [rewrite orb_comm; exact A1|].
    split; [|exact A3]. destruct (lock_eqb_spec l m) as [->|]; cbn [andb orb]; [|exact A2]. unfold holds_sh in N. exact N.
  - destruct (no_writer l ts) eqn:N; [|discriminate]. intros [= <-] A m. unfold no_writer in N. rewrite forallb_forall in N. specialize (N u Hu). apply andb_prop in N as (N1 & N2). apply negb_true_iff in N1, N2.
    destruct (A m) as (A1 & A2 & A3). split; [|split; [exact A2|exact A3]]. unfold holds_ex in *. unfold announces in *. cbn [l_held l_wait]. rewrite Ew, orb_false_r in A1.
    destruct (lock_eqb_spec l m) as [->|]; [|rewrite orb_false_r; exact A1]. rewrite N1, N2. apply andb_false_r.
  - destruct (drop l (l_held t)) as [h|] eqn:D; [|discriminate]. intros [= <-] A m. destruct (A m) as (A1 & A2 & A3). unfold announces, holds_ex, holds_sh in *. cbn [l_held l_wait]. rewrite Ew in A1.
    assert (forall f b, existsb f (l_held t) && b = false -> existsb f h && b = false) as Q.
    { intros f b Hb. destruct b; [|apply andb_false_r]. rewrite andb_true_r in *. exact (drop_sub l _ _ f D Hb). }
    rewrite orb_false_r in *. split; [apply Q; exact A1|]. split; apply Q; assumption.
Qed.
Lemma apart_steps n a b : lsteps n a b -> Forall good a -> all_apart a -> all_apart b.
Proof.
  induction 1 as [|n a b c H IH St]; [auto|]. intros G A. specialize (IH G A). pose proof (good_steps _ _ _ H G) as Gb. destruct St as [l1 t l2 t' Ad].
  apply Forall_app in Gb as (_ & Gb). inversion_clear Gb as [|? ? Gt _]. eapply apart_replace; [exact IH|]. intros u Hu. eapply apart_advance; [exact Gt| |exact Ad]. apply in_app_or in Hu as [Hu|Hu]; apply in_or_app; [left|right; right]; exact Hu.
Qed.
Lemma apart_start callers : all_apart (l_programs callers).
Proof. induction callers as [|o r IH]; cbn [l_programs map all_apart]; [exact I|]. split; [|exact IH]. apply Forall_forall. intros t H. apply in_map_iff in H as (ops & <- & _). intros l. repeat split. Qed.
Lemma has_alone_ex l t : has_alone l t -> holds_ex l t = true.
Proof. intros H. apply existsb_exists. exists (l, true). split; [exact H|]. cbn. destruct (lock_eqb_spec l l); [reflexivity|contradiction]. Qed.
Lemma has_some l t : has l t -> holds_ex l t || holds_sh l t = true.
Proof.
  intros ([|] & H); [rewrite (has_alone_ex l t H); reflexivity|]. apply orb_true_iff. right. apply existsb_exists. exists (l, false). split; [exact H|]. cbn. destruct (lock_eqb_spec l l); [reflexivity|contradiction].
Qed.
