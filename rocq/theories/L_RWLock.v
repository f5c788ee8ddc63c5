From Verif Require Import GoInt M_RWLock.

(** sequences of complete, non-nested critical sections *)
Inductive flat : list act -> Prop :=
| flat_nil : flat []
| flat_r l : flat l -> flat (ARLock :: ARUnlock :: l)
| flat_w l : flat l -> flat (ALock :: AUnlock :: l).

Definition ok (t : thread) : Prop :=
  match wr t, rd t with
  | WNone, O => flat (todo t)
  | WNone, S O => exists l, todo t = ARUnlock :: l /\ flat l
  | WPending, O => exists l, todo t = ALock :: AUnlock :: l /\ flat l
  | WHeld, O => exists l, todo t = AUnlock :: l /\ flat l
  | _, _ => False
  end.

Lemma advance_ok ts t t' : ok t -> advance ts t = Some t' -> ok t'.
Proof.
  destruct t as [td r w]. unfold ok, advance. cbn [todo rd wr].
  destruct w, r as [|[|r]]; cbn [rd]; try contradiction.
  - intros F. destruct F as [|l F|l F]; [discriminate| |]; destruct (no_writer ts); intros [= <-]; cbn [todo rd wr]; eauto.
  - intros (l & -> & F) [= <-]. exact F.
  - intros (l & -> & F). destruct (no_reader ts); intros [= <-]; cbn [todo rd wr]; eauto.
  - intros (l & -> & F) [= <-]. exact F.
Qed.

Lemma Forall_mid {A} (P : A -> Prop) a x x' b : Forall P (a ++ x :: b) -> P x' -> Forall P (a ++ x' :: b).
Proof. rewrite !Forall_app. intros (Ha & Hb) Hx. inversion Hb; subst. split; [assumption|constructor; assumption]. Qed.

Lemma steps_ok n a b : steps n a b -> Forall ok a -> Forall ok b.
Proof.
  induction 1 as [|n a b c Hs IH St]; [auto|]. intros H. specialize (IH H). destruct St as [bf t af t' E].
  eapply Forall_mid; [exact IH|]. apply (advance_ok _ t _) in E; [assumption|].
  rewrite Forall_forall in IH. apply IH. apply in_or_app. right. left. reflexivity.
Qed.

Lemma forallb_false_split {A} (f : A -> bool) l : forallb f l = false -> exists a x b, l = a ++ x :: b /\ f x = false.
Proof.
  induction l as [|y l IH]; cbn [forallb]; [discriminate|]. destruct (f y) eqn:E; cbn [andb].
  - intros H. destruct (IH H) as (a & x & b & -> & Hx). exists (y :: a), x, b. split; [reflexivity|assumption].
  - intros _. exists [], y, l. split; [reflexivity|assumption].
Qed.

Lemma progress ts : Forall ok ts -> (exists t, In t ts /\ ~ finished t) -> exists ts', step ts ts'.
Proof.
  intros Hok (t0 & Hin & Hnf).
  destruct (forallb (fun t => match wr t with WHeld => false | _ => true end) ts) eqn:Eh.
  2: { apply forallb_false_split in Eh as (a & t & b & -> & Ht). rewrite Forall_forall in Hok.
       assert (ok t) as Hk by (apply Hok; apply in_or_app; right; left; reflexivity).
       destruct t as [td r w]. cbn [wr] in Ht. destruct w; try discriminate.
       unfold ok in Hk. cbn [wr rd todo] in Hk. destruct r; [|contradiction]. destruct Hk as (l & -> & F).
       eexists. eapply step_at. reflexivity. }
  destruct (no_reader ts) eqn:Er.
  2: { unfold no_reader in Er. apply forallb_false_split in Er as (a & t & b & -> & Ht). rewrite Forall_forall in Hok.
       assert (ok t) as Hk by (apply Hok; apply in_or_app; right; left; reflexivity).
       destruct t as [td r w]. cbn [rd] in Ht. apply Nat.eqb_neq in Ht.
       unfold ok in Hk. cbn [wr rd todo] in Hk. destruct w, r as [|[|r]]; try contradiction; try congruence.
       destruct Hk as (l & -> & F). eexists. eapply step_at. reflexivity. }
  destruct (no_writer ts) eqn:Ew.
  2: { pose proof Ew as Ew'. unfold no_writer in Ew'. apply forallb_false_split in Ew' as (a & t & b & -> & Ht).
       assert (ok t) as Hk by (rewrite Forall_forall in Hok; apply Hok; apply in_or_app; right; left; reflexivity).
       assert (wr t <> WHeld) as Hh.
       { rewrite forallb_forall in Eh. specialize (Eh t ltac:(apply in_or_app; right; left; reflexivity)). destruct (wr t); congruence. }
       destruct t as [td r w]. unfold is_wnone in Ht. cbn [wr] in *. destruct w; try discriminate; try congruence.
       unfold ok in Hk. cbn [wr rd todo] in Hk. destruct r; [|contradiction]. destruct Hk as (l & -> & F).
       eexists. eapply step_at. cbn [advance todo wr]. rewrite Er. reflexivity. }
  apply in_split in Hin as (a & b & ->).
  assert (ok t0) as Hk by (rewrite Forall_forall in Hok; apply Hok; apply in_or_app; right; left; reflexivity).
  assert (wr t0 = WNone) as W0.
  { unfold no_writer in Ew. rewrite forallb_forall in Ew. specialize (Ew t0 ltac:(apply in_or_app; right; left; reflexivity)).
    unfold is_wnone in Ew. destruct (wr t0); congruence. }
  assert (rd t0 = O) as R0.
  { unfold no_reader in Er. rewrite forallb_forall in Er. specialize (Er t0 ltac:(apply in_or_app; right; left; reflexivity)).
    apply Nat.eqb_eq in Er. exact Er. }
  destruct t0 as [td r w]. cbn [wr rd] in *. subst. unfold ok in Hk. cbn [wr rd todo] in Hk.
  destruct Hk as [|l F|l F]; [exfalso; apply Hnf; reflexivity| |]; eexists; eapply step_at; cbn [advance todo wr rd]; rewrite Ew; reflexivity.
Qed.

(** every step uses up part of the work *)
Definition work (t : thread) : nat := 2 * length (todo t) - match wr t with WPending => 1 | _ => 0 end.
Definition total (ts : list thread) : nat := list_sum (map work ts).

Lemma advance_work ts t t' : ok t -> advance ts t = Some t' -> (S (work t') <= work t)%nat.
Proof.
  destruct t as [td r w]. unfold ok, advance, work. cbn [todo rd wr].
  destruct w, r as [|[|r]]; cbn [rd]; try contradiction.
  - intros F. destruct F as [|l F|l F]; [discriminate| |]; destruct (no_writer ts); intros [= <-]; cbn [todo wr length]; lia.
  - intros (l & -> & F) [= <-]. cbn [todo wr length]; lia.
  - intros (l & -> & F). destruct (no_reader ts); intros [= <-]; cbn [todo wr length]; lia.
  - intros (l & -> & F) [= <-]. cbn [todo wr length]; lia.
Qed.

Lemma steps_total n a b : steps n a b -> Forall ok a -> (n + total b <= total a)%nat.
Proof.
  induction 1 as [|n a b c Hs IH St]; [lia|]. intros H. specialize (IH H). pose proof (steps_ok _ _ _ Hs H) as Hb.
  destruct St as [bf t af t' E]. apply advance_work in E.
  - unfold total in *. rewrite !map_app, !list_sum_app in *. cbn [map] in *. cbn [list_sum fold_right] in *.
    unfold list_sum in *. cbn [fold_right] in *. lia.
  - rewrite Forall_forall in Hb. apply Hb. apply in_or_app. right. left. reflexivity.
Qed.

Lemma flat_app a b : flat a -> flat b -> flat (a ++ b).
Proof. induction 1; cbn [app]; auto using flat. Qed.
Lemma flat_values n : flat (values_acts n).
Proof. induction n; cbn [values_acts]; auto using flat. Qed.
Lemma acts_flat o : o <> LraEmpty -> flat (acts_of o).
Proof. destruct o; cbn [acts_of]; intros H; try congruence; auto using flat, flat_values. Qed.

Lemma programs_ok callers : Forall (fun ops => ~ In LraEmpty ops) callers -> Forall ok (programs callers).
Proof.
  intros H. unfold programs. rewrite Forall_map. eapply Forall_impl; [|exact H]. intros ops Hn. unfold ok, program. cbn [wr rd todo].
  induction ops as [|o ops IH]; cbn [flat_map]; [constructor|]. apply flat_app; [apply acts_flat; intros ->; apply Hn; left; reflexivity|].
  apply IH. intros Hi. apply Hn. right. assumption.
Qed.

(** mutual exclusion: a holder of the write lock is alone *)
Definition busy (t : thread) : bool := negb (is_wnone t).
Definition excl (ts : list thread) : Prop :=
  (length (filter busy ts) <= 1)%nat /\ ((exists t, In t ts /\ wr t = WHeld) -> no_reader ts = true).

Lemma excl_init callers : excl (programs callers).
Proof.
  unfold programs. induction callers as [|c cs (IH1 & IH2)].
  - split; [cbn; lia|intros (t & [] & _)].
  - split; [exact IH1|]. intros _. unfold no_reader. cbn [map forallb program rd]. clear. induction cs; [reflexivity|exact IHcs].
Qed.

Lemma filter_busy_0 ts : no_writer ts = true -> filter busy ts = [].
Proof.
  unfold no_writer. induction ts as [|t ts IH]; cbn [forallb filter]; [reflexivity|]. intros H. apply andb_true_iff in H as [H1 H2].
  unfold busy at 1. rewrite H1. cbn [negb]. auto.
Qed.

Lemma no_reader_mid a t b : no_reader (a ++ t :: b) = no_reader a && (Nat.eqb (rd t) 0 && no_reader b).
Proof. unfold no_reader. rewrite forallb_app. reflexivity. Qed.

Lemma step_excl a b : step a b -> excl a -> excl b.
Proof.
  intros [bf t af t' E] (H1 & H2).
  rewrite filter_app, app_length in H1. cbn [filter] in H1.
  destruct t as [td r w]. unfold advance in E. cbn [todo wr rd] in E.
  destruct td as [|[| | |] rest]; destruct w; try discriminate.
  - (* RLock *) destruct (no_writer (bf ++ _ :: af)) eqn:Ew; [|discriminate]. injection E as <-.
    split; [rewrite filter_app, app_length; exact H1|].
    intros (x & Hx & Hw). exfalso.
    unfold no_writer in Ew. rewrite forallb_forall in Ew. apply in_app_iff in Hx. destruct Hx as [Hx|[<-|Hx]]; [| discriminate Hw |];
      (specialize (Ew x); unfold is_wnone in Ew; rewrite Hw in Ew; specialize (Ew ltac:(apply in_or_app; cbn [In]; auto)); discriminate).
  - (* RUnlock *) destruct r; [discriminate|]. injection E as <-.
    split; [rewrite filter_app, app_length; exact H1|].
    intros (x & Hx & Hw). rewrite no_reader_mid in H2.
    exfalso. assert (In x (bf ++ mkThread (ARUnlock :: rest) (S r) WNone :: af)) as Hi.
    { apply in_app_iff in Hx. apply in_app_iff. destruct Hx as [Hx|[<-|Hx]]; [auto|discriminate Hw|right; right; assumption]. }
    specialize (H2 (ex_intro _ x (conj Hi Hw))). cbn [rd Nat.eqb andb] in H2. rewrite andb_false_r in H2. discriminate.
  - (* Lock announce *) destruct (no_writer (bf ++ _ :: af)) eqn:Ew; [|discriminate]. injection E as <-.
    pose proof (filter_busy_0 _ Ew) as Ef. rewrite filter_app in Ef. apply app_eq_nil in Ef as [Ef1 Ef2].
    cbn [filter busy is_wnone wr negb] in Ef2. split.
    + rewrite filter_app, app_length, Ef1. cbn [filter busy is_wnone wr negb length]. rewrite Ef2. cbn [length]. lia.
    + intros (x & Hx & Hw). exfalso. apply in_app_iff in Hx. unfold no_writer in Ew. rewrite forallb_forall in Ew.
      destruct Hx as [Hx|[<-|Hx]]; [| discriminate Hw |];
      (specialize (Ew x); unfold is_wnone in Ew; rewrite Hw in Ew; specialize (Ew ltac:(apply in_or_app; cbn [In]; auto)); discriminate).
  - (* Lock acquire *) destruct (no_reader (bf ++ _ :: af)) eqn:Er; [|discriminate]. injection E as <-.
    split; [rewrite filter_app, app_length; exact H1|]. intros _. rewrite no_reader_mid in *. exact Er.
  - (* Unlock *) injection E as <-. cbn [busy is_wnone wr negb length filter] in H1. split.
    + rewrite filter_app, app_length. cbn [filter busy is_wnone wr negb]. lia.
    + intros (x & Hx & Hw). rewrite no_reader_mid in *. cbn [rd] in *. apply H2. exists (mkThread (AUnlock :: rest) r WHeld).
      split; [apply in_or_app; right; left; reflexivity|reflexivity].
Qed.

Lemma steps_excl n a b : steps n a b -> excl a -> excl b.
Proof. induction 1; [auto|]. intros Hx. eapply step_excl; [eassumption|auto]. Qed.
