From Verif Require Import GoInt M_Cache S_Cache L_Cache.
From Coq Require Import ZifyBool.

(** running a sequence of operations; [None] once a call panics / does not return *)
Definition orun {S O} (step : S -> O -> option S) (ops : list O) (s : S) : option S :=
  fold_left (fun s o => match s with Some s => step s o | None => None end) ops (Some s).

Definition cmap_step (c : cmap) (o : mop) : option cmap :=
  match o with
  | MAdd k v => cmap_add c k v
  | MRemove k => Some (cmap_remove c k)
  | MClear => Some (cmap_clear c)
  end.
Definition cmap2_step (c : cmap2) (o : mop) : option cmap2 :=
  match o with
  | MAdd k v => cmap2_add c k v
  | MRemove k => Some (cmap2_remove c k)
  | MClear => Some (cmap2_clear c)
  end.

Lemma orun_none {S O} (step : S -> O -> option S) ops :
  fold_left (fun s o => match s with Some s => step s o | None => None end) ops None = None.
Proof. induction ops; [reflexivity|assumption]. Qed.

(* ------------------------------------------------------------------ *)
(** * The specification map *)
Lemma fm_find_alook k m : fm_find k m = match alook k m with Some v => Some (k, v) | None => None end.
Proof.
  induction m as [|[k' v'] m IH]; [reflexivity|]. unfold fm_find in *. cbn [find fst alook]. rewrite (Z.eqb_sym k' k), IH.
  destruct (Z.eqb_spec k k') as [->|]; reflexivity.
Qed.

Definition fm_ok (cap : Z) (m : fmap) : Prop := NoDup (map fst m) /\ zlen m <= cap.

Lemma nodup_snoc {A} (l : list A) x : NoDup l -> ~ In x l -> NoDup (l ++ [x]).
Proof.
  induction l as [|y l IH]; intros H Hn; cbn [app]; [constructor; [intros []|constructor]|].
  inversion H; subst. constructor.
  - rewrite in_app_iff. intros [Hi|[->|[]]]; [contradiction|apply Hn; left; reflexivity].
  - apply IH; [assumption|intros Hi; apply Hn; right; assumption].
Qed.

Lemma tl_keys (m : fmap) k : In k (map fst (tl m)) -> In k (map fst m).
Proof. destruct m; [intros []|right; assumption]. Qed.

Lemma fm_step_ok cap m o : 0 < cap -> fm_ok cap m -> fm_ok cap (fm_step cap m o).
Proof.
  intros Hc (N & L). destruct o as [k v|k|]; cbn [fm_step].
  - unfold fm_add. rewrite fm_find_alook. destruct (alook k m) eqn:E; [split; assumption|]. apply alook_none in E.
    assert (~ In k (map fst (if zlen m <? cap then m else tl m)) /\ NoDup (map fst (if zlen m <? cap then m else tl m))) as [H1 H2].
    { destruct (zlen m <? cap); [split; assumption|]. split; [intros H; apply E, tl_keys, H|]. destruct m; [constructor|inversion N; assumption]. }
    split; [rewrite map_app; apply nodup_snoc; assumption|]. rewrite zlen_app'. change (zlen [(k, v)]) with 1.
    destruct (zlen m <? cap) eqn:El; [lia|]. destruct m as [|e m]; cbn [tl]; [unfold zlen in *; cbn in *; lia|]. rewrite zlen_cons' in L. lia.
  - unfold fm_remove. rewrite <- adel_filter. split; [apply adel_nodup; assumption|]. pose proof (adel_zlen k m). lia.
  - split; [constructor|unfold zlen; cbn; lia].
Qed.

Lemma fm_run_ok cap ops : 0 < cap -> fm_ok cap (fm_run cap ops).
Proof.
  intros Hc. unfold fm_run. assert (fm_ok cap []) as H0 by (split; [constructor|unfold zlen; cbn; lia]).
  revert H0. generalize (@nil (Z * option Z)). induction ops as [|o ops IH]; intros m H; cbn [fold_left]; [assumption|].
  apply IH, fm_step_ok; assumption.
Qed.

(* ------------------------------------------------------------------ *)
(** * cachemap *)
Lemma lput_absent k v m : ~ In k (map fst m) -> lput k v m = m ++ [(k, v)].
Proof.
  induction m as [|[k' v'] m IH]; cbn [lput app map fst In]; intros H; [reflexivity|].
  destruct (Z.eqb_spec k k') as [->|]; [exfalso; apply H; left; reflexivity|]. rewrite IH by intuition. reflexivity.
Qed.

Lemma adel_head (k : Z) (v : option Z) m : NoDup (map fst ((k, v) :: m)) -> adel k ((k, v) :: m) = m.
Proof. intros H. exact (adel_split k v [] m H). Qed.

Lemma cmap_exceeded cap m : 0 < cap -> fm_ok cap m ->
  cmap_remove_exceeded (mkCmap cap m) = Some (mkCmap cap (if zlen m <? cap then m else tl m)).
Proof.
  intros Hc (N & L). unfold cmap_remove_exceeded. cbn [ctab cmax].
  replace (zlen m - cap <? 0) with (zlen m <? cap) by lia. destruct (zlen m <? cap) eqn:E; [reflexivity|].
  replace (Z.to_nat (zlen m - cap + 1)) with 1%nat by lia. destruct m as [|[k v] m]; [unfold zlen in E; cbn in E; lia|].
  cbn [take_keys fold_left tl]. rewrite adel_head by assumption. reflexivity.
Qed.

Lemma cmap_step_spec cap m o : 0 < cap -> fm_ok cap m ->
  cmap_step (mkCmap cap m) o = Some (mkCmap cap (fm_step cap m o)).
Proof.
  intros Hc Hm. destruct o as [k v|k|]; cbn [cmap_step fm_step].
  - unfold cmap_add, fm_add. cbn [ctab]. rewrite fm_find_alook. destruct (alook k m) eqn:E; [reflexivity|].
    rewrite cmap_exceeded by assumption. cbn [cmax ctab]. rewrite lput_absent; [reflexivity|]. apply alook_none in E.
    destruct (zlen m <? cap); [assumption|]. intros H. apply E, tl_keys, H.
  - unfold cmap_remove, fm_remove. cbn [ctab cmax]. rewrite adel_filter. reflexivity.
  - reflexivity.
Qed.

Lemma cmap_run_spec cap ops : 0 < cap -> orun cmap_step ops (cmap_new cap) = Some (mkCmap cap (fm_run cap ops)).
Proof.
  intros Hc. unfold orun, fm_run, cmap_new. assert (fm_ok cap []) as H0 by (split; [constructor|unfold zlen; cbn; lia]).
  revert H0. generalize (@nil (Z * option Z)). induction ops as [|o ops IH]; intros m H; cbn [fold_left]; [reflexivity|].
  rewrite cmap_step_spec by assumption. apply IH, fm_step_ok; assumption.
Qed.

Lemma take_keys_past n m : (length m < n)%nat -> take_keys n m = None.
Proof.
  revert m; induction n as [|n IH]; intros m H; [lia|]. destruct m as [|[k v] m]; [reflexivity|]. cbn [take_keys].
  rewrite IH; [reflexivity|]. cbn [length] in H. lia.
Qed.

Lemma cmap_nonpos cap m k v : cap <= 0 -> alook k m = None -> cmap_add (mkCmap cap m) k v = None.
Proof.
  intros Hc E. unfold cmap_add, cmap_remove_exceeded. cbn [ctab cmax]. rewrite E. unfold zlen.
  replace (Z.of_nat (length m) - cap <? 0) with false by lia. rewrite take_keys_past by lia. reflexivity.
Qed.

(* ------------------------------------------------------------------ *)
(** * cacheset: the keys of the same map *)
Inductive sop := SAdd (k : Z) | SClear.
Definition cset_step (c : cset) (o : sop) : option cset :=
  match o with SAdd k => cset_add c k | SClear => Some (cset_clear c) end.
Definition as_mop (o : sop) : mop := match o with SAdd k => MAdd k None | SClear => MClear end.

Lemma memb_alook k (m : fmap) : memb k (map fst m) = match alook k m with Some _ => true | None => false end.
Proof.
  unfold memb. destruct (alook k m) eqn:E.
  - apply existsb_keys. eapply alook_some_key; eassumption.
  - apply existsb_keys_false. apply alook_none. assumption.
Qed.

Lemma sdel_absent k l : ~ In k l -> sdel k l = l.
Proof.
  unfold sdel. induction l as [|x l IH]; cbn [filter In]; intros H; [reflexivity|].
  destruct (Z.eqb_spec k x) as [->|]; [exfalso; apply H; left; reflexivity|]. cbn [negb]. rewrite IH; intuition.
Qed.

Lemma cset_step_spec cap m o : 0 < cap -> fm_ok cap m ->
  cset_step (mkCset cap (map fst m)) o = Some (mkCset cap (map fst (fm_step cap m (as_mop o)))).
Proof.
  intros Hc (N & L). destruct o as [k|]; cbn [cset_step as_mop fm_step]; [|reflexivity].
  unfold cset_add, fm_add. cbn [stab]. rewrite memb_alook, fm_find_alook. destruct (alook k m) eqn:E; [reflexivity|].
  unfold cset_remove_exceeded. cbn [stab smax]. replace (zlen (map fst m)) with (zlen m) by (unfold zlen; rewrite map_length; reflexivity).
  replace (zlen m - cap <? 0) with (zlen m <? cap) by lia. destruct (zlen m <? cap) eqn:El.
  - cbn [smax stab]. rewrite map_app. reflexivity.
  - replace (Z.to_nat (zlen m - cap + 1)) with 1%nat by lia. destruct m as [|[k' v'] m]; [unfold zlen in El; cbn in El; lia|].
    cbn [map fst take_items fold_left tl smax stab]. inversion N as [|? ? Hn Hd]; subst. unfold sdel at 1. cbn [filter]. rewrite Z.eqb_refl. cbn [negb].
    fold (sdel k' (map fst m)). rewrite sdel_absent by assumption. rewrite map_app. reflexivity.
Qed.

Lemma cset_run_spec cap ops : 0 < cap -> orun cset_step ops (cset_new cap) = Some (mkCset cap (map fst (fm_run cap (map as_mop ops)))).
Proof.
  intros Hc. unfold orun, fm_run, cset_new. assert (fm_ok cap []) as H0 by (split; [constructor|unfold zlen; cbn; lia]).
  change (@nil Z) with (map fst (@nil (Z * option Z))).
  revert H0. generalize (@nil (Z * option Z)). induction ops as [|o ops IH]; intros m H; cbn [fold_left map]; [reflexivity|].
  rewrite cset_step_spec by assumption. apply IH, fm_step_ok; assumption.
Qed.

(* ------------------------------------------------------------------ *)
(** * cachemap2 *)
Definition no_remove (o : mop) : Prop := match o with MRemove _ => False | _ => True end.

Definition rel2 (cap : Z) (c : cmap2) (m : fmap) : Prop :=
  max2 c = cap /\ ord2 c = map fst m /\ (forall k, alook k (tab2 c) = alook k m).

Lemma pop_exceeded_spec cap m tab : 0 < cap -> fm_ok cap m -> (forall k, alook k tab = alook k m) ->
  exists t, pop_exceeded cap (map fst m) tab = Some (map fst (if zlen m <? cap then m else tl m), t) /\
            forall k, alook k t = alook k (if zlen m <? cap then m else tl m).
Proof.
  intros Hc (N & L) H. destruct m as [|[k0 v0] m].
  - cbn [map pop_exceeded]. replace (cap <=? 0) with false by lia. replace (zlen [] <? cap) with true by (unfold zlen; cbn; lia).
    exists tab. split; [reflexivity|exact H].
  - cbn [map fst pop_exceeded]. replace (zlen (k0 :: map fst m)) with (zlen ((k0, v0) :: m)) by (rewrite !zlen_cons'; unfold zlen; rewrite map_length; reflexivity).
    destruct (zlen ((k0, v0) :: m) <? cap) eqn:E.
    + replace (cap <=? zlen ((k0, v0) :: m)) with false by lia. exists tab. split; [reflexivity|exact H].
    + replace (cap <=? zlen ((k0, v0) :: m)) with true by lia. cbn [tl].
      assert (zlen m < cap) as Hl by (rewrite zlen_cons' in *; lia).
      assert (pop_exceeded cap (map fst m) (adel k0 tab) = Some (map fst m, adel k0 tab)) as ->.
      { destruct m as [|[k1 v1] m]; cbn [map fst pop_exceeded].
        - replace (cap <=? 0) with false by lia. reflexivity.
        - replace (zlen (k1 :: map fst m)) with (zlen ((k1, v1) :: m)) by (rewrite !zlen_cons'; unfold zlen; rewrite map_length; reflexivity).
          replace (cap <=? zlen ((k1, v1) :: m)) with false by lia. reflexivity. }
      exists (adel k0 tab). split; [reflexivity|]. intros k. rewrite alook_adel, H. cbn [alook].
      destruct (Z.eqb_spec k k0) as [->|]; [|reflexivity]. symmetry. apply alook_none. inversion N; assumption.
Qed.

Lemma alook_app {B} k (a b : list (Z * B)) : alook k (a ++ b) = match alook k a with Some v => Some v | None => alook k b end.
Proof. induction a as [|[k' v'] a IH]; [reflexivity|]. cbn [app alook]. destruct (k =? k'); [reflexivity|exact IH]. Qed.

Lemma cmap2_step_spec cap c m o : 0 < cap -> fm_ok cap m -> no_remove o -> rel2 cap c m ->
  exists c', cmap2_step c o = Some c' /\ rel2 cap c' (fm_step cap m o).
Proof.
  intros Hc Hm Ho (M & O & H). destruct o as [k v|k|]; [|destruct Ho|]; cbn [cmap2_step fm_step].
  - unfold cmap2_add, fm_add. rewrite H, fm_find_alook. destruct (alook k m) eqn:E.
    + exists c. split; [reflexivity|split; [assumption|split; assumption]].
    + rewrite M, O. destruct (pop_exceeded_spec cap m (tab2 c) Hc Hm H) as (t & -> & Ht).
      eexists. split; [reflexivity|]. split; [reflexivity|split]; cbn [ord2 tab2].
      * rewrite map_app. reflexivity.
      * intros k'. unfold aset. cbn [alook]. rewrite alook_adel, alook_app, Ht. cbn [alook].
        destruct (Z.eqb_spec k' k) as [->|]; [|destruct (alook k' _); reflexivity].
        assert (alook k (if zlen m <? cap then m else tl m) = None) as ->; [|reflexivity].
        apply alook_none in E. apply alook_none. destruct (zlen m <? cap); [assumption|]. intros Hi. apply E, tl_keys, Hi.
  - eexists. split; [reflexivity|]. split; [assumption|split; [reflexivity|reflexivity]].
Qed.

Lemma cmap2_run_spec cap ops : 0 < cap -> Forall no_remove ops ->
  exists c, orun cmap2_step ops (cmap2_new cap) = Some c /\ rel2 cap c (fm_run cap ops).
Proof.
  intros Hc Hf. unfold orun, fm_run. assert (fm_ok cap []) as H0 by (split; [constructor|unfold zlen; cbn; lia]).
  assert (rel2 cap (cmap2_new cap) []) as R0 by (split; [reflexivity|split; reflexivity]).
  revert H0 R0. generalize (@nil (Z * option Z)) (cmap2_new cap).
  induction ops as [|o ops IH]; intros m c H R; cbn [fold_left]; [exists c; split; [reflexivity|assumption]|].
  inversion Hf as [|? ? Ho Hfo]; subst.
  destruct (cmap2_step_spec cap c m o Hc H Ho R) as (c' & -> & R'). apply IH; [assumption|apply fm_step_ok; assumption|assumption].
Qed.

(** with Remove: still bounded, and Add still returns *)
Definition inv2 (cap : Z) (c : cmap2) : Prop :=
  max2 c = cap /\ zlen (ord2 c) <= cap /\ NoDup (map fst (tab2 c)) /\ incl (map fst (tab2 c)) (ord2 c).

Lemma pop_exceeded_inv cap : forall ord tab, 0 < cap -> NoDup (map fst tab) ->
  exists o t, pop_exceeded cap ord tab = Some (o, t) /\ zlen o < cap /\ NoDup (map fst t) /\
     (exists gone, ord = gone ++ o) /\ incl (map fst t) (map fst tab) /\ (incl (map fst tab) ord -> incl (map fst t) o).
Proof.
  induction ord as [|k ord IH]; intros tab Hc N; cbn [pop_exceeded].
  - replace (cap <=? 0) with false by lia. exists [], tab. split; [reflexivity|]. split; [unfold zlen; cbn; lia|].
    split; [assumption|split; [exists []; reflexivity|split; [apply incl_refl|auto]]].
  - destruct (cap <=? zlen (k :: ord)) eqn:E.
    + destruct (IH (adel k tab) Hc (adel_nodup k tab N)) as (o & t & -> & Hz & Hn & (gone & ->) & Hi & Hx).
      exists o, t. split; [reflexivity|split; [assumption|split; [assumption|split; [exists (k :: gone); reflexivity|split]]]].
      * intros x Hx'. apply Hi in Hx'. apply adel_keys in Hx'. apply Hx'.
      * intros Hall. apply Hx. intros x Hk. apply adel_keys in Hk as [Hne Hk]. apply Hall in Hk. destruct Hk; [congruence|assumption].
    + exists (k :: ord), tab. split; [reflexivity|split; [lia|split; [assumption|split; [exists []; reflexivity|split; [apply incl_refl|auto]]]]].
Qed.

Lemma cmap2_step_inv cap c o : 0 < cap -> inv2 cap c -> exists c', cmap2_step c o = Some c' /\ inv2 cap c'.
Proof.
  intros Hc (M & L & N & I). destruct o as [k v|k|]; cbn [cmap2_step].
  - unfold cmap2_add. destruct (alook k (tab2 c)) eqn:E; [exists c; split; [reflexivity|split; [assumption|split; [assumption|split; assumption]]]|].
    rewrite M. destruct (pop_exceeded_inv cap (ord2 c) (tab2 c) Hc N) as (o & t & -> & Hz & Hn & _ & Hi & Hx).
    eexists. split; [reflexivity|]. unfold inv2; cbn [max2 ord2 tab2]. split; [reflexivity|split].
    + rewrite zlen_app'. change (zlen [k]) with 1. lia.
    + unfold aset. cbn [map fst]. split.
      * constructor; [rewrite adel_keys; intuition|apply adel_nodup; assumption].
      * intros x [<-|Hk]; [apply in_or_app; right; left; reflexivity|]. apply adel_keys in Hk as [_ Hk]. apply in_or_app. left. apply Hx; assumption.
  - eexists. split; [reflexivity|]. unfold inv2, cmap2_remove; cbn [max2 ord2 tab2]. split; [assumption|split; [assumption|split]].
    + apply adel_nodup; assumption.
    + intros x Hk. apply adel_keys in Hk as [_ Hk]. apply I; assumption.
  - eexists. split; [reflexivity|]. unfold inv2, cmap2_clear; cbn [max2 ord2 tab2 map]. split; [assumption|split; [unfold zlen; cbn; lia|split; [constructor|intros x []]]].
Qed.

Lemma cmap2_run_inv cap ops : 0 < cap -> exists c, orun cmap2_step ops (cmap2_new cap) = Some c /\ inv2 cap c.
Proof.
  intros Hc. unfold orun. assert (inv2 cap (cmap2_new cap)) as R0.
  { unfold inv2, cmap2_new; cbn [max2 ord2 tab2 map]. split; [reflexivity|split; [unfold zlen; cbn; lia|split; [constructor|intros x []]]]. }
  revert R0. generalize (cmap2_new cap). induction ops as [|o ops IH]; intros c R; cbn [fold_left]; [exists c; split; [reflexivity|assumption]|].
  destruct (cmap2_step_inv cap c o Hc R) as (c' & -> & R'). apply IH. assumption.
Qed.

Lemma pop_exceeded_nonpos m : m <= 0 -> forall ord tab, pop_exceeded m ord tab = None.
Proof.
  intros H. induction ord as [|k ord IH]; intros tab; cbn [pop_exceeded]; [replace (m <=? 0) with true by lia; reflexivity|].
  replace (m <=? zlen (k :: ord)) with true by (unfold zlen; lia). apply IH.
Qed.
