From Verif Require Import GoInt M_Cache S_Cache.
From Coq Require Import ZifyBool Permutation.

(* ------------------------------------------------------------------ *)
(** * Association lists *)
Section Assoc.
Context {B : Type}.
Implicit Types (m : list (Z * B)) (k : Z).

Lemma alook_in k v m : NoDup (map fst m) -> (alook k m = Some v <-> In (k, v) m).
Proof.
  induction m as [|[k' v'] m IH]; cbn [alook map fst In]; intros Hn; [split; [discriminate|intros []]|].
  inversion Hn as [|? ? Hni Hnd]; subst. destruct (Z.eqb_spec k k') as [->|E].
  - split; [intros [= ->]; left; reflexivity|]. intros [[= ->]|H]; [reflexivity|].
    exfalso. apply Hni. apply (in_map fst) in H. exact H.
  - rewrite (IH Hnd). split; [right; assumption|]. intros [[= <- <-]|H]; [congruence|assumption].
Qed.

Lemma alook_none k m : alook k m = None <-> ~ In k (map fst m).
Proof.
  induction m as [|[k' v'] m IH]; cbn [alook map fst In]; [intuition|].
  destruct (Z.eqb_spec k k') as [->|E]; [split; [discriminate|intros H; exfalso; apply H; left; reflexivity]|].
  rewrite IH. intuition congruence.
Qed.

Lemma alook_some_key k v m : alook k m = Some v -> In k (map fst m).
Proof. intros H. destruct (in_dec Z.eq_dec k (map fst m)) as [i|n]; [assumption|]. apply alook_none in n. congruence. Qed.

Lemma alook_perm k m m' : NoDup (map fst m) -> Permutation m m' -> alook k m = alook k m'.
Proof.
  intros Hn Hp. assert (NoDup (map fst m')) as Hn' by (eapply Permutation_NoDup; [apply Permutation_map; exact Hp|exact Hn]).
  destruct (alook k m') as [v|] eqn:E.
  - apply alook_in in E; [|assumption]. apply alook_in; [assumption|]. eapply Permutation_in; [symmetry; exact Hp|exact E].
  - apply alook_none in E. apply alook_none. intros H. apply E. eapply Permutation_in; [apply Permutation_map; exact Hp|exact H].
Qed.

Lemma adel_keys k m x : In x (map fst (adel k m)) <-> x <> k /\ In x (map fst m).
Proof.
  induction m as [|[k' v'] m IH]; cbn [adel map fst In]; [intuition|].
  destruct (Z.eqb_spec k k') as [->|E]; cbn [map fst In]; rewrite IH; intuition congruence.
Qed.

Lemma adel_absent k m : ~ In k (map fst m) -> adel k m = m.
Proof.
  induction m as [|[k' v'] m IH]; cbn [adel map fst In]; intros H; [reflexivity|].
  destruct (Z.eqb_spec k k') as [->|E]; [exfalso; apply H; left; reflexivity|]. rewrite IH; [reflexivity|intuition].
Qed.

Lemma adel_nodup k m : NoDup (map fst m) -> NoDup (map fst (adel k m)).
Proof.
  induction m as [|[k' v'] m IH]; cbn [adel map fst]; intros H; [constructor|].
  inversion H as [|? ? Hn Hd]; subst. destruct (Z.eqb_spec k k') as [->|E]; [auto|].
  cbn [map fst]. constructor; [|auto]. rewrite adel_keys. intuition.
Qed.

Lemma adel_app k m m' : adel k (m ++ m') = adel k m ++ adel k m'.
Proof.
  induction m as [|[k' v'] m IH]; [reflexivity|]. cbn [adel app]. destruct (k =? k'); rewrite IH; reflexivity.
Qed.

Lemma adel_perm k m m' : Permutation m m' -> Permutation (adel k m) (adel k m').
Proof.
  induction 1 as [|[k1 v1] a b H IH|[k1 v1] [k2 v2] a|a b c H1 IH1 H2 IH2]; cbn [adel].
  - constructor.
  - destruct (k =? k1); [assumption|constructor; assumption].
  - destruct (k =? k1), (k =? k2); try reflexivity. constructor.
  - etransitivity; eassumption.
Qed.

Lemma alook_adel k k' m : alook k (adel k' m) = if k =? k' then None else alook k m.
Proof.
  induction m as [|[k0 v0] m IH]; cbn [adel alook]; [destruct (k =? k'); reflexivity|].
  destruct (Z.eqb_spec k' k0) as [->|E].
  - rewrite IH. destruct (k =? k0); reflexivity.
  - cbn [alook]. rewrite IH. destruct (Z.eqb_spec k k0) as [->|E2]; [|reflexivity].
    destruct (Z.eqb_spec k0 k'); [congruence|reflexivity].
Qed.

Lemma adel_filter k m : adel k m = filter (fun e => negb (fst e =? k)) m.
Proof.
  induction m as [|[k' v'] m IH]; [reflexivity|]. cbn [adel filter fst]. rewrite IH, (Z.eqb_sym k k').
  destruct (k' =? k); reflexivity.
Qed.

Lemma adel_split k v m1 m2 : NoDup (map fst (m1 ++ (k, v) :: m2)) -> adel k (m1 ++ (k, v) :: m2) = m1 ++ m2.
Proof.
  intros H. rewrite map_app in H. cbn [map fst] in H. apply NoDup_remove_2 in H.
  rewrite adel_app. cbn [adel]. rewrite Z.eqb_refl, !adel_absent; [reflexivity| |]; intros Hi; apply H; apply in_or_app; auto.
Qed.
End Assoc.

(** rm_elem and elem_at are the same on lists without repeated addresses *)
Lemma elem_at_alook a l : elem_at a l = alook a l.
Proof. induction l as [|[a' e] l IH]; [reflexivity|]. cbn [elem_at alook]. rewrite IH. reflexivity. Qed.
Lemma rm_elem_adel a l : NoDup (map fst l) -> rm_elem a l = adel a l.
Proof.
  induction l as [|[a' e] l IH]; [reflexivity|]. cbn [rm_elem adel map fst]. intros H. inversion H as [|? ? Hn Hd]; subst.
  destruct (Z.eqb_spec a a') as [->|E]; [rewrite adel_absent by assumption; reflexivity|]. rewrite IH by assumption. reflexivity.
Qed.

(* ------------------------------------------------------------------ *)
(** * lra: concrete invariant and its view *)

(** the list as (key, value) pairs, newest first *)
Definition ent (ae : Z * entry) : Z * option Z := (ekey (snd ae), evalue (snd ae)).
Definition view (c : lra) : list (Z * option Z) := map ent (lst c).
Definition tab_of (l : list (Z * entry)) : list (Z * Z) := map (fun ae => (ekey (snd ae), fst ae)) l.

Record wf (c : lra) : Prop := mkWf {
  wf_addr : NoDup (map fst (lst c));
  wf_fresh : forall a, In a (map fst (lst c)) -> a < fresh c;
  wf_keys : NoDup (map fst (view c));
  wf_tab : Permutation (table c) (tab_of (lst c))
}.

Lemma tab_of_keys l : map fst (tab_of l) = map fst (map ent l).
Proof. unfold tab_of. rewrite !map_map. reflexivity. Qed.

Lemma wf_table_nodup c : wf c -> NoDup (map fst (table c)).
Proof.
  intros W. eapply Permutation_NoDup; [symmetry; apply Permutation_map; exact (wf_tab c W)|].
  rewrite tab_of_keys. exact (wf_keys c W).
Qed.

Lemma wf_new cap : wf (lra_new cap).
Proof. constructor; cbn; try constructor. intros a []. Qed.

(** looking a key up through the table is looking it up in the view *)
Lemma table_lookup c k : wf c ->
  match alook k (table c) with
  | Some a => exists v l1 l2, lst c = l1 ++ (a, mkEntry k v) :: l2 /\ alook k (view c) = Some v /\ elem_at a (lst c) = Some (mkEntry k v)
  | None => alook k (view c) = None
  end.
Proof.
  intros W. destruct (alook k (table c)) as [a|] eqn:E.
  - apply alook_in in E; [|apply wf_table_nodup; assumption].
    apply (Permutation_in _ (wf_tab c W)) in E. unfold tab_of in E. apply in_map_iff in E as [[a' [k' v]] [[= <- <-] Hin]].
    destruct (in_split _ _ Hin) as (l1 & l2 & El). exists v, l1, l2. split; [assumption|]. cbn [ekey fst snd]. split.
    + apply alook_in; [exact (wf_keys c W)|]. unfold view. apply in_map_iff. exists (a', mkEntry k' v). split; [reflexivity|assumption].
    + rewrite elem_at_alook. apply alook_in; [exact (wf_addr c W)|assumption].
  - apply alook_none in E. apply alook_none. intros H. apply E.
    eapply Permutation_in; [symmetry; apply Permutation_map; exact (wf_tab c W)|]. rewrite tab_of_keys. exact H.
Qed.

Lemma lra_contains_view c k : wf c -> lra_contains c k = match alook k (view c) with Some _ => true | None => false end.
Proof.
  intros W. pose proof (table_lookup c k W) as H. unfold lra_contains.
  destruct (alook k (table c)); [destruct H as (v & ? & ? & _ & -> & _)|rewrite H]; reflexivity.
Qed.
Lemma lra_get_view c k : wf c -> lra_get c k = match alook k (view c) with Some v => v | None => None end.
Proof.
  intros W. pose proof (table_lookup c k W) as H. unfold lra_get.
  destruct (alook k (table c)); [destruct H as (v & ? & ? & _ & -> & ->)|rewrite H]; reflexivity.
Qed.
Lemma lra_size_view c : lra_size c = zlen (view c).
Proof. unfold lra_size, view, zlen. rewrite map_length. reflexivity. Qed.

(** iterating over the table in any order visits the view in some order *)
Lemma entries_of_perm c it : wf c -> Permutation it (table c) -> Permutation (entries_of c it) (view c).
Proof.
  intros W Hp. assert (Permutation it (tab_of (lst c))) as Hq by (etransitivity; [exact Hp|exact (wf_tab c W)]).
  assert (forall l, (forall x, In x l -> In x (lst c)) -> entries_of c (tab_of l) = map ent l) as Hid.
  { induction l as [|[a e] l IH]; intros H; [reflexivity|]. cbn [tab_of map fst snd entries_of].
    assert (elem_at a (lst c) = Some e) as ->.
    { rewrite elem_at_alook. apply alook_in; [exact (wf_addr c W)|apply H; left; reflexivity]. }
    f_equal. apply IH. intros x Hx. apply H. right. assumption. }
  rewrite <- (Hid (lst c) (fun x H => H)) at 1. fold (tab_of (lst c)).
  clear Hid Hp. induction Hq as [|[k1 a1] x y H IH|[k1 a1] [k2 a2] x|x y z H1 IH1 H2 IH2]; cbn [entries_of].
  - constructor.
  - destruct (elem_at a1 (lst c)); [constructor|]; assumption.
  - destruct (elem_at a1 (lst c)), (elem_at a2 (lst c)); try reflexivity. constructor.
  - etransitivity; eassumption.
Qed.

(** effect of an element leaving *)
Lemma remove_element_view c a e l1 l2 : wf c -> lst c = l1 ++ (a, e) :: l2 ->
  let c' := fst (remove_element c a e) in
  wf c' /\ lst c' = l1 ++ l2 /\ view c' = adel (ekey e) (view c) /\ lmax c' = lmax c.
Proof.
  intros W E c'. assert (lst c' = l1 ++ l2) as El.
  { cbn. rewrite rm_elem_adel by exact (wf_addr c W). rewrite E. apply adel_split. rewrite <- E. exact (wf_addr c W). }
  assert (view c' = adel (ekey e) (view c)) as Ev.
  { unfold view. rewrite El, E, !map_app. cbn [map ent snd fst]. symmetry.
    pose proof (wf_keys c W) as Hn. unfold view in Hn. rewrite E, map_app in Hn. cbn [map] in Hn. exact (adel_split _ _ _ _ Hn). }
  split; [|split; [assumption|split; [assumption|reflexivity]]]. constructor.
  - rewrite El. pose proof (wf_addr c W) as H. rewrite E, map_app in H. cbn [map] in H. rewrite map_app. exact (NoDup_remove_1 _ _ _ H).
  - intros a' Ha. cbn [fresh c' remove_element fst]. apply (wf_fresh c W). rewrite El in Ha. rewrite E.
    rewrite map_app in *. apply in_app_iff in Ha. apply in_app_iff. cbn [map In]. intuition.
  - rewrite Ev. apply adel_nodup. exact (wf_keys c W).
  - rewrite El. cbn [table c' remove_element fst]. rewrite (adel_perm (ekey e) _ _ (wf_tab c W)), E.
    unfold tab_of. rewrite !map_app. cbn [map snd fst].
    rewrite adel_split; [reflexivity|]. pose proof (wf_keys c W) as Hn. unfold view in Hn.
    rewrite <- tab_of_keys, E in Hn. unfold tab_of in Hn. rewrite map_app in Hn. exact Hn.
Qed.

Fixpoint vset (k : Z) (v : option Z) (m : list (Z * option Z)) :=
  match m with
  | [] => []
  | (k', v') :: m' => if k =? k' then (k', v) :: m' else (k', v') :: vset k v m'
  end.
Lemma vset_keys k v m : map fst (vset k v m) = map fst m.
Proof. induction m as [|[k' v'] m IH]; [reflexivity|]. cbn [vset]. destruct (k =? k'); cbn [map fst]; congruence. Qed.
Lemma vset_split k v v' m1 m2 : NoDup (map fst (m1 ++ (k, v') :: m2)) -> vset k v (m1 ++ (k, v') :: m2) = m1 ++ (k, v) :: m2.
Proof.
  induction m1 as [|[k1 v1] m1 IH]; cbn [vset app map fst]; intros H.
  - rewrite Z.eqb_refl. reflexivity.
  - inversion H as [|? ? Hn Hd]; subst. destruct (Z.eqb_spec k k1) as [->|E].
    + exfalso. apply Hn. rewrite map_app. apply in_or_app. right. left. reflexivity.
    + rewrite IH by assumption. reflexivity.
Qed.
Lemma alook_vset k k' v m : alook k (vset k' v m) = if (k =? k') then match alook k m with Some _ => Some v | None => None end else alook k m.
Proof.
  induction m as [|[k0 v0] m IH]; cbn [vset alook]; [destruct (k =? k'); reflexivity|].
  destruct (Z.eqb_spec k' k0) as [->|E]; cbn [alook].
  - destruct (k =? k0); reflexivity.
  - rewrite IH. destruct (Z.eqb_spec k k0) as [->|E2]; [|reflexivity]. destruct (Z.eqb_spec k0 k'); [congruence|reflexivity].
Qed.

Lemma set_elem_split a v e l1 l2 : NoDup (map fst (l1 ++ (a, e) :: l2)) ->
  set_elem a v (l1 ++ (a, e) :: l2) = l1 ++ (a, mkEntry (ekey e) v) :: l2.
Proof.
  induction l1 as [|[a1 e1] l1 IH]; cbn [set_elem app map fst]; intros H.
  - rewrite Z.eqb_refl. reflexivity.
  - inversion H as [|? ? Hn Hd]; subst. destruct (Z.eqb_spec a a1) as [->|E].
    + exfalso. apply Hn. rewrite map_app. apply in_or_app. right. left. reflexivity.
    + rewrite IH by assumption. reflexivity.
Qed.

Lemma add_present c k v : wf c -> alook k (view c) <> None ->
  let c' := fst (lra_add c k v) in wf c' /\ view c' = vset k v (view c) /\ snd (lra_add c k v) = [] /\ lmax c' = lmax c.
Proof.
  intros W Hp c'. pose proof (table_lookup c k W) as H. unfold c', lra_add.
  destruct (alook k (table c)) as [a|]; [|contradiction].
  destruct H as (v0 & l1 & l2 & E & _ & _). cbn [fst snd].
  pose proof (wf_addr c W) as Ha. pose proof (wf_keys c W) as Hk. pose proof (wf_tab c W) as Ht. pose proof (wf_fresh c W) as Hf.
  assert (set_elem a v (lst c) = l1 ++ (a, mkEntry k v) :: l2) as Es.
  { rewrite E. apply set_elem_split. rewrite <- E. exact Ha. }
  assert (Hv : map ent (l1 ++ (a, mkEntry k v) :: l2) = vset k v (view c)).
  { unfold view in *. rewrite E in Hk |- *. rewrite !map_app in Hk |- *. cbn [map] in Hk |- *. change (ent (a, mkEntry k v0)) with (k, v0) in Hk |- *. change (ent (a, mkEntry k v)) with (k, v).
    rewrite (vset_split k v v0) by (rewrite map_app; exact Hk). reflexivity. }
  split; [|unfold view at 1; cbn [lst]; rewrite Es; split; [exact Hv|split; reflexivity]].
  constructor; cbn [lst table fresh]; unfold view; cbn [lst]; rewrite Es.
  - rewrite E, map_app in Ha. rewrite map_app. exact Ha.
  - intros x Hx. apply Hf. rewrite E. rewrite map_app in *. exact Hx.
  - rewrite Hv, vset_keys. exact Hk.
  - rewrite Ht, E. unfold tab_of. rewrite !map_app. reflexivity.
Qed.

Lemma back_snoc {A} (x : A) l : back (l ++ [x]) = Some x.
Proof. induction l as [|y l IH]; [reflexivity|]. cbn [app back]. destruct (l ++ [x]) eqn:E; [destruct l; discriminate|exact IH]. Qed.

Lemma add_push_wf c k v : wf c -> alook k (view c) = None ->
  wf (mkLra (lmax c) ((fresh c, mkEntry k v) :: lst c) (aset k (fresh c) (table c)) (fresh c + 1)).
Proof.
  intros W Hn. pose proof (proj1 (alook_none _ _) Hn) as Hni.
  pose proof (wf_addr c W) as Ha. pose proof (wf_keys c W) as Hk. pose proof (wf_tab c W) as Ht. pose proof (wf_fresh c W) as Hf.
  constructor; cbn [lst table fresh view map fst snd].
  - constructor; [|exact Ha]. intros Hx. apply Hf in Hx. lia.
  - intros x [<-|Hx]; [lia|]. apply Hf in Hx. lia.
  - constructor; assumption.
  - unfold aset. rewrite adel_absent.
    + cbn [tab_of map fst snd ekey]. constructor. exact Ht.
    + intros Hx. apply Hni. unfold view. rewrite <- tab_of_keys.
      eapply Permutation_in; [apply Permutation_map; exact Ht|exact Hx].
Qed.

(** adding a new key: the view gets the new entry in front and, when the capacity is exceeded,
    loses its last (oldest) entry *)
Lemma add_absent c k v : wf c -> alook k (view c) = None ->
  let c' := fst (lra_add c k v) in let out := snd (lra_add c k v) in
  wf c' /\ lmax c' = lmax c /\
  (if negb (lmax c =? 0) && (lmax c <? zlen (view c) + 1)
   then exists l o, (k, v) :: view c = l ++ [o] /\ view c' = l /\ out = [o]
   else view c' = (k, v) :: view c /\ out = []).
Proof.
  intros W Hn c' out. pose proof (add_push_wf c k v W Hn) as W1.
  assert (alook k (table c) = None) as Et.
  { pose proof (table_lookup c k W) as H. destruct (alook k (table c)); [destruct H as (? & ? & ? & _ & H & _); congruence|reflexivity]. }
  subst c' out. unfold lra_add. rewrite Et.
  set (c1 := mkLra (lmax c) ((fresh c, mkEntry k v) :: lst c) (aset k (fresh c) (table c)) (fresh c + 1)) in *.
  cbn [lst]. replace (zlen (lst c1)) with (zlen (view c) + 1) by (unfold view, zlen; cbn [c1 lst length]; rewrite map_length; lia).
  destruct (negb (lmax c =? 0) && (lmax c <? zlen (view c) + 1)); [|cbn [fst snd]; split; [assumption|split; [reflexivity|split; reflexivity]]].
  assert (lst c1 <> []) as Hne by discriminate.
  destruct (exists_last Hne) as (l & [a e] & El). unfold remove_oldest. rewrite El, back_snoc.
  destruct (remove_element_view c1 a e l [] W1 El) as (W2 & L2 & V2 & M2).
  split; [exact W2|]. split; [rewrite M2; reflexivity|].
  exists (map ent l), (ent (a, e)). split; [|split].
  - change ((k, v) :: view c) with (view c1). unfold view at 1. rewrite El, map_app. reflexivity.
  - unfold view at 1. rewrite L2, app_nil_r. reflexivity.
  - reflexivity.
Qed.

Lemma remove_view c k : wf c ->
  let c' := fst (lra_remove c k) in
  wf c' /\ lmax c' = lmax c /\ view c' = adel k (view c) /\
  snd (lra_remove c k) = match alook k (view c) with Some v => [(k, v)] | None => [] end.
Proof.
  intros W c'. pose proof (table_lookup c k W) as H. unfold c', lra_remove.
  destruct (alook k (table c)) as [a|].
  - destruct H as (v & l1 & l2 & E & -> & ->). destruct (remove_element_view c a _ l1 l2 W E) as (W2 & _ & V2 & M2).
    split; [exact W2|split; [exact M2|split; [exact V2|reflexivity]]].
  - rewrite H. split; [assumption|split; [reflexivity|split; [|reflexivity]]]. cbn [fst].
    symmetry. apply adel_absent. apply alook_none. assumption.
Qed.

(* ------------------------------------------------------------------ *)
(** * Histories *)

Definition left_events (out : list (Z * option Z)) : list event := rev (map (fun kv => ELeft (fst kv) (snd kv)) out).

(** states reachable by any sequence of calls, with the log of additions and departures, newest first *)
Inductive lra_run (cap : Z) : list event -> lra -> Prop :=
| run_new : lra_run cap [] (lra_new cap)
| run_add log c k v : lra_run cap log c ->
    lra_run cap (left_events (snd (lra_add c k v)) ++ EAdd k v :: log) (fst (lra_add c k v))
| run_remove log c k : lra_run cap log c ->
    lra_run cap (left_events (snd (lra_remove c k)) ++ log) (fst (lra_remove c k))
| run_clear log c it : lra_run cap log c -> Permutation it (table c) ->
    lra_run cap (left_events (snd (lra_clear c it)) ++ log) (fst (lra_clear c it)).

(** every departure reports the current value of a present key *)
Fixpoint sound_log (log : list event) : Prop :=
  match log with
  | [] => True
  | EAdd _ _ :: older => sound_log older
  | ELeft k v :: older => holds older k = Some v /\ sound_log older
  end.

Definition agrees (log : list event) (m : list (Z * option Z)) : Prop :=
  sound_log log /\ NoDup (map fst m) /\ fifo log = rev (map fst m) /\ forall k, holds log k = alook k m.

Lemma existsb_keys k l : existsb (Z.eqb k) l = true <-> In k l.
Proof. rewrite existsb_exists. split; [intros (x & H & E); apply Z.eqb_eq in E; congruence|intros H; exists k; split; [assumption|apply Z.eqb_refl]]. Qed.
Lemma existsb_keys_false k l : existsb (Z.eqb k) l = false <-> ~ In k l.
Proof. rewrite <- existsb_keys. destruct (existsb (Z.eqb k) l); intuition congruence. Qed.

Lemma agrees_set log m k v : agrees log m -> alook k m <> None -> agrees (EAdd k v :: log) (vset k v m).
Proof.
  intros (S & N & F & H) Hp. split; [exact S|split; [rewrite vset_keys; exact N|split]].
  - cbn [fifo]. rewrite vset_keys, F.
    replace (existsb (Z.eqb k) (rev (map fst m))) with true; [reflexivity|]. symmetry. apply existsb_keys. rewrite <- in_rev.
    destruct (alook k m) eqn:E; [eapply alook_some_key; eassumption|contradiction].
  - intros k'. cbn [holds]. rewrite alook_vset, H. destruct (Z.eqb_spec k' k) as [->|]; [|reflexivity].
    destruct (alook k m); [reflexivity|contradiction].
Qed.

Lemma agrees_push log m k v : agrees log m -> alook k m = None -> agrees (EAdd k v :: log) ((k, v) :: m).
Proof.
  intros (S & N & F & H) Hp. apply alook_none in Hp. split; [exact S|split; [cbn [map fst]; constructor; assumption|split]].
  - cbn [fifo map fst rev]. rewrite F.
    replace (existsb (Z.eqb k) (rev (map fst m))) with false; [reflexivity|]. symmetry. apply existsb_keys_false. rewrite <- in_rev. assumption.
  - intros k'. cbn [holds alook]. rewrite H. reflexivity.
Qed.

Lemma map_fst_adel (k : Z) (m : list (Z * option Z)) : map fst (adel k m) = filter (fun x => negb (x =? k)) (map fst m).
Proof.
  induction m as [|[k' v'] m IH]; [reflexivity|]. cbn [adel map fst filter]. rewrite (Z.eqb_sym k k').
  destruct (k' =? k); cbn [negb map fst]; rewrite IH; reflexivity.
Qed.
Lemma filter_rev {A} (f : A -> bool) l : filter f (rev l) = rev (filter f l).
Proof.
  induction l as [|x l IH]; [reflexivity|]. cbn [rev filter]. rewrite filter_app, IH. cbn [filter].
  destruct (f x); cbn [rev]; [reflexivity|apply app_nil_r].
Qed.

Lemma agrees_leave log m k v : agrees log m -> alook k m = Some v -> agrees (ELeft k v :: log) (adel k m).
Proof.
  intros (S & N & F & H) Hp. split; [split; [rewrite H; exact Hp|exact S]|split; [apply adel_nodup; exact N|split]].
  - cbn [fifo]. rewrite F, map_fst_adel, filter_rev. reflexivity.
  - intros k'. cbn [holds]. rewrite alook_adel, H. reflexivity.
Qed.

Lemma agrees_leave_all out : forall log m, agrees log m -> Permutation out m -> agrees (left_events out ++ log) [].
Proof.
  induction out as [|[k v] out IH]; intros log m A P.
  - apply Permutation_nil in P. subst m. exact A.
  - unfold left_events. cbn [map rev fst snd]. rewrite <- app_assoc. cbn [app].
    apply (IH (ELeft k v :: log) (adel k m)).
    + apply agrees_leave; [assumption|]. apply alook_in; [apply A|]. eapply Permutation_in; [exact P|left; reflexivity].
    + assert (NoDup (map fst ((k, v) :: out))) as Hn.
      { eapply Permutation_NoDup; [symmetry; apply Permutation_map; exact P|apply A]. }
      cbn [map fst] in Hn. inversion Hn as [|? ? Hni Hnd]; subst.
      rewrite <- (adel_perm k _ _ P). cbn [adel]. rewrite Z.eqb_refl, adel_absent by assumption. reflexivity.
Qed.

(** bound on the number of entries *)
Definition bounded (cap : Z) (m : list (Z * option Z)) : Prop := 0 < cap -> zlen m <= cap.

Lemma zlen_app' {A} (a b : list A) : zlen (a ++ b) = zlen a + zlen b.
Proof. unfold zlen. rewrite app_length. lia. Qed.
Lemma zlen_cons' {A} (a : A) b : zlen (a :: b) = zlen b + 1.
Proof. unfold zlen. cbn [length]. lia. Qed.

Lemma adel_zlen {B} k (m : list (Z * B)) : zlen (adel k m) <= zlen m.
Proof. induction m as [|[k' v'] m IH]; cbn [adel]; [lia|]. destruct (k =? k'); rewrite ?zlen_cons' in *; lia. Qed.

Theorem lra_run_inv cap log c : lra_run cap log c ->
  wf c /\ lmax c = cap /\ agrees log (view c) /\ bounded cap (view c).
Proof.
  induction 1 as [|log c k v R (W & M & A & Bd)|log c k R (W & M & A & Bd)|log c it R (W & M & A & Bd) P].
  - split; [apply wf_new|split; [reflexivity|split]].
    + split; [exact I|split; [constructor|split; [reflexivity|reflexivity]]].
    + intros H. cbn. unfold zlen; cbn; lia.
  - destruct (alook k (view c)) as [v0|] eqn:E.
    + destruct (add_present c k v W) as (W' & V' & O' & M'); [congruence|].
      rewrite O', V'. cbn [left_events map rev app]. split; [assumption|split; [congruence|split]].
      * apply agrees_set; [assumption|congruence].
      * intros Hc. unfold zlen. rewrite <- (map_length fst), vset_keys, map_length. exact (Bd Hc).
    + destruct (add_absent c k v W E) as (W' & M' & H). rewrite M in H. split; [assumption|split; [congruence|]].
      pose proof (agrees_push log (view c) k v A E) as Ap.
      destruct (negb (cap =? 0) && (cap <? zlen (view c) + 1)) eqn:Eb.
      * destruct H as (l & [ko vo] & El & V' & O'). rewrite V', O'. unfold left_events. cbn [map rev app fst snd].
        pose proof Ap as Ap'. rewrite El in Ap'.
        assert (NoDup (map fst (l ++ [(ko, vo)]))) as Hn by apply Ap'.
        split.
        -- pose proof (agrees_leave _ _ ko vo Ap') as L. rewrite (adel_split ko vo l [] Hn), app_nil_r in L. apply L.
           apply alook_in; [exact Hn|apply in_or_app; right; left; reflexivity].
        -- intros Hc. specialize (Bd Hc). pose proof (f_equal zlen El) as Z1. rewrite zlen_app', zlen_cons' in Z1.
           change (zlen [(ko, vo)]) with 1 in Z1. lia.
      * destruct H as (V' & O'). rewrite V', O'. cbn [left_events map rev app]. split; [exact Ap|].
        intros Hc. rewrite zlen_cons'. lia.
  - destruct (remove_view c k W) as (W' & M' & V' & O'). split; [assumption|split; [congruence|]]. rewrite V', O'.
    destruct (alook k (view c)) as [v|] eqn:E.
    + split; [apply agrees_leave; assumption|]. intros Hc. pose proof (adel_zlen k (view c)). specialize (Bd Hc). lia.
    + rewrite adel_absent by (apply alook_none; assumption). split; assumption.
  - split; [|split; [exact M|split]].
    + constructor; cbn; try constructor. intros a [].
    + apply (agrees_leave_all _ _ _ A). apply entries_of_perm; assumption.
    + intros Hc. cbn. unfold zlen; cbn; lia.
Qed.

(** inserts = leaves + presence *)
Lemma inserts_leaves log k : sound_log log ->
  inserts k log = (leaves k log + match holds log k with Some _ => 1 | None => 0 end)%nat.
Proof.
  induction log as [|[k' v|k' v] log IH]; cbn [sound_log inserts leaves holds]; intros S; [reflexivity| |].
  - rewrite (IH S). destruct (Z.eqb_spec k k') as [->|E]; cbn [andb]; destruct (holds log k') eqn:E1; rewrite ?E1; try lia.
  - destruct S as [Hh S]. rewrite (IH S). destruct (Z.eqb_spec k k') as [->|E]; [rewrite Hh|]; lia.
Qed.
