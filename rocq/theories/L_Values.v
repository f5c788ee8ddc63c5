(** Lemmas for C84. *)
From Verif Require Import GoInt M_Cache S_Cache L_Cache M_Values S_Values.
From Coq Require Import Permutation.

Lemma alook_In {B} k (v : B) m : alook k m = Some v -> In (k, v) m.
Proof. induction m as [|[k' v'] m IH]; cbn; [discriminate|]. destruct (Z.eqb_spec k k') as [->|]; [intros [= ->]; left; reflexivity|intros H; right; auto]. Qed.
Lemma elem_In a e l : elem_at a l = Some e -> In (a, e) l.
Proof. rewrite elem_at_alook. apply alook_In. Qed.
Lemma elem_some a l : In a (map fst l) -> exists e, elem_at a l = Some e.
Proof. induction l as [|[a' e] l IH]; cbn; [intros []|]. destruct (Z.eqb_spec a a') as [->|N]; [eauto|]. intros [E|H]; [congruence|auto]. Qed.

Lemma cop_wf o c : wf c -> wf (cop_do o c).
Proof.
  intros W. destruct o as [k v|k|]; cbn [cop_do].
  - destruct (alook k (view c)) eqn:E; [apply (add_present c k v W); congruence|apply (add_absent c k v W E)].
  - apply (remove_view c k W).
  - constructor; cbn; try constructor. intros a [].
Qed.
Lemma cop_same o c k : wf c -> lra_contains c k = true -> lra_contains (cop_do o c) k = true -> alook k (table (cop_do o c)) = alook k (table c).
Proof.
  unfold lra_contains. intros W H H'. destruct o as [k' v|k'|]; cbn [cop_do] in *.
  - unfold lra_add in *. destruct (alook k' (table c)) as [a|] eqn:E; [reflexivity|]. assert (k <> k') as Ne by (intros ->; rewrite E in H; discriminate).
    assert (alook k (aset k' (fresh c) (table c)) = alook k (table c)) as Ea.
    { unfold aset. cbn [alook]. destruct (Z.eqb_spec k k'); [contradiction|]. rewrite alook_adel. destruct (Z.eqb_spec k k'); [contradiction|reflexivity]. }
    set (c1 := mkLra (lmax c) ((fresh c, mkEntry k' v) :: lst c) (aset k' (fresh c) (table c)) (fresh c + 1)) in *. cbv zeta in *.
    change (alook k (table c1) = alook k (table c)) in Ea.
    destruct (negb (lmax c =? 0) && _); [|exact Ea]. unfold remove_oldest in *. destruct (back (lst c1)) as [[a e]|]; [|exact Ea]. cbn [remove_element fst table] in *.
    rewrite alook_adel in *. destruct (k =? ekey e); [discriminate|exact Ea].
  - unfold lra_remove in *. destruct (alook k' (table c)); [|reflexivity]. destruct (elem_at _ _); [|reflexivity]. cbn [remove_element fst table] in *. rewrite alook_adel in *. destruct (k =? _); [discriminate|reflexivity].
  - discriminate.
Qed.
(** an element in the list of a proper cache is what its key leads to *)
Lemma in_list_held c a k v : wf c -> In (a, mkEntry k v) (lst c) -> alook k (table c) = Some a /\ held c k v.
Proof.
  intros W H. assert (alook k (table c) = Some a) as T.
  { apply alook_in; [apply wf_table_nodup; exact W|]. eapply Permutation_in; [symmetry; exact (wf_tab c W)|]. unfold tab_of. apply in_map_iff. exists (a, mkEntry k v). split; [reflexivity|exact H]. }
  split; [exact T|]. unfold held, lra_contains, lra_get. rewrite T. split; [reflexivity|]. rewrite elem_at_alook. rewrite (proj2 (alook_in a (mkEntry k v) _ (wf_addr c W)) H). reflexivity.
Qed.

Definition cur_list (o : option Z) : list Z := match o with Some a => [a] | None => [] end.
Record inv (cs : list lra) (s : vsys) (ps : list (Z * value)) : Prop := {
  iv_here : In (v_cache s) cs;
  iv_wf : Forall wf cs;
  iv_gone : forall a e, In (a, e) (v_gone s) -> exists c, In c cs /\ In (a, e) (lst c);
  iv_out : i_out (v_it s) = non_nil (map snd ps);
  iv_seen : Permutation (i_seen (v_it s)) (cur_list (i_cur (v_it s)) ++ map fst ps);
  iv_once : NoDup (i_seen (v_it s));
  iv_ps : forall a v, In (a, v) ps -> exists c k, In c cs /\ In (a, mkEntry k v) (lst c);
  iv_tab : forall k a, In (k, a) (i_table s) -> In a (map fst (lst (v_cache s)) ++ map fst (v_gone s));
  iv_cur : forall a, i_cur (v_it s) = Some a -> In a (map fst (lst (v_cache s)) ++ map fst (v_gone s)) }.

Lemma table_in_list c k a : wf c -> In (k, a) (table c) -> In a (map fst (lst c)).
Proof.
  intros W H. apply (Permutation_in _ (wf_tab c W)) in H. unfold tab_of in H. apply in_map_iff in H as ([a' e] & [= _ <-] & H). apply in_map_iff. exists (a', e). split; [reflexivity|exact H].
Qed.
Lemma non_nil_app a b : non_nil (a ++ b) = non_nil a ++ non_nil b.
Proof. apply filter_app. Qed.
Lemma element_in s a e : element s a = Some e -> In (a, e) (lst (v_cache s)) \/ In (a, e) (v_gone s).
Proof. unfold element. destruct (elem_at a (lst (v_cache s))) eqn:E; intros H; [injection H as <-; left|right]; apply elem_In; assumption. Qed.
Lemma element_some s a : In a (map fst (lst (v_cache s)) ++ map fst (v_gone s)) -> exists e, element s a = Some e.
Proof.
  intros H. unfold element. destruct (elem_at a (lst (v_cache s))) eqn:E; [eauto|]. apply in_app_or in H as [H|H]; [destruct (elem_some _ _ H); congruence|apply elem_some; exact H].
Qed.

Lemma listing_inv c0 cs s : wf c0 -> listing c0 cs s -> exists ps, inv cs s ps.
Proof.
  intros W0. induction 1 as [|cs s o L IH|cs s k a L IH Hc Hi Hn|cs s a e L IH Hc He].
  - exists []. constructor; cbn; auto; try (intros ? ? []); try discriminate; [constructor|].
    intros k a H. rewrite app_nil_r. eapply table_in_list; eassumption.
  - destruct IH as (ps & [A B C D E F G H I]). pose proof (proj1 (Forall_forall _ _) B _ A) as Wc. pose proof (cop_wf o _ Wc) as Wc'. exists ps.
    assert (forall a, In a (map fst (lst (v_cache s)) ++ map fst (v_gone s)) -> In a (map fst (lst (v_cache (v_write o s))) ++ map fst (v_gone (v_write o s)))) as Mono.
    { intros a Ha. cbn [v_write v_cache v_gone]. apply in_app_or in Ha as [Ha|Ha]; [|apply in_or_app; right; rewrite map_app; apply in_or_app; right; exact Ha].
      destruct (existsb (Z.eqb a) (map fst (lst (cop_do o (v_cache s))))) eqn:X.
      - apply in_or_app. left. apply existsb_exists in X as (b & Hb & Eb). apply Z.eqb_eq in Eb. subst b. exact Hb.
      - apply in_or_app. right. rewrite map_app. apply in_or_app. left. apply in_map_iff in Ha as ([a' e] & E' & Ha). cbn in E'. subst a'. apply in_map_iff. exists (a, e). split; [reflexivity|]. apply filter_In. split; [exact Ha|]. cbn [fst]. rewrite X. reflexivity. }
    constructor.
    + left. reflexivity.
    + constructor; [exact Wc'|exact B].
    + intros a e Hg. cbn [v_write v_gone] in Hg. apply in_app_or in Hg as [Hg|Hg].
      * apply filter_In in Hg as (Hg & _). exists (v_cache s). split; [right; exact A|exact Hg].
      * destruct (C a e Hg) as (c & Hc & Hl). exists c. split; [right; exact Hc|exact Hl].
    + exact D.
    + exact E.
    + exact F.
    + intros a v Hp. destruct (G a v Hp) as (c & k & Hc & Hl). exists c, k. split; [right; exact Hc|exact Hl].
    + intros k a Ht. unfold i_table in *. cbn [v_write v_it i_old] in Ht. destruct (i_old (v_it s)) as [m|] eqn:Eo.
      * apply Mono. apply (H k a). destruct o; exact Ht.
      * destruct o as [k' v|k'|]; try (apply in_or_app; left; eapply table_in_list; [exact Wc'|exact Ht]). apply Mono. apply (H k a). exact Ht.
    + intros a Ha. apply Mono, I. exact Ha.
  - destruct IH as (ps & [A B C D E F G H I]). exists ps. constructor; cbn [v_next v_cache v_gone v_it i_old i_start i_seen i_cur i_out cur_list app]; auto.
    + rewrite Hc in E. cbn [cur_list app] in E. apply perm_skip. exact E.
    + constructor; assumption.
    + intros b [= <-]. apply (H k a Hi).
  - destruct IH as (ps & [A B C D E F G H I]). exists (ps ++ [(a, evalue e)]). constructor; cbn [v_take v_cache v_gone v_it i_old i_start i_seen i_cur i_out cur_list app]; auto.
    + rewrite map_app, non_nil_app, <- D. cbn [map snd non_nil filter]. destruct (evalue e); [reflexivity|rewrite app_nil_r; reflexivity].
    + rewrite E, Hc. cbn [cur_list]. rewrite map_app. cbn [map fst]. apply Permutation_app_comm.
    + intros b v Hp. apply in_app_or in Hp as [Hp|[Hp|[]]]; [exact (G b v Hp)|]. injection Hp as <- <-. apply element_in in He as [He|He].
      * exists (v_cache s), (ekey e). split; [exact A|destruct e; exact He].
      * destruct (C a e He) as (c & Hc' & Hl). exists c, (ekey e). split; [exact Hc'|destruct e; exact Hl].
    + discriminate.
Qed.

(** a key that is there all the time keeps its element *)
Lemma listing_same c0 cs s k : wf c0 -> listing c0 cs s -> (forall c, In c cs -> lra_contains c k = true) ->
  i_old (v_it s) = None /\ i_start (v_it s) = table c0 /\ In c0 cs /\ forall c, In c cs -> alook k (table c) = alook k (table c0).
Proof.
  intros W0. induction 1 as [|cs s o L IH|cs s k' a L IH Hc Hi Hn|cs s a e L IH Hc He]; intros T.
  - split; [reflexivity|]. split; [reflexivity|]. split; [left; reflexivity|]. intros c [<-|[]]. reflexivity.
  - destruct IH as (O & St & I & A); [intros c Hc; apply T; right; exact Hc|]. destruct (listing_inv _ _ _ W0 L) as (ps & [V1 V2 _ _ _ _ _ _ _]).
    assert (lra_contains (cop_do o (v_cache s)) k = true) as T1 by (apply T; left; reflexivity). assert (lra_contains (v_cache s) k = true) as T2 by (apply T; right; exact V1).
    split; [cbn [v_write v_it i_old]; rewrite O; destruct o; [reflexivity|reflexivity|discriminate]|]. split; [exact St|]. split; [right; exact I|].
    intros c [<-|Hc]; [|apply A; exact Hc]. cbn [v_write v_cache]. rewrite (cop_same o _ k) by (try apply (proj1 (Forall_forall _ _) V2 _ V1); assumption). apply A. exact V1.
  - exact (IH T).
  - exact (IH T).
Qed.
Lemma times_one (v : Z) (ps : list (Z * value)) a0 : NoDup (map fst ps) -> In (a0, Some v) ps -> (forall a, In (a, Some v) ps -> a = a0) -> times (Some v) (non_nil (map snd ps)) = 1%nat.
Proof.
  unfold times. induction ps as [|[a x] ps IH]; [intros _ []|]. cbn [map fst]. intros N. inversion_clear N as [|? ? N1 N2]. intros [E|H] U.
  - injection E as -> ->. cbn [map snd non_nil filter]. rewrite Z.eqb_refl. cbn [length]. f_equal.
    assert (forall y, In y (map snd ps) -> y <> Some v) as Z0.
    { intros y Hy ->. apply in_map_iff in Hy as ([a y] & E & Hy). cbn in E. subst y. apply N1. apply in_map_iff. exists (a, Some v). split; [exact (U a (or_intror Hy))|exact Hy]. }
    clear - Z0. induction (map snd ps) as [|y l IH]; [reflexivity|]. cbn. destruct y as [y|]; cbn; [|apply IH; intros z Hz; apply Z0; right; exact Hz].
    destruct (Z.eqb_spec y v) as [->|]; [elim (Z0 (Some v) (or_introl eq_refl) eq_refl)|]. apply IH. intros z Hz. apply Z0. right. exact Hz.
  - assert (x <> Some v) as Nx. { intros ->. assert (a = a0) as -> by (apply U; left; reflexivity). apply N1. apply in_map_iff. exists (a0, Some v). split; [reflexivity|exact H]. }
    specialize (IH N2 H ltac:(intros b Hb; apply U; right; exact Hb)). cbn [map snd non_nil filter]. destruct x as [x|]; cbn [filter]; [|exact IH]. destruct (Z.eqb_spec x v) as [->|]; [elim (Nx eq_refl)|exact IH].
Qed.
Lemma in_non_nil (x : Z) l : In (Some x) l -> In (Some x) (non_nil l).
Proof. intros H. apply filter_In. auto. Qed.
