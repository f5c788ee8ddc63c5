(** C99: a cache used by several goroutines answers as if it were used by one. *)
From Verif Require Import GoInt M_Cache S_Cache S_CacheConc M_CacheConc L_Cache L_CacheMap L_CacheConc.
From Coq Require Import Lia Permutation.

Lemma whole_inv {state place} (co : code state place) p s s' r : whole co p s s' r ->
  match micro co p s with (s1, inr r1) => s' = s1 /\ r = r1 | (s1, inl p1) => whole co p1 s1 s' r end.
Proof. intro W. inversion W as [? ? ? ? E|? ? ? ? ? ? E W']; subst; rewrite E; [split; reflexivity|exact W']. Qed.

(** ** calls answered by a list *)
Lemma one_snoc put l : forall m a r, one_at_a_time put m (l ++ [(a, r)]) <->
  one_at_a_time put m l /\ r = snd (answer put (fold_left (fun m x => fst (answer put m (fst x))) l m) a).
Proof. induction l as [|(b & q) l IH]; intros m a r; cbn [app one_at_a_time fold_left fst]; [tauto|]. rewrite IH. tauto. Qed.
Section Answers.
Context {state place : Type} (co : code state place) (put : Z -> option Z -> fmap -> fmap) (rel : state -> fmap -> Prop) (can : ask -> Prop).
Hypothesis call_ok : forall s m a s' r, rel s m -> can a -> whole co (start co a) s s' r -> rel s' (fst (answer put m a)) /\ r = snd (answer put m a).
Lemma alone_answers s0 m0 l s : alone co s0 l s -> rel s0 m0 -> Forall (fun x => can (fst x)) l ->
  one_at_a_time put m0 l /\ rel s (fold_left (fun m x => fst (answer put m (fst x))) l m0).
Proof.
  intros A R0. induction A as [|l s a r s' _ IH W]; intro C; [split; [exact I|exact R0]|].
  apply Forall_app in C as (C1 & C2). inversion C2 as [|? ? Ca _]; subst. destruct (IH C1) as (H1 & H2). destruct (call_ok _ _ _ _ _ H2 Ca W) as (H3 & ->).
  rewrite one_snoc, fold_left_app. split; [split; [exact H1|reflexivity]|exact H3].
Qed.
End Answers.

(** ** the four caches *)
Definition reads_m (p : mplace) : Prop := match p with MCall (ContainsA _) | MCall EmptyA | MCall SizeA | MCall (GetA _) | MCall ValuesA => True | _ => False end.
Lemma reads_m_start a : lock_of cmap_code a <> Exclusive -> reads_m (start cmap_code a).
Proof. destruct a; intro N; try exact I; apply N; reflexivity. Qed.
Lemma reads_m_micro p s s' x : reads_m p -> micro cmap_code p s = (s', x) -> s' = s /\ match x with inl p' => reads_m p' | inr _ => True end.
Proof.
  destruct p as [[k v|k| |k|k| | |]|k v|k v n|k v l|k v]; intros R E; try (destruct R; fail); cbn [micro cmap_code cmap_micro] in E;
    apply pair_equal_spec in E as (<- & <-); split; reflexivity || exact I.
Qed.
Definition reads_s (p : splace) : Prop := match p with SCall (ContainsA _) | SCall EmptyA | SCall SizeA | SCall (GetA _) | SCall ValuesA => True | _ => False end.
Lemma reads_s_start a : lock_of cset_code a <> Exclusive -> reads_s (start cset_code a).
Proof. destruct a; intro N; try exact I; apply N; reflexivity. Qed.
Lemma reads_s_micro p s s' x : reads_s p -> micro cset_code p s = (s', x) -> s' = s /\ match x with inl p' => reads_s p' | inr _ => True end.
Proof.
  destruct p as [[k v|k| |k|k| | |]|k|k n|k l|k]; intros R E; try (destruct R; fail); cbn [micro cset_code cset_micro] in E;
    apply pair_equal_spec in E as (<- & <-); split; reflexivity || exact I.
Qed.
Definition reads_q (p : qplace) : Prop := match p with QCall (ContainsA _) | QCall EmptyA | QCall SizeA | QCall (GetA _) | QCall ValuesA => True | _ => False end.
Lemma reads_q_start a : lock_of cmap2_code a <> Exclusive -> reads_q (start cmap2_code a).
Proof. destruct a; intro N; try exact I; apply N; reflexivity. Qed.
Lemma reads_q_micro p s s' x : reads_q p -> micro cmap2_code p s = (s', x) -> s' = s /\ match x with inl p' => reads_q p' | inr _ => True end.
Proof.
  destruct p as [[k v|k| |k|k| | |]|k v|k v|k v y|k v y|k v|k]; intros R E; try (destruct R; fail); cbn [micro cmap2_code cmap2_micro] in E;
    apply pair_equal_spec in E as (<- & <-); split; reflexivity || exact I.
Qed.
Definition reads_r (p : rplace) : Prop := match p with RCall (ContainsA _) | RCall EmptyA | RCall SizeA | RCall (GetA _) | RCall ValuesA => True | _ => False end.
Lemma reads_r_start a : lock_of lra_code a <> Exclusive -> reads_r (start lra_code a).
Proof. destruct a; intro N; try exact I; apply N; reflexivity. Qed.
Lemma reads_r_micro p s s' x : reads_r p -> micro lra_code p s = (s', x) -> s' = s /\ match x with inl p' => reads_r p' | inr _ => True end.
Proof.
  destruct p as [[k v|k| |k|k| | |]|a v|k a| | |a e|k]; intros R E; try (destruct R; fail); cbn [micro lra_code lra_micro] in E;
    apply pair_equal_spec in E as (<- & <-); split; reflexivity || exact I.
Qed.

Definition not_size (lg : list (nat * (ask * reply))) : list (ask * reply) := filter (fun x => negb (is_size (fst x))) (map snd lg).
Lemma plain_map {state place} (co : code state place) lg : (forall a, lock_of co a = map_lock a) -> plain_log co lg = not_size lg.
Proof. intro E. unfold plain_log, not_size. apply filter_ext. intros (a & r). unfold locked. cbn [fst]. rewrite E. destruct a; reflexivity. Qed.
Lemma plain_lra lg : plain_log lra_code lg = map snd lg.
Proof.
  unfold plain_log. induction (map snd lg) as [|(a & r) l IH]; [reflexivity|]. cbn [filter fst]. rewrite IH. destruct a; reflexivity.
Qed.

(** *** cachemap *)
Ltac go W := apply whole_inv in W; cbn [micro start cmap_code cset_code cmap2_code lra_code cmap_micro cset_micro cmap2_micro lra_micro] in W.
Definition rel_m (cap : Z) (s : cmap) (m : fmap) : Prop := s = mkCmap cap m /\ fm_ok cap m.
Lemma answer_ok cap m a : 0 < cap -> fm_ok cap m -> fm_ok cap (fst (answer (first_wins cap) m a)).
Proof.
  intros Hc Hm. destruct a as [k v|k| |k|k| | |]; cbn [answer fst]; try exact Hm.
  - exact (fm_step_ok cap m (MAdd k v) Hc Hm).
  - exact (fm_step_ok cap m (MRemove k) Hc Hm).
  - exact (fm_step_ok cap m MClear Hc Hm).
Qed.
Lemma take_first cap (m : fmap) : 0 < cap -> fm_ok cap m -> zlen m - cap <? 0 = false ->
  exists k v m', m = (k, v) :: m' /\ Z.to_nat (zlen m - cap + 1) = 1%nat /\ zlen m' < cap.
Proof.
  intros Hc (N & L) E. destruct m as [|(k & v) m']; [unfold zlen in E; cbn in E; lia|]. exists k, v, m'. split; [reflexivity|].
  rewrite zlen_cons' in *. split; lia.
Qed.
Lemma call_m cap : 0 < cap -> forall s m a s' r, rel_m cap s m -> True -> whole cmap_code (start cmap_code a) s s' r ->
  rel_m cap s' (fst (answer (first_wins cap) m a)) /\ r = snd (answer (first_wins cap) m a).
Proof.
  intros Hc s m a s' r (-> & Hm) _ W. pose proof (answer_ok cap m a Hc Hm) as Ho.
  enough (s' = mkCmap cap (fst (answer (first_wins cap) m a)) /\ r = snd (answer (first_wins cap) m a)) as (-> & ->) by (split; [split; [reflexivity|exact Ho]|reflexivity]).
  clear Ho. destruct a as [k v|k| |k|k| | |]; go W; cbn [ctab cmax] in W; cbn [answer fst snd].
  - unfold first_wins, fm_add. rewrite fm_find_alook. destruct (alook k m) as [w|] eqn:E; [exact W|].
    go W. cbn [ctab cmax] in W. cbv zeta in W. replace (zlen m - cap <? 0) with (zlen m <? cap) in W by lia.
    apply alook_none in E. destruct (zlen m <? cap) eqn:El.
    + go W. cbn [ctab cmax] in W. rewrite lput_absent in W by exact E. exact W.
    + destruct (take_first cap m Hc Hm) as (k0 & v0 & m' & -> & Et & _); [lia|]. go W. cbn [ctab cmax] in W. rewrite Et in W. cbn [take_keys] in W.
      go W. cbn [ctab cmax] in W. rewrite adel_head in W by apply Hm. go W. go W. cbn [ctab cmax] in W.
      rewrite lput_absent in W by (intro X; apply E; right; exact X). exact W.
  - unfold cmap_remove in W. cbn [ctab cmax] in W. rewrite adel_filter in W. exact W.
  - exact W.
  - unfold cmap_get in W. cbn [ctab] in W. rewrite fm_find_alook. destruct (alook k m); exact W.
  - unfold cmap_contains in W. cbn [ctab] in W. rewrite fm_find_alook. destruct (alook k m); exact W.
  - unfold cmap_empty, cmap_size in W. cbn [ctab] in W. destruct m as [|e m]; [exact W|]. rewrite zlen_cons' in W.
    replace (zlen m + 1 =? 0) with false in W by (unfold zlen; lia). exact W.
  - exact W.
  - exact W.
Qed.
Definition place_m (cap : Z) (p : mplace) (s : cmap) : Prop :=
  cmax s = cap /\ fm_ok cap (ctab s) /\
  match p with
  | MCall _ => True
  | MCount k _ => alook k (ctab s) = None
  | MIter k _ n => alook k (ctab s) = None /\ n = zlen (ctab s) - cap /\ 0 <= n
  | MDel k _ l => alook k (ctab s) = None /\ ((exists k0 v0 m', l = [k0] /\ ctab s = (k0, v0) :: m' /\ zlen m' < cap) \/ l = [] /\ zlen (ctab s) < cap)
  | MPut k _ => alook k (ctab s) = None /\ zlen (ctab s) < cap
  end.
Definition okay_m (cap : Z) (s : cmap) : Prop := cmax s = cap /\ fm_ok cap (ctab s).
Lemma start_m cap a s : okay_m cap s -> place_m cap (start cmap_code a) s.
Proof. intros (A & B). split; [exact A|]. split; [exact B|exact I]. Qed.
Lemma okay_place_m cap p s : place_m cap p s -> okay_m cap s.
Proof. intros (A & B & _). split; assumption. Qed.
Lemma micro_m cap : 0 < cap -> forall p s s' x, place_m cap p s -> micro cmap_code p s = (s', x) -> match x with inl p' => place_m cap p' s' | inr _ => okay_m cap s' end.
Proof.
  intros Hc p [mx t] s' x (A & B & C) E. cbn [cmax ctab] in *. subst mx.
  destruct p as [[k v|k| |k|k| | |]|k v|k v n|k v l|k v]; cbn [micro cmap_code cmap_micro ctab cmax] in E; cbn [ctab] in C.
  - apply pair_equal_spec in E as (<- & <-). destruct (alook k t) eqn:F; [split; [reflexivity|exact B]|split; [reflexivity|split; [exact B|exact F]]].
  - apply pair_equal_spec in E as (<- & <-). split; [reflexivity|]. unfold cmap_remove. cbn [ctab cmax]. rewrite adel_filter. exact (fm_step_ok cap t (MRemove k) Hc B).
  - apply pair_equal_spec in E as (<- & <-). split; [reflexivity|]. exact (fm_step_ok cap t MClear Hc B).
  - apply pair_equal_spec in E as (<- & <-). split; [reflexivity|exact B].
  - apply pair_equal_spec in E as (<- & <-). split; [reflexivity|exact B].
  - apply pair_equal_spec in E as (<- & <-). split; [reflexivity|exact B].
  - apply pair_equal_spec in E as (<- & <-). split; [reflexivity|exact B].
  - apply pair_equal_spec in E as (<- & <-). split; [reflexivity|exact B].
  - apply pair_equal_spec in E as (<- & <-). cbv zeta. destruct (zlen t - cap <? 0) eqn:F; (split; [reflexivity|split; [exact B|]]); cbn [ctab]; [split; [exact C|lia]|split; [exact C|split; [reflexivity|lia]]].
  - destruct C as (C & -> & C2). destruct (take_first cap t Hc B) as (k0 & v0 & m' & -> & Et & Lt); [lia|]. rewrite Et in E. cbn [take_keys] in E.
    apply pair_equal_spec in E as (<- & <-). split; [reflexivity|]. split; [exact B|]. split; [exact C|]. left. exists k0, v0, m'. auto.
  - destruct C as (C & [(k0 & v0 & m' & -> & Et & Lt)|(-> & Lt)]); cbn [cmap_micro] in E; apply pair_equal_spec in E as (<- & <-).
    + cbn [ctab cmax] in *. subst t. rewrite adel_head by apply B. split; [reflexivity|]. cbn [ctab].
      assert (fm_ok cap m') as B' by (destruct B as (N & L); split; [inversion N; assumption|lia]). split; [exact B'|]. split; [|right; split; [reflexivity|exact Lt]].
      apply alook_none. apply alook_none in C. intro X. apply C. right. exact X.
    + split; [reflexivity|]. split; [exact B|]. split; [exact C|exact Lt].
  - apply pair_equal_spec in E as (<- & <-). split; [reflexivity|]. cbn [ctab]. destruct C as (C & Lt). apply alook_none in C. rewrite lput_absent by exact C.
    destruct B as (N & L). split; [rewrite map_app; apply nodup_snoc; assumption|]. unfold zlen in *. rewrite app_length. cbn [length]. lia.
Qed.

(** *** cacheset *)
Definition rel_s (cap : Z) (s : cset) (m : fmap) : Prop := s = mkCset cap (map fst m) /\ fm_ok cap m.
Lemma zlen_keys (m : fmap) : zlen (map fst m) = zlen m.
Proof. unfold zlen. rewrite map_length. reflexivity. Qed.
Lemma call_s cap : 0 < cap -> forall s m a s' r, rel_s cap s m -> set_call a -> whole cset_code (start cset_code a) s s' r ->
  rel_s cap s' (fst (answer (first_wins cap) m a)) /\ r = snd (answer (first_wins cap) m a).
Proof.
  intros Hc s m a s' r (-> & Hm) Sc W. pose proof (answer_ok cap m a Hc Hm) as Ho.
  enough (s' = mkCset cap (map fst (fst (answer (first_wins cap) m a))) /\ r = snd (answer (first_wins cap) m a)) as (-> & ->) by (split; [split; [reflexivity|exact Ho]|reflexivity]).
  clear Ho. destruct a as [k v|k| |k|k| | |]; try (destruct Sc; fail); go W; cbn [stab smax] in W; cbn [answer fst snd].
  - unfold first_wins, fm_add. rewrite fm_find_alook. rewrite memb_alook in W. destruct (alook k m) as [w|] eqn:E; [exact W|].
    go W. cbn [stab smax] in W. cbv zeta in W. rewrite zlen_keys in W. replace (zlen m - cap <? 0) with (zlen m <? cap) in W by lia.
    destruct (zlen m <? cap) eqn:El.
    + go W. cbn [stab smax] in W. rewrite map_app. exact W.
    + destruct (take_first cap m Hc Hm) as (k0 & v0 & m' & -> & Et & _); [lia|]. go W. cbn [stab smax] in W. rewrite Et in W. cbn [take_items map fst] in W.
      destruct Hm as (N & _). inversion N as [|? ? Hn Hd]; subst.
      go W. cbn [stab smax] in W. unfold sdel in W at 1. cbn [filter] in W. rewrite Z.eqb_refl in W. cbn [negb] in W. fold (sdel k0 (map fst m')) in W. rewrite sdel_absent in W by assumption.
      go W. go W. cbn [stab smax] in W. cbn [tl]. rewrite map_app. exact W.
  - exact W.
  - unfold cset_contains in W. cbn [stab] in W. rewrite memb_alook in W. rewrite fm_find_alook. destruct (alook k m); exact W.
  - unfold cset_empty, cset_size in W. cbn [stab] in W. rewrite zlen_keys in W. destruct m as [|e m]; [exact W|]. rewrite zlen_cons' in W.
    replace (zlen m + 1 =? 0) with false in W by (unfold zlen; lia). exact W.
  - unfold cset_size in W. cbn [stab] in W. rewrite zlen_keys in W. exact W.
Qed.
Definition okay_s (cap : Z) (s : cset) : Prop := smax s = cap /\ NoDup (stab s) /\ zlen (stab s) <= cap.
Definition place_s (cap : Z) (p : splace) (s : cset) : Prop :=
  okay_s cap s /\
  match p with
  | SCall _ => True
  | SCount k => ~ In k (stab s)
  | SIter k n => ~ In k (stab s) /\ n = zlen (stab s) - cap /\ 0 <= n
  | SDel k l => ~ In k (stab s) /\ ((exists k0 m', l = [k0] /\ stab s = k0 :: m') \/ l = [] /\ zlen (stab s) < cap)
  | SPut k => ~ In k (stab s) /\ zlen (stab s) < cap
  end.
Lemma start_s cap a s : okay_s cap s -> place_s cap (start cset_code a) s.
Proof. intro O. split; [exact O|exact I]. Qed.
Lemma okay_place_s cap p s : place_s cap p s -> okay_s cap s.
Proof. intros (O & _). exact O. Qed.
Lemma micro_s cap : 0 < cap -> forall p s s' x, place_s cap p s -> micro cset_code p s = (s', x) -> match x with inl p' => place_s cap p' s' | inr _ => okay_s cap s' end.
Proof.
  intros Hc p [mx t] s' x ((A & N & L) & C) E. cbn [smax stab] in *. subst mx.
  assert (okay_s cap (mkCset cap t)) as B by (split; [reflexivity|split; assumption]).
  destruct p as [[k v|k| |k|k| | |]|k|k n|k l|k]; cbn [micro cset_code cset_micro stab smax] in E; cbn [stab] in C.
  - apply pair_equal_spec in E as (<- & <-). destruct (memb k t) eqn:F; [exact B|split; [exact B|]]. cbn [stab]. unfold memb in F. apply existsb_keys_false, F.
  - apply pair_equal_spec in E as (<- & <-). exact B.
  - apply pair_equal_spec in E as (<- & <-). split; [reflexivity|split; [constructor|unfold zlen; cbn; lia]].
  - apply pair_equal_spec in E as (<- & <-). exact B.
  - apply pair_equal_spec in E as (<- & <-). exact B.
  - apply pair_equal_spec in E as (<- & <-). exact B.
  - apply pair_equal_spec in E as (<- & <-). exact B.
  - apply pair_equal_spec in E as (<- & <-). exact B.
  - apply pair_equal_spec in E as (<- & <-). cbv zeta. destruct (zlen t - cap <? 0) eqn:F; (split; [exact B|]); cbn [stab]; [split; [exact C|lia]|split; [exact C|split; [reflexivity|lia]]].
  - destruct C as (C & -> & C2). assert (Z.to_nat (zlen t - cap + 1) = 1%nat) as Et by lia. rewrite Et in E. destruct t as [|k0 m']; [unfold zlen in C2; cbn in C2; lia|]. cbn [take_items] in E.
    apply pair_equal_spec in E as (<- & <-). split; [exact B|]. split; [exact C|]. left. exists k0, m'. auto.
  - destruct C as (C & [(k0 & m' & -> & Et)|(-> & Lt)]); cbn [cset_micro] in E; apply pair_equal_spec in E as (<- & <-).
    + cbn [stab smax] in *. subst t. inversion N as [|? ? Hn Hd]; subst. unfold sdel. cbn [filter]. rewrite Z.eqb_refl. cbn [negb]. fold (sdel k0 m'). rewrite sdel_absent by exact Hn.
      rewrite zlen_cons' in L. split; [split; [reflexivity|split; [exact Hd|cbn [stab]; lia]]|]. cbn [stab]. split; [intro X; apply C; right; exact X|right; split; [reflexivity|lia]].
    + split; [exact B|]. split; [exact C|exact Lt].
  - apply pair_equal_spec in E as (<- & <-). destruct C as (C & Lt). split; [reflexivity|]. cbn [stab]. split; [apply nodup_snoc; assumption|].
    unfold zlen in *. rewrite app_length. cbn [length]. lia.
Qed.

(** *** cachemap2 *)
Definition okay_q (cap : Z) (s : cmap2) : Prop := max2 s = cap /\ zlen (ord2 s) <= cap.
Definition place_q (cap : Z) (p : qplace) (s : cmap2) : Prop :=
  okay_q cap s /\ match p with QSet _ _ | QApp _ => zlen (ord2 s) < cap | _ => True end.
Lemma start_q cap a s : okay_q cap s -> place_q cap (start cmap2_code a) s.
Proof. intro O. split; [exact O|exact I]. Qed.
Lemma okay_place_q cap p s : place_q cap p s -> okay_q cap s.
Proof. intros (O & _). exact O. Qed.
Lemma micro_q cap : 0 < cap -> forall p s s' x, place_q cap p s -> micro cmap2_code p s = (s', x) -> match x with inl p' => place_q cap p' s' | inr _ => okay_q cap s' end.
Proof.
  intros Hc p [mx t o] s' x ((A & L) & C) E. cbn [max2 ord2] in *. subst mx.
  destruct p as [[k v|k| |k|k| | |]|k v|k v|k v y|k v y|k v|k]; cbn [micro cmap2_code cmap2_micro tab2 ord2 max2] in E; cbn [ord2] in C; apply pair_equal_spec in E as (<- & <-);
    try (split; [reflexivity|exact L]; fail).
  - destruct (alook k t); [split; [reflexivity|exact L]|split; [split; [reflexivity|exact L]|exact I]].
  - split; [reflexivity|]. unfold zlen. cbn. lia.
  - destruct (cap <=? zlen o) eqn:F; (split; [split; [reflexivity|exact L]|]); [exact I|cbn [ord2]; lia].
  - split; [split; [reflexivity|exact L]|]. destruct o; exact I.
  - split; [split; [reflexivity|]|exact I]. cbn [ord2]. destruct o; [exact L|]. cbn [tl]. rewrite zlen_cons' in L. lia.
  - split; [split; [reflexivity|exact L]|exact I].
  - split; [split; [reflexivity|exact L]|exact C].
  - split; [reflexivity|]. cbn [ord2]. unfold zlen in *. rewrite app_length. cbn [length]. lia.
Qed.

(** *** lra *)
Definition lra_call (a : ask) : Prop := match a with ValuesA => False | _ => True end.
Definition rel_r (cap : Z) (s : lra) (m : fmap) : Prop := wf s /\ lmax s = cap /\ m = rev (view s).
Lemma alook_rev k (m : fmap) : NoDup (map fst m) -> alook k (rev m) = alook k m.
Proof. intro N. symmetry. apply alook_perm; [exact N|apply Permutation_rev]. Qed.
Lemma vset_map k v m : NoDup (map fst m) -> vset k v m = map (fun e => if fst e =? k then (k, v) else e) m.
Proof.
  induction m as [|[k' v'] m IH]; intro N; [reflexivity|]. cbn [vset map fst]. inversion N as [|? ? Hn Hd]; subst. rewrite (Z.eqb_sym k' k).
  destruct (Z.eqb_spec k k') as [<-|Ne]; [|rewrite IH by exact Hd; reflexivity]. f_equal. clear IH N Hd. induction m as [|[k1 v1] m IH]; [reflexivity|].
  cbn [map fst]. destruct (Z.eqb_spec k1 k) as [->|_]; [destruct Hn; left; reflexivity|]. rewrite <- IH; [reflexivity|]. intro X. apply Hn. right. exact X.
Qed.
Lemma whole_add k v s s' r : whole lra_code (RCall (AddA k v)) s s' r -> s' = fst (lra_add s k v) /\ r = Nothing.
Proof.
  intro W. go W. unfold lra_add. destruct (alook k (table s)) as [a|].
  - go W. destruct W as (-> & ->). split; reflexivity.
  - go W. cbn [lmax lst table fresh] in W. go W. cbn [lmax lst table fresh] in W. cbv zeta. cbn [lmax lst].
    destruct (negb (lmax s =? 0) && (lmax s <? zlen ((fresh s, mkEntry k v) :: lst s))); [|exact W].
    go W. cbn [lmax lst table fresh] in W. unfold remove_oldest. cbn [lst]. destruct (back ((fresh s, mkEntry k v) :: lst s)) as [(a & e)|]; [|exact W].
    go W. cbn [lmax lst table fresh] in W. go W. exact W.
Qed.
Lemma whole_remove k s s' r : whole lra_code (RCall (RemoveA k)) s s' r -> s' = fst (lra_remove s k) /\ r = Nothing.
Proof.
  intro W. go W. unfold lra_remove. destruct (alook k (table s)) as [a|]; [|exact W]. destruct (elem_at a (lst s)) as [e|]; [|exact W].
  go W. go W. exact W.
Qed.
Lemma call_r cap : 0 <= cap -> forall s m a s' r, rel_r cap s m -> lra_call a -> whole lra_code (start lra_code a) s s' r ->
  rel_r cap s' (fst (answer (last_wins cap) m a)) /\ r = snd (answer (last_wins cap) m a).
Proof.
  intros Hc s m a s' r (Wf & M & ->) Sc W. pose proof (wf_keys s Wf) as N. unfold rel_r.
  assert (forall k, fm_find k (rev (view s)) = match alook k (view s) with Some v => Some (k, v) | None => None end) as F.
  { intro k. rewrite fm_find_alook, alook_rev by exact N. reflexivity. }
  assert (zlen (rev (view s)) = zlen (view s)) as Zr by (unfold zlen; rewrite rev_length; reflexivity).
  destruct a as [k v|k| |k|k| | |]; try (destruct Sc; fail); cbn [answer fst snd].
  - apply whole_add in W as (-> & ->). split; [|reflexivity]. unfold last_wins. rewrite F, Zr. destruct (alook k (view s)) as [w|] eqn:E.
    + destruct (add_present s k v Wf) as (W' & V' & _ & M'); [congruence|]. split; [exact W'|]. split; [congruence|]. rewrite V', (vset_map k v _ N), <- map_rev. reflexivity.
    + destruct (add_absent s k v Wf E) as (W' & M' & H). rewrite M in H, M'. split; [exact W'|]. split; [exact M'|].
      destruct (negb (cap =? 0) && (cap <? zlen (view s) + 1)) eqn:B.
      * replace ((cap =? 0) || (zlen (view s) <? cap)) with false by lia. destruct H as (l & o & El & -> & _).
        destruct l as [|x l]; [apply (f_equal zlen) in El; unfold zlen in El, B; cbn [app length] in El; lia|].
        cbn [app] in El. injection El as <- El. rewrite El, rev_app_distr. reflexivity.
      * replace ((cap =? 0) || (zlen (view s) <? cap)) with true by lia. destruct H as (-> & _). reflexivity.
  - apply whole_remove in W as (-> & ->). split; [|reflexivity]. destruct (remove_view s k Wf) as (W' & M' & V' & _). split; [exact W'|]. split; [congruence|].
    rewrite V', adel_filter. unfold fm_remove. rewrite filter_rev. reflexivity.
  - go W. destruct W as (-> & ->). split; [|reflexivity]. split; [|split; [exact M|reflexivity]]. constructor; cbn; try constructor. intros a [].
  - go W. destruct W as (-> & ->). split; [split; [exact Wf|split; [exact M|reflexivity]]|]. rewrite lra_get_view, F by exact Wf. destruct (alook k (view s)); reflexivity.
  - go W. destruct W as (-> & ->). split; [split; [exact Wf|split; [exact M|reflexivity]]|]. rewrite lra_contains_view, F by exact Wf. destruct (alook k (view s)); reflexivity.
  - go W. destruct W as (-> & ->). split; [split; [exact Wf|split; [exact M|reflexivity]]|]. unfold lra_empty. rewrite lra_size_view, <- Zr. destruct (rev (view s)); [reflexivity|].
    rewrite zlen_cons'. replace (zlen l + 1 =? 0) with false by (unfold zlen; lia). reflexivity.
  - go W. destruct W as (-> & ->). split; [split; [exact Wf|split; [exact M|reflexivity]]|]. rewrite lra_size_view, Zr. reflexivity.
Qed.

Lemma whole_loop cap k v o : 0 < cap -> forall t s' r, whole cmap2_code (QLoop k v) (mkCmap2 cap t o) s' r ->
  exists o' t', pop_exceeded cap o t = Some (o', t') /\ s' = mkCmap2 cap (aset k v t') (o' ++ [k]) /\ r = Nothing.
Proof.
  intro Hc. induction o as [|x o IH]; intros t s' r W; go W; cbn [max2 tab2 ord2] in W; cbn [pop_exceeded].
  - replace (cap <=? zlen []) with false in W by (unfold zlen; cbn; lia). replace (cap <=? 0) with false by lia. go W. go W. exists [], t. split; [reflexivity|exact W].
  - destruct (cap <=? zlen (x :: o)).
    + go W. cbn [max2 tab2 ord2] in W. go W. cbn [max2 tab2 ord2 tl] in W. go W. cbn [max2 tab2 ord2] in W. apply IH, W.
    + go W. go W. exists (x :: o), t. split; [reflexivity|exact W].
Qed.
Definition no_removal (a : ask) : Prop := match a with RemoveA _ | ValuesA => False | _ => True end.
Definition rel_q (cap : Z) (s : cmap2) (m : fmap) : Prop := rel2 cap s m /\ fm_ok cap m.
Lemma call_q cap : 0 < cap -> forall s m a s' r, rel_q cap s m -> no_removal a /\ a <> SizeA -> whole cmap2_code (start cmap2_code a) s s' r ->
  rel_q cap s' (fst (answer (first_wins cap) m a)) /\ r = snd (answer (first_wins cap) m a).
Proof.
  intros Hc s m a s' r (Hr & Hm) (Sc & Ns) W. pose proof (answer_ok cap m a Hc Hm) as Ho.
  enough (rel2 cap s' (fst (answer (first_wins cap) m a)) /\ r = snd (answer (first_wins cap) m a)) as (H1 & H2) by (split; [split; [exact H1|exact Ho]|exact H2]).
  clear Ho. destruct Hr as (M & O & H). destruct a as [k v|k| |k|k| | |]; try (destruct Sc; fail); go W; cbn [answer fst snd].
  - destruct (cmap2_step_spec cap s m (MAdd k v) Hc Hm I (conj M (conj O H))) as (c' & E & R). cbn [cmap2_step fm_step] in E, R. unfold cmap2_add in E.
    destruct (alook k (tab2 s)); [destruct W as (-> & ->); injection E as <-; split; [exact R|reflexivity]|].
    destruct s as [mx t o]. cbn [max2 tab2 ord2] in *. subst mx. destruct (whole_loop cap k v o Hc t s' r W) as (o' & t' & Ep & -> & ->). rewrite Ep in E. injection E as <-. split; [exact R|reflexivity].
  - destruct W as (-> & ->). split; [|reflexivity]. split; [exact M|split; reflexivity].
  - destruct W as (-> & ->). split; [split; [exact M|split; assumption]|]. unfold cmap2_get. rewrite H, fm_find_alook. destruct (alook k m); reflexivity.
  - destruct W as (-> & ->). split; [split; [exact M|split; assumption]|]. unfold cmap2_contains. rewrite H, fm_find_alook. destruct (alook k m); reflexivity.
  - destruct W as (-> & ->). split; [split; [exact M|split; assumption]|]. unfold cmap2_empty, cmap2_size. rewrite O, zlen_keys. destruct m as [|e m]; [reflexivity|].
    rewrite zlen_cons'. replace (zlen m + 1 =? 0) with false by (unfold zlen; lia). reflexivity.
  - destruct Ns. reflexivity.
Qed.

(** ** Theorems *)
(** A goroutine's calls return in the order of its program, each of them once. (For all four; [co] is any code.) *)
Theorem C99_program_order {state place} (co : code state place) s0 ps c i p : reach co s0 ps c -> nth_error ps i = Some p ->
  exists t, nth_error (callers c) i = Some t /\
    p = map (fun x => fst (snd x)) (filter (fun x => Nat.eqb (fst x) i) (log c)) ++ match inside t with Some (a, _) => [a] | None => [] end ++ todo t.
Proof.
  intros R E. destruct (reach_order co s0 ps c R) as (Ln & O). destruct (nth_error (callers c) i) as [t|] eqn:Et.
  - exists t. split; [reflexivity|]. specialize (O i t Et). rewrite E in O. injection O as ->. reflexivity.
  - apply nth_error_None in Et. assert (nth_error ps i <> None) as N by congruence. apply nth_error_Some in N. lia.
Qed.

(** Whatever goroutines call the operations of a cache at the same time, their answers are those of one goroutine making the calls one after the other, in the order in
    which they returned (Size of cachemap, cacheset and cachemap2, which takes no lock, apart); with no call under way the cache is as that goroutine leaves it. *)
Theorem C99_as_one_goroutine :
  (forall cap ps c, reach cmap_code (cmap_new cap) ps c -> exists s, alone cmap_code (cmap_new cap) (not_size (log c)) s /\ ((forall t, In t (callers c) -> inside t = None) -> shared c = s)) /\
  (forall cap ps c, reach cset_code (cset_new cap) ps c -> exists s, alone cset_code (cset_new cap) (not_size (log c)) s /\ ((forall t, In t (callers c) -> inside t = None) -> shared c = s)) /\
  (forall cap ps c, reach cmap2_code (cmap2_new cap) ps c -> exists s, alone cmap2_code (cmap2_new cap) (not_size (log c)) s /\ ((forall t, In t (callers c) -> inside t = None) -> shared c = s)) /\
  (forall cap ps c, reach lra_code (lra_new cap) ps c -> exists s, alone lra_code (lra_new cap) (map snd (log c)) s /\ ((forall t, In t (callers c) -> inside t = None) -> shared c = s)).
Proof.
  assert (forall state place (co : code state place) s0 c s, inv co (fun _ => True) s0 c s -> (forall t, In t (callers c) -> inside t = None) -> shared c = s) as Q.
  { intros state place co s0 c s I N. apply (iv_quiet _ _ _ _ _ I). intros i t a p E In'. rewrite (N t (nth_error_In _ _ E)) in In'. discriminate In'. }
  assert (forall state place (co : code state place) reads s0 c s, inv co reads s0 c s -> inv co (fun _ => True) s0 c s) as Wk by (intros state place co reads s0 c s [A B C D E]; constructor; auto).
  repeat split; intros cap ps c R.
  - destruct (reach_inv cmap_code reads_m reads_m_start reads_m_micro _ _ _ R) as (s & I). exists s. split; [|eapply Q, Wk, I].
    rewrite <- (plain_map cmap_code) by reflexivity. apply (iv_alone _ _ _ _ _ I).
  - destruct (reach_inv cset_code reads_s reads_s_start reads_s_micro _ _ _ R) as (s & I). exists s. split; [|eapply Q, Wk, I].
    rewrite <- (plain_map cset_code) by reflexivity. apply (iv_alone _ _ _ _ _ I).
  - destruct (reach_inv cmap2_code reads_q reads_q_start reads_q_micro _ _ _ R) as (s & I). exists s. split; [|eapply Q, Wk, I].
    rewrite <- (plain_map cmap2_code) by reflexivity. apply (iv_alone _ _ _ _ _ I).
  - destruct (reach_inv lra_code reads_r reads_r_start reads_r_micro _ _ _ R) as (s & I). exists s. split; [|eapply Q, Wk, I].
    rewrite <- plain_lra. apply (iv_alone _ _ _ _ _ I).
Qed.

Lemma not_size_calls lg (P : ask -> Prop) : Forall (fun x => P (fst (snd x))) lg -> Forall (fun x => P (fst x) /\ fst x <> SizeA) (not_size lg).
Proof.
  intro F. apply Forall_forall. intros (a & r) Hin. apply filter_In in Hin as (Hin & Ns). apply in_map_iff in Hin as ((i & y) & Eq & Hin). cbn [snd fst] in *. subst y.
  rewrite Forall_forall in F. split; [apply (F _ Hin)|]. intro X. rewrite X in Ns. discriminate Ns.
Qed.
Lemma fits_in (lg : list (nat * (ask * reply))) (lo hi : Z) : Forall (fun x => fst (snd x) = SizeA -> exists n, snd (snd x) = Count n /\ lo <= n <= hi) lg ->
  forall i r, In (i, (SizeA, r)) lg -> exists n, r = Count n /\ lo <= n <= hi.
Proof. intros F i r Hin. rewrite Forall_forall in F. exact (F _ Hin eq_refl). Qed.

(** So cachemap answers as the bounded first-in first-out map in which the first value of a key stays; a Size called meanwhile is between 0 and the capacity. *)
Theorem C99_cachemap cap ps c : 0 < cap -> reach cmap_code (cmap_new cap) ps c ->
  one_at_a_time (first_wins cap) [] (not_size (log c)) /\
  (forall i r, In (i, (SizeA, r)) (log c) -> exists n, r = Count n /\ 0 <= n <= cap).
Proof.
  intros Hc R. destruct C99_as_one_goroutine as (A & _). destruct (A cap ps c R) as (s & Al & _). split.
  - apply (alone_answers cmap_code (first_wins cap) (rel_m cap) (fun _ => True) (call_m cap Hc) _ [] _ s Al).
    + split; [reflexivity|]. split; [constructor|unfold zlen; cbn; lia].
    + apply Forall_forall. intros; exact I.
  - apply fits_in. eapply (sizes_fit cmap_code reads_m reads_m_start reads_m_micro (okay_m cap) (place_m cap) (start_m cap) (micro_m cap Hc) (okay_place_m cap) cmap_size); [reflexivity| | |exact R].
    + intros s1 (M & N & L). unfold cmap_size, zlen in *. lia.
    + split; [reflexivity|]. split; [constructor|unfold zlen; cbn; lia].
Qed.
(** The same for cacheset, ... *)
Theorem C99_cacheset cap ps c : 0 < cap -> reach cset_code (cset_new cap) ps c -> Forall (Forall set_call) ps ->
  one_at_a_time (first_wins cap) [] (not_size (log c)) /\
  (forall i r, In (i, (SizeA, r)) (log c) -> exists n, r = Count n /\ 0 <= n <= cap).
Proof.
  intros Hc R F. destruct C99_as_one_goroutine as (_ & A & _). destruct (A cap ps c R) as (s & Al & _). split.
  - apply (alone_answers cset_code (first_wins cap) (rel_s cap) set_call (call_s cap Hc) _ [] _ s Al).
    + split; [reflexivity|]. split; [constructor|unfold zlen; cbn; lia].
    + eapply Forall_impl; [|apply (not_size_calls _ set_call), (reach_calls cset_code _ _ _ _ R F)]. intros x (H & _). exact H.
  - apply fits_in. eapply (sizes_fit cset_code reads_s reads_s_start reads_s_micro (okay_s cap) (place_s cap) (start_s cap) (micro_s cap Hc) (okay_place_s cap) cset_size); [reflexivity| | |exact R].
    + intros s1 (M & N & L). unfold cset_size, zlen in *. lia.
    + split; [reflexivity|]. split; [constructor|unfold zlen; cbn; lia].
Qed.
(** ... for cachemap2 when no key is removed (C27_fifo_refuted: alone it is no such map after Remove), its Size bounded always, ... *)
Theorem C99_cachemap2_partial cap ps c : 0 < cap -> reach cmap2_code (cmap2_new cap) ps c ->
  (Forall (Forall no_removal) ps -> one_at_a_time (first_wins cap) [] (not_size (log c))) /\
  (forall i r, In (i, (SizeA, r)) (log c) -> exists n, r = Count n /\ 0 <= n <= cap).
Proof.
  intros Hc R. destruct C99_as_one_goroutine as (_ & _ & A & _). destruct (A cap ps c R) as (s & Al & _). split.
  - intro F. apply (alone_answers cmap2_code (first_wins cap) (rel_q cap) (fun a => no_removal a /\ a <> SizeA) (call_q cap Hc) _ [] _ s Al).
    + split; [split; [reflexivity|split; reflexivity]|]. split; [constructor|unfold zlen; cbn; lia].
    + apply (not_size_calls _ no_removal), (reach_calls cmap2_code _ _ _ _ R F).
  - apply fits_in. eapply (sizes_fit cmap2_code reads_q reads_q_start reads_q_micro (okay_q cap) (place_q cap) (start_q cap) (micro_q cap Hc) (okay_place_q cap) cmap2_size); [reflexivity| | |exact R].
    + intros s1 (M & L). unfold cmap2_size, zlen in *. lia.
    + split; [reflexivity|]. unfold zlen. cbn. lia.
Qed.
(** ... and for the cache of lra.go, whose last value of a key replaces the others and whose Size takes the lock. *)
Theorem C99_lra cap ps c : 0 <= cap -> reach lra_code (lra_new cap) ps c -> Forall (Forall lra_call) ps ->
  one_at_a_time (last_wins cap) [] (map snd (log c)).
Proof.
  intros Hc R F. destruct C99_as_one_goroutine as (_ & _ & _ & A). destruct (A cap ps c R) as (s & Al & _).
  apply (alone_answers lra_code (last_wins cap) (rel_r cap) lra_call (call_r cap Hc) _ [] _ s Al).
  - split; [apply wf_new|]. split; reflexivity.
  - apply Forall_forall. intros (a & r) Hin. apply in_map_iff in Hin as ((i & y) & E & Hin). cbn [snd] in E. subst y.
    pose proof (reach_calls lra_code _ _ _ _ R F) as G. rewrite Forall_forall in G. exact (G _ Hin).
Qed.
(** schedules, for the examples: the goroutine that moves *)
Definition move {state place} (co : code state place) (i : nat) (c : conf state place) : option (conf state place) :=
  match nth_error (callers c) i with
  | None => None
  | Some t =>
      let put t' := firstn i (callers c) ++ t' :: skipn (Datatypes.S i) (callers c) in
      match inside t, todo t with
      | None, a :: rest => if forallb (admits co (lock_of co a)) (firstn i (callers c) ++ skipn (Datatypes.S i) (callers c))
                           then Some (mkConf (shared c) (put (mkCaller rest (Some (a, start co a)))) (log c)) else None
      | None, [] => None
      | Some (a, p), rest =>
          match micro co p (shared c) with
          | (s', inl p') => Some (mkConf s' (put (mkCaller rest (Some (a, p')))) (log c))
          | (s', inr r) => Some (mkConf s' (put (mkCaller rest None)) (log c ++ [(i, (a, r))]))
          end
      end
  end.
Fixpoint moves {state place} (co : code state place) (l : list nat) (c : conf state place) : option (conf state place) :=
  match l with [] => Some c | i :: l' => match move co i c with Some c' => moves co l' c' | None => None end end.
Lemma move_step {state place} (co : code state place) i c c' : move co i c = Some c' -> step co c c'.
Proof.
  unfold move. destruct c as [s cs lg]. cbn [callers shared log]. destruct (nth_error cs i) as [t|] eqn:E; [|discriminate].
  apply nth_error_split in E as (b & a & -> & <-). rewrite firstn_app, Nat.sub_diag, firstn_all. cbn [firstn]. rewrite app_nil_r.
  replace (skipn (Datatypes.S (length b)) (b ++ t :: a)) with a; [|rewrite skipn_app, skipn_all2 by lia; replace (Datatypes.S (length b) - length b)%nat with 1%nat by lia; reflexivity].
  destruct t as [td ins]. cbn [inside todo]. destruct ins as [(x & p)|].
  - destruct (micro co p s) as (s' & [p'|r]) eqn:M; intro H; injection H as <-; [apply step_work, M|apply step_return, M].
  - destruct td as [|x rest]; [discriminate|]. destruct (forallb _ _) eqn:F; [|discriminate]. intro H. injection H as <-. apply step_enter, F.
Qed.
Lemma moves_reach {state place} (co : code state place) s0 ps l : forall c c', reach co s0 ps c -> moves co l c = Some c' -> reach co s0 ps c'.
Proof.
  induction l as [|i l IH]; intros c c' R H; cbn [moves] in H; [injection H as <-; exact R|].
  destruct (move co i c) as [c1|] eqn:E; [|discriminate]. apply (IH c1); [|exact H]. eapply reach_step; [exact R|eapply move_step, E].
Qed.

(** Size of cachemap (and of the other two) does not fit in: a goroutine adds an entry, asks for the size and is told 0, while another one is in the middle of its
    Add; nothing was ever removed. None of the three orders that keep the first goroutine's own calls in theirs gives that answer. *)
Theorem C99_size_refuted : exists c,
  reach cmap_code (cmap_new 1) [[AddA 2 None]; [AddA 1 None; SizeA]] c /\
  log c = [(1%nat, (AddA 1 None, Nothing)); (1%nat, (SizeA, Count 0)); (0%nat, (AddA 2 None, Nothing))] /\
  Forall (fun l => ~ one_at_a_time (first_wins 1) [] l)
    [[(AddA 1 None, Nothing); (SizeA, Count 0); (AddA 2 None, Nothing)];
     [(AddA 1 None, Nothing); (AddA 2 None, Nothing); (SizeA, Count 0)];
     [(AddA 2 None, Nothing); (AddA 1 None, Nothing); (SizeA, Count 0)]].
Proof.
  eexists. split; [|split].
  - eapply (moves_reach cmap_code _ _ [1; 1; 1; 1; 0; 0; 0; 0; 0; 1; 1; 0; 0]%nat); [apply reach_start|]. vm_compute. reflexivity.
  - reflexivity.
  - repeat constructor; intro H; vm_compute in H; repeat match goal with X : _ /\ _ |- _ => destruct X end; discriminate.
Qed.

Example C99_case : exists c, reach lra_code (lra_new 1) [[AddA 1 (Some 5)]; [GetA 1]; [AddA 2 None]] c /\
  log c = [(0%nat, (AddA 1 (Some 5), Nothing)); (1%nat, (GetA 1, Value (Some 5))); (2%nat, (AddA 2 None, Nothing))].
Proof.
  eexists. split.
  - eapply (moves_reach lra_code _ _ [0; 0; 0; 0; 1; 1; 2; 2; 2; 2; 2; 2; 2]%nat); [apply reach_start|]. vm_compute. reflexivity.
  - reflexivity.
Qed.
Example C99_set_case : exists c, reach cset_code (cset_new 1) [[AddA 1 None; SizeA]; [ContainsA 1]] c /\
  log c = [(0%nat, (AddA 1 None, Nothing)); (1%nat, (ContainsA 1, Yes true)); (0%nat, (SizeA, Count 1))].
Proof.
  eexists. split.
  - eapply (moves_reach cset_code _ _ [0; 0; 0; 0; 1; 0; 1; 0]%nat); [apply reach_start|]. vm_compute. reflexivity.
  - reflexivity.
Qed.

Print Assumptions C99_program_order.
Print Assumptions C99_as_one_goroutine.
Print Assumptions C99_cachemap.
Print Assumptions C99_cacheset.
Print Assumptions C99_cachemap2_partial.
Print Assumptions C99_lra.
Print Assumptions C99_size_refuted.
