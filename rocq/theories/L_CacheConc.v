(** Lemmas for C99. *)
From Verif Require Import GoInt M_Cache S_Cache S_CacheConc M_CacheConc L_Cache L_CacheMap.
From Coq Require Import Lia.

Section Machine.
Context {state place : Type} (co : code state place) (reads : place -> Prop).
Hypothesis reads_start : forall a, lock_of co a <> Exclusive -> reads (start co a).
Hypothesis reads_micro : forall p s s' x, reads p -> micro co p s = (s', x) -> s' = s /\ match x with inl p' => reads p' | inr _ => True end.

Notation whole := (whole co).
Notation alone := (alone co).
(** the beginning of a call *)
Inductive part : place -> state -> place -> state -> Prop :=
| part_none p s : part p s p s
| part_more p s p1 s1 p2 s2 : part p s p1 s1 -> micro co p1 s1 = (s2, inl p2) -> part p s p2 s2.
Lemma part_whole p s p1 s1 : part p s p1 s1 -> forall s' r, whole p1 s1 s' r -> whole p s s' r.
Proof. induction 1 as [|p s p1 s1 p2 s2 _ IH E]; intros s' r W; [exact W|]. apply IH. eapply whole_more; [exact E|exact W]. Qed.

Definition locked (a : ask) : bool := match lock_of co a with Unlocked => false | _ => true end.
Definition plain_log (lg : list (nat * (ask * reply))) : list (ask * reply) := filter (fun x => locked (fst x)) (map snd lg).

Lemma nth_mid {A} (b : list A) x y c i z : nth_error (b ++ x :: c) i = Some z -> i = length b /\ z = x \/ i <> length b /\ nth_error (b ++ y :: c) i = Some z.
Proof.
  destruct (Nat.eq_dec i (length b)) as [-> | N]; intro E.
  - left. rewrite nth_error_app2, Nat.sub_diag in E by lia. injection E as <-. auto.
  - right. split; [exact N|]. rewrite <- E. destruct (Nat.lt_ge_cases i (length b)) as [Lt|Ge].
    + rewrite !nth_error_app1 by exact Lt. reflexivity.
    + rewrite !nth_error_app2 by exact Ge. destruct (i - length b)%nat as [|k] eqn:K; [lia|]. reflexivity.
Qed.
Lemma mid_here {A} (b : list A) x c : nth_error (b ++ x :: c) (length b) = Some x.
Proof. rewrite nth_error_app2, Nat.sub_diag by lia. reflexivity. Qed.
Lemma mid_other {A} (b : list A) x c i z : i <> length b -> nth_error (b ++ x :: c) i = Some z -> In z (b ++ c).
Proof.
  intros N E. apply in_or_app. destruct (Nat.lt_ge_cases i (length b)) as [Lt|Ge].
  - left. rewrite nth_error_app1 in E by exact Lt. eapply nth_error_In, E.
  - right. rewrite nth_error_app2 in E by exact Ge. destruct (i - length b)%nat as [|k] eqn:K; [lia|]. eapply nth_error_In, E.
Qed.

(** [s1]: the cache as the finished calls left it *)
Record inv (s0 : state) (c : conf state place) (s1 : state) : Prop := mkInv {
  iv_alone : alone s0 (plain_log (log c)) s1;
  iv_part : forall i t a p, nth_error (callers c) i = Some t -> inside t = Some (a, p) -> locked a = true -> part (start co a) s1 p (shared c);
  iv_reads : forall i t a p, nth_error (callers c) i = Some t -> inside t = Some (a, p) -> lock_of co a <> Exclusive -> reads p;
  iv_excl : forall i j t u a p b q, i <> j -> nth_error (callers c) i = Some t -> nth_error (callers c) j = Some u -> inside t = Some (a, p) -> inside u = Some (b, q) ->
    beside (lock_of co a) (lock_of co b) = true;
  iv_quiet : (forall i t a p, nth_error (callers c) i = Some t -> inside t = Some (a, p) -> lock_of co a <> Exclusive) -> shared c = s1
}.

Lemma plain_snoc lg i a r : plain_log (lg ++ [(i, (a, r))]) = plain_log lg ++ (if locked a then [(a, r)] else []).
Proof. unfold plain_log. rewrite map_app, filter_app. cbn [map filter snd fst]. reflexivity. Qed.
Lemma beside_excl g : beside Exclusive g = true -> g = Unlocked.
Proof. destruct g; [discriminate|discriminate|reflexivity]. Qed.
Lemma beside_sym g h : beside g h = beside h g.
Proof. destruct g, h; reflexivity. Qed.

Lemma inv_step s0 c c' s1 : inv s0 c s1 -> step co c c' -> exists s1', inv s0 c' s1'.
Proof.
  intros [Al Pa Re Ex Qu] St. destruct St as [s before a rest after lg Ad | s s' before rest a p p' after lg Em | s s' before rest a p r after lg Em];
    cbn [shared callers log] in *.
  - (* enter *) rewrite forallb_forall in Ad.
    assert (forall i t b q, i <> length before -> nth_error (before ++ mkCaller (a :: rest) None :: after) i = Some t -> inside t = Some (b, q) -> beside (lock_of co a) (lock_of co b) = true) as Be.
    { intros i t b q N E I. specialize (Ad t (mid_other _ _ _ _ _ N E)). unfold admits in Ad. rewrite I in Ad. exact Ad. }
    exists s1. constructor; cbn [shared callers log].
    + exact Al.
    + intros i t b q E I Lk. destruct (nth_mid _ _ (mkCaller (a :: rest) None) _ _ _ E) as [(-> & ->)|(N & E')]; [|eapply Pa; eassumption].
      cbn [inside] in I. injection I as <- <-. rewrite Qu; [apply part_none|].
      intros i t b q E' I. destruct (nth_mid _ _ (mkCaller (a :: rest) None) _ _ _ E') as [(-> & ->)|(N & E'')]; [discriminate I|].
      specialize (Be i t b q N E'' I). unfold locked in Lk. destruct (lock_of co a), (lock_of co b); discriminate.
    + intros i t b q E I Lk. destruct (nth_mid _ _ (mkCaller (a :: rest) None) _ _ _ E) as [(-> & ->)|(N & E')]; [|eapply Re; eassumption].
      cbn [inside] in I. injection I as <- <-. apply reads_start, Lk.
    + intros i j t u b q d q' N E1 E2 I1 I2.
      destruct (nth_mid _ _ (mkCaller (a :: rest) None) _ _ _ E1) as [(-> & ->)|(N1 & E1')]; destruct (nth_mid _ _ (mkCaller (a :: rest) None) _ _ _ E2) as [(-> & ->)|(N2 & E2')]; [lia| | |].
      * cbn [inside] in I1. injection I1 as <- <-. eapply Be; eassumption.
      * cbn [inside] in I2. injection I2 as <- <-. rewrite beside_sym. eapply Be; eassumption.
      * eapply Ex; [exact N|eassumption..].
    + intro Q. apply Qu. intros i t b q E I. destruct (nth_mid _ _ (mkCaller rest (Some (a, start co a))) _ _ _ E) as [(-> & ->)|(N & E')]; [discriminate I|].
      eapply Q; eassumption.
  - (* work *)
    assert (forall i t b q, i <> length before -> nth_error (before ++ mkCaller rest (Some (a, p)) :: after) i = Some t -> inside t = Some (b, q) -> beside (lock_of co a) (lock_of co b) = true) as Be.
    { intros i t b q N E I. eapply Ex; [intro X; apply N; symmetry; exact X|apply mid_here|exact E|reflexivity|exact I]. }
    assert (lock_of co a <> Exclusive -> s' = s /\ reads p') as Rd.
    { intro Ne. apply (reads_micro p s s' (inl p')); [|exact Em]. eapply Re; [apply mid_here|reflexivity|exact Ne]. }
    exists s1. constructor; cbn [shared callers log].
    + exact Al.
    + intros i t b q E I Lk. destruct (nth_mid _ _ (mkCaller rest (Some (a, p))) _ _ _ E) as [(-> & ->)|(N & E')].
      * cbn [inside] in I. injection I as <- <-. eapply part_more; [|exact Em]. eapply Pa; [apply mid_here|reflexivity|exact Lk].
      * specialize (Be i t b q N E' I). assert (lock_of co a <> Exclusive) as Ne.
        { intro X. rewrite X in Be. apply beside_excl in Be. unfold locked in Lk. rewrite Be in Lk. discriminate Lk. }
        destruct (Rd Ne) as (-> & _). eapply Pa; eassumption.
    + intros i t b q E I Lk. destruct (nth_mid _ _ (mkCaller rest (Some (a, p))) _ _ _ E) as [(-> & ->)|(N & E')]; [|eapply Re; eassumption].
      cbn [inside] in I. injection I as <- <-. apply (Rd Lk).
    + intros i j t u b q d q' N E1 E2 I1 I2.
      destruct (nth_mid _ _ (mkCaller rest (Some (a, p))) _ _ _ E1) as [(-> & ->)|(N1 & E1')]; destruct (nth_mid _ _ (mkCaller rest (Some (a, p))) _ _ _ E2) as [(-> & ->)|(N2 & E2')]; [lia| | |].
      * cbn [inside] in I1. injection I1 as <- <-. eapply Be; eassumption.
      * cbn [inside] in I2. injection I2 as <- <-. rewrite beside_sym. eapply Be; eassumption.
      * eapply Ex; [exact N|eassumption..].
    + intro Q. assert (lock_of co a <> Exclusive) as Ne by (eapply Q; [apply mid_here|reflexivity]). destruct (Rd Ne) as (-> & _). apply Qu.
      intros i t b q E I. destruct (nth_mid _ _ (mkCaller rest (Some (a, p'))) _ _ _ E) as [(-> & ->)|(N & E')].
      * cbn [inside] in I. injection I as <- <-. exact Ne.
      * eapply Q; eassumption.
  - (* return *)
    assert (forall i t b q, i <> length before -> nth_error (before ++ mkCaller rest (Some (a, p)) :: after) i = Some t -> inside t = Some (b, q) -> beside (lock_of co a) (lock_of co b) = true) as Be.
    { intros i t b q N E I. eapply Ex; [intro X; apply N; symmetry; exact X|apply mid_here|exact E|reflexivity|exact I]. }
    assert (lock_of co a <> Exclusive -> s' = s) as Rd.
    { intro Ne. apply (reads_micro p s s' (inr r)); [|exact Em]. eapply Re; [apply mid_here|reflexivity|exact Ne]. }
    assert (forall i t b q, nth_error (before ++ mkCaller rest None :: after) i = Some t -> inside t = Some (b, q) ->
            i <> length before /\ nth_error (before ++ mkCaller rest (Some (a, p)) :: after) i = Some t) as Old.
    { intros i t b q E I. destruct (nth_mid _ _ (mkCaller rest (Some (a, p))) _ _ _ E) as [(-> & ->)|(N & E')]; [discriminate I|auto]. }
    assert (lock_of co a <> Exclusive -> (forall i t b q, nth_error (before ++ mkCaller rest None :: after) i = Some t -> inside t = Some (b, q) -> lock_of co b <> Exclusive) -> s = s1) as Q2.
    { intros Ne Q. apply Qu. intros i t b q E I. destruct (nth_mid _ _ (mkCaller rest None) _ _ _ E) as [(-> & ->)|(N & E')].
      - cbn [inside] in I. injection I as <- <-. exact Ne.
      - eapply Q; eassumption. }
    destruct (lock_of co a) eqn:La.
    + exists s'. constructor; cbn [shared callers log].
      * rewrite plain_snoc. unfold locked at 1. rewrite La. apply (alone_snoc co s0 _ s1 a r s' Al). eapply part_whole; [|apply whole_end, Em]. eapply Pa; [apply mid_here|reflexivity|unfold locked; rewrite La; reflexivity].
      * intros i t b q E I Lk. destruct (Old i t b q E I) as (N & E'). specialize (Be i t b q N E' I). apply beside_excl in Be. unfold locked in Lk. rewrite Be in Lk. discriminate Lk.
      * intros i t b q E I Lk. destruct (Old i t b q E I) as (N & E'). eapply Re; eassumption.
      * intros i j t u b q d q' N E1 E2 I1 I2. destruct (Old i t b q E1 I1) as (_ & E1'). destruct (Old j u d q' E2 I2) as (_ & E2'). eapply Ex; [exact N|eassumption..].
      * reflexivity.
    + assert (s' = s) as -> by (apply Rd; discriminate).
      assert (s = s1) as Es.
      { apply Q2; [discriminate|]. intros i t b q E I X. destruct (Old i t b q E I) as (N & E'). specialize (Be i t b q N E' I). rewrite X in Be. discriminate Be. }
      subst s1. exists s. constructor; cbn [shared callers log].
      * rewrite plain_snoc. unfold locked at 1. rewrite La. apply (alone_snoc co s0 _ s a r s Al). eapply part_whole; [|apply whole_end, Em].
        eapply Pa; [apply mid_here|reflexivity|unfold locked; rewrite La; reflexivity].
      * intros i t b q E I Lk. destruct (Old i t b q E I) as (N & E'). eapply Pa; eassumption.
      * intros i t b q E I Lk. destruct (Old i t b q E I) as (N & E'). eapply Re; eassumption.
      * intros i j t u b q d q' N E1 E2 I1 I2. destruct (Old i t b q E1 I1) as (_ & E1'). destruct (Old j u d q' E2 I2) as (_ & E2'). eapply Ex; [exact N|eassumption..].
      * reflexivity.
    + assert (s' = s) as -> by (apply Rd; discriminate).
      exists s1. constructor; cbn [shared callers log].
      * rewrite plain_snoc. unfold locked at 1. rewrite La, app_nil_r. exact Al.
      * intros i t b q E I Lk. destruct (Old i t b q E I) as (N & E'). eapply Pa; eassumption.
      * intros i t b q E I Lk. destruct (Old i t b q E I) as (N & E'). eapply Re; eassumption.
      * intros i j t u b q d q' N E1 E2 I1 I2. destruct (Old i t b q E1 I1) as (_ & E1'). destruct (Old j u d q' E2 I2) as (_ & E2'). eapply Ex; [exact N|eassumption..].
      * apply Q2. discriminate.
Qed.

Lemma start_outside (ps : list (list ask)) i t : nth_error (map (fun p => @mkCaller place p None) ps) i = Some t -> inside t = None.
Proof. intro E. apply nth_error_In in E. apply in_map_iff in E as (p & <- & _). reflexivity. Qed.
Lemma reach_inv s0 ps c : reach co s0 ps c -> exists s1, inv s0 c s1.
Proof.
  induction 1 as [|c c' _ (s1 & IH) St]; [|eapply inv_step; eassumption].
  exists s0. constructor; cbn [shared callers log].
  - apply alone_nil.
  - intros i t a p E I. apply start_outside in E. congruence.
  - intros i t a p E I. apply start_outside in E. congruence.
  - intros i j t u a p b q _ E _ I. apply start_outside in E. congruence.
  - reflexivity.
Qed.

(** the calls that returned, by goroutine, are the beginning of its program *)
Definition of_caller (i : nat) (lg : list (nat * (ask * reply))) : list ask := map (fun x => fst (snd x)) (filter (fun x => Nat.eqb (fst x) i) lg).
Lemma of_snoc i lg j a r : of_caller i (lg ++ [(j, (a, r))]) = of_caller i lg ++ (if Nat.eqb j i then [a] else []).
Proof. unfold of_caller. rewrite filter_app, map_app. cbn [filter fst]. destruct (Nat.eqb j i); reflexivity. Qed.
Lemma reach_callers s0 ps c : reach co s0 ps c -> length (callers c) = length ps /\ Forall (fun x => (fst x < length ps)%nat) (log c).
Proof.
  induction 1 as [|c c' _ (Ln & IH) St].
  - cbn [callers log]. split; [apply map_length|constructor].
  - destruct St as [s before a rest after lg Ad | s s' before rest a p p' after lg Em | s s' before rest a p r after lg Em]; cbn [callers log] in *;
      (split; [rewrite <- Ln, !app_length; reflexivity|]); [exact IH|exact IH|]. apply Forall_app. split; [exact IH|]. constructor; [|constructor].
    cbn [fst]. rewrite <- Ln, app_length. cbn [length]. lia.
Qed.
Lemma reach_order s0 ps c : reach co s0 ps c -> length (callers c) = length ps /\
  forall i t, nth_error (callers c) i = Some t -> nth_error ps i = Some (of_caller i (log c) ++ match inside t with Some (a, _) => [a] | None => [] end ++ todo t).
Proof.
  induction 1 as [|c c' _ (Ln & IH) St].
  - cbn [callers log]. split; [apply map_length|]. intros i t E. rewrite nth_error_map in E. destruct (nth_error ps i); [|discriminate E]. injection E as <-. reflexivity.
  - destruct St as [s before a rest after lg Ad | s s' before rest a p p' after lg Em | s s' before rest a p r after lg Em]; cbn [callers log] in *.
    + split; [rewrite <- Ln, !app_length; reflexivity|]. intros i t E. destruct (nth_mid _ _ (mkCaller (a :: rest) None) _ _ _ E) as [(-> & ->)|(N & E')]; [|apply IH, E'].
      rewrite (IH _ _ (mid_here _ _ _)). reflexivity.
    + split; [rewrite <- Ln, !app_length; reflexivity|]. intros i t E. destruct (nth_mid _ _ (mkCaller rest (Some (a, p))) _ _ _ E) as [(-> & ->)|(N & E')]; [|apply IH, E'].
      rewrite (IH _ _ (mid_here _ _ _)). reflexivity.
    + split; [rewrite <- Ln, !app_length; reflexivity|]. intros i t E. rewrite of_snoc. destruct (nth_mid _ _ (mkCaller rest (Some (a, p))) _ _ _ E) as [(-> & ->)|(N & E')].
      * rewrite (IH _ _ (mid_here _ _ _)), Nat.eqb_refl. cbn [inside todo app]. rewrite <- app_assoc. reflexivity.
      * rewrite (IH _ _ E'). destruct (Nat.eqb_spec (length before) i) as [X|_]; [congruence|]. rewrite app_nil_r. reflexivity.
Qed.

Lemma reach_calls s0 ps c (P : ask -> Prop) : reach co s0 ps c -> Forall (Forall P) ps -> Forall (fun x => P (fst (snd x))) (log c).
Proof.
  intros R F. apply Forall_forall. intros (i & a & r) Hin. cbn [fst snd]. destruct (reach_callers _ _ _ R) as (Ln & Fi). rewrite Forall_forall in Fi.
  specialize (Fi _ Hin). cbn [fst] in Fi. destruct (nth_error (callers c) i) as [t|] eqn:E; [|apply nth_error_None in E; lia].
  destruct (reach_order _ _ _ R) as (_ & O). specialize (O i t E). rewrite Forall_forall in F. specialize (F _ (nth_error_In _ _ O)). rewrite Forall_forall in F. apply F.
  apply in_or_app. left. unfold of_caller. apply in_map_iff. exists (i, (a, r)). split; [reflexivity|]. apply filter_In. split; [exact Hin|apply Nat.eqb_refl].
Qed.

(** what holds of the fields at every access of every call holds at every moment *)
Variable ok : state -> Prop.
Variable at_place : place -> state -> Prop.
Hypothesis ok_start : forall a s, ok s -> at_place (start co a) s.
Hypothesis at_micro : forall p s s' x, at_place p s -> micro co p s = (s', x) -> match x with inl p' => at_place p' s' | inr _ => ok s' end.
Lemma part_place p s p' s' : part p s p' s' -> at_place p s -> at_place p' s'.
Proof. induction 1 as [|p s p1 s1 p2 s2 _ IH E]; intro A; [exact A|]. specialize (at_micro p1 s1 s2 (inl p2) (IH A) E). exact at_micro. Qed.
Lemma whole_place p s s' r : whole p s s' r -> at_place p s -> ok s'.
Proof.
  induction 1 as [p s s' r E|p s s1 p1 s' r E _ IH]; intro A; [exact (at_micro p s s' (inr r) A E)|].
  apply IH. exact (at_micro p s s1 (inl p1) A E).
Qed.
Lemma alone_ok s0 l s : alone s0 l s -> ok s0 -> ok s.
Proof. induction 1 as [|l s a r s' _ IH W]; intro O; [exact O|]. eapply whole_place; [exact W|apply ok_start, IH, O]. Qed.
Hypothesis at_ok : forall p s, at_place p s -> ok s.
Lemma shared_ok s0 ps c : ok s0 -> reach co s0 ps c -> ok (shared c).
Proof.
  intros O R. destruct (reach_inv s0 ps c R) as (s1 & I). pose proof (alone_ok _ _ _ (iv_alone _ _ _ I) O) as O1.
  assert ((forall t, In t (callers c) -> match inside t with Some (a, _) => lock_of co a <> Exclusive | None => True end) \/
          exists t a p, In t (callers c) /\ inside t = Some (a, p) /\ lock_of co a = Exclusive) as [Q|(t & a & p & Hin & In' & La)].
  { clear. induction (callers c) as [|t l IH]; [left; intros t []|]. destruct (inside t) as [(a & p)|] eqn:It.
    - destruct (lock_of co a) eqn:La.
      1: right; exists t, a, p; split; [left; reflexivity|auto].
      all: destruct IH as [IH|(u & b & q & H & H')]; [left|right; exists u, b, q; split; [right; exact H|exact H']]; intros u [<- | H]; [rewrite It, La; discriminate|apply IH, H].
    - destruct IH as [IH|(u & b & q & H & H')]; [left|right; exists u, b, q; split; [right; exact H|exact H']]; intros u [<- | H]; [rewrite It; exact Logic.I|apply IH, H]. }
  - rewrite (iv_quiet _ _ _ I); [exact O1|]. intros i t a p E It. specialize (Q t (nth_error_In _ _ E)). rewrite It in Q. exact Q.
  - apply In_nth_error in Hin as (i & E). apply (at_ok p). eapply part_place; [|apply ok_start, O1]. eapply (iv_part _ _ _ I); [exact E|exact In'|]. unfold locked. rewrite La. reflexivity.
Qed.

(** Size, where it takes no lock *)
Variable size_of : state -> Z.
Hypothesis size_micro : forall s, micro co (start co SizeA) s = (s, inr (Count (size_of s))).
Variable fits : Z -> Prop.
Hypothesis ok_fits : forall s, ok s -> fits (size_of s).
Lemma sizes_fit s0 ps c : ok s0 -> reach co s0 ps c -> Forall (fun x => fst (snd x) = SizeA -> exists n, snd (snd x) = Count n /\ fits n) (log c).
Proof.
  intros O R. enough ((forall t p, In t (callers c) -> inside t = Some (SizeA, p) -> p = start co SizeA) /\ Forall (fun x => fst (snd x) = SizeA -> exists n, snd (snd x) = Count n /\ fits n) (log c)) as H by apply H.
  induction R as [|c c' R (IH1 & IH2) St].
  - split; [|constructor]. intros t p Hin I. cbn [callers] in Hin. apply in_map_iff in Hin as (q & <- & _). discriminate I.
  - pose proof (shared_ok s0 ps c O R) as Ok.
    destruct St as [s before a rest after lg Ad | s s' before rest a p p' after lg Em | s s' before rest a p r after lg Em]; cbn [shared callers log] in *.
    + split; [|exact IH2]. intros t q Hin I. apply in_app_or in Hin as [Hin|[<- | Hin]].
      * apply (IH1 t); [apply in_or_app; left; exact Hin|exact I].
      * cbn [inside] in I. injection I as -> <-. reflexivity.
      * apply (IH1 t); [apply in_or_app; right; right; exact Hin|exact I].
    + split; [|exact IH2]. intros t q Hin I. apply in_app_or in Hin as [Hin|[<- | Hin]].
      * apply (IH1 t); [apply in_or_app; left; exact Hin|exact I].
      * cbn [inside] in I. injection I as -> <-. assert (p = start co SizeA) as -> by (eapply IH1; [apply in_or_app; right; left; reflexivity|reflexivity]).
        rewrite size_micro in Em. discriminate Em.
      * apply (IH1 t); [apply in_or_app; right; right; exact Hin|exact I].
    + split.
      * intros t q Hin I. apply in_app_or in Hin as [Hin|[<- | Hin]]; [|discriminate I|].
        -- apply (IH1 t); [apply in_or_app; left; exact Hin|exact I].
        -- apply (IH1 t); [apply in_or_app; right; right; exact Hin|exact I].
      * apply Forall_app. split; [exact IH2|]. constructor; [|constructor]. cbn [fst snd]. intros ->.
        assert (p = start co SizeA) as -> by (eapply IH1; [apply in_or_app; right; left; reflexivity|reflexivity]).
        rewrite size_micro in Em. injection Em as <- <-. exists (size_of s). split; [reflexivity|apply ok_fits, Ok].
Qed.
End Machine.
