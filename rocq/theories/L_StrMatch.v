From Verif Require Import GoInt M_Util M_StrMatch S_Glob.
From Coq Require Import ZifyBool.
Notation star := 42%Z (only parsing).

(** * The string functions *)
Lemma has_prefix_iff s p : has_prefix s p = true <-> exists t, s = p ++ t.
Proof.
  revert s; induction p as [|x p IH]; intros s; cbn [has_prefix].
  - split; [exists s; reflexivity|reflexivity].
  - destruct s as [|y s]; [split; [discriminate|intros [t E]; discriminate]|].
    rewrite andb_true_iff, IH. split.
    + intros [E [t ->]]. exists t. cbn [app]. f_equal. lia.
    + intros [t E]. cbn [app] in E. injection E as -> ->. split; [lia|eauto].
Qed.
Lemma has_suffix_iff s p : has_suffix s p = true <-> exists t, s = t ++ p.
Proof.
  unfold has_suffix. rewrite has_prefix_iff. split; intros [t E].
  - exists (rev t). rewrite <- (rev_involutive s), E, rev_app_distr, rev_involutive. reflexivity.
  - exists (rev t). rewrite E, rev_app_distr. reflexivity.
Qed.
Lemma contains_iff s p : contains s p = true <-> exists a b, s = a ++ p ++ b.
Proof.
  induction s as [|c s IH]; cbn [contains]; rewrite orb_true_iff, has_prefix_iff.
  - split.
    + intros [[t E]|H]; [|discriminate]. exists [], t. exact E.
    + intros (a & b & E). left. exists b. symmetry in E. apply app_eq_nil in E as [-> E]. symmetry. exact E.
  - rewrite IH. split.
    + intros [[t E]|(a & b & ->)]; [exists [], t; exact E|exists (c :: a), b; reflexivity].
    + intros (a & b & E). destruct a as [|x a]; cbn [app] in E; [left; exists b; exact E|].
      injection E as -> ->. right. eauto.
Qed.
Lemma index_byte_none s b : ~ In b s -> index_byte s b = None.
Proof. induction s as [|c s IH]; intros H; cbn [index_byte]; [reflexivity|]. destruct (c =? b) eqn:E; [exfalso; apply H; left; lia|]. rewrite IH by (intro; apply H; right; assumption). reflexivity. Qed.
Lemma index_byte_app s b t : ~ In b s -> index_byte (s ++ b :: t) b = Some (length s).
Proof.
  induction s as [|c s IH]; intros H; cbn [index_byte app length]; [rewrite Z.eqb_refl; reflexivity|].
  destruct (c =? b) eqn:E; [exfalso; apply H; left; lia|]. rewrite IH by (intro; apply H; right; assumption). reflexivity.
Qed.

(** * glob on the shapes *)
Lemma glob_word_app s p t : no_star s -> glob (s ++ p) t <-> exists t', t = s ++ t' /\ glob p t'.
Proof.
  revert t; induction s as [|c s IH]; intros t H; cbn [app].
  - split; [intros G; exists t; auto|intros (t' & -> & G); exact G].
  - assert (c <> star) by (intros ->; apply H; left; reflexivity).
    assert (no_star s) by (intro; apply H; right; assumption). split.
    + intros G. inversion G as [|? ? t0 ? G0|]; subst; [|contradiction]. apply IH in G0 as (t' & -> & G'); [|assumption]. exists t'. auto.
    + intros (t' & -> & G). cbn [app]. constructor; [assumption|]. apply IH; eauto.
Qed.
Lemma glob_word s t : no_star s -> glob s t <-> t = s.
Proof.
  intros H. rewrite <- (app_nil_r s) at 1. rewrite glob_word_app by assumption. split.
  - intros (t' & -> & G). inversion G. rewrite app_nil_r. reflexivity.
  - intros ->. exists []. rewrite app_nil_r. split; [reflexivity|constructor].
Qed.
Lemma glob_star_iff p t : glob (star :: p) t <-> exists run t', t = run ++ t' /\ glob p t'.
Proof. split; [intros G; inversion G; subst; [contradiction|eauto]|intros (r & t' & -> & G); constructor; assumption]. Qed.

Lemma glob_nil_iff t : glob [] t <-> t = [].
Proof. split; [intros G; inversion G; reflexivity|intros ->; constructor]. Qed.

(** * new_strmatch on the shapes *)
Lemma nostar_cons c s : no_star (c :: s) -> c <> star /\ no_star s.
Proof. intros H. split; [intros ->; apply H; left; reflexivity|intro; apply H; right; assumption]. Qed.
Lemma nostar_last s d : no_star s -> s <> [] -> nth (length s - 1) s d <> star.
Proof. intros H Hn E. apply H. rewrite <- E. apply nth_In. destruct s; [contradiction|cbn [length]; lia]. Qed.
Lemma nth_last_snoc (s : gostring) x d : nth (length (s ++ [x]) - 1) (s ++ [x]) d = x.
Proof. rewrite app_length. cbn [length]. replace (length s + 1 - 1)%nat with (length s) by lia. rewrite app_nth2, Nat.sub_diag by lia. reflexivity. Qed.
Lemma beqb_len a b : length a <> length b -> beqb a b = false.
Proof. intros H. apply beqb_neq. congruence. Qed.
Lemma beqb_hd a b x y : x <> y -> beqb (x :: a) (y :: b) = false.
Proof. intros H. cbn [beqb]. replace (x =? y) with false by lia. reflexivity. Qed.

Lemma slice_mid (a b c : gostring) i j : i = length a -> j = (length a + length b)%nat -> slice i j (a ++ b ++ c) = b.
Proof.
  intros -> ->. unfold slice. rewrite skipn_app, skipn_all, Nat.sub_diag. cbn [app skipn].
  replace (length a + length b - length a)%nat with (length b) by lia.
  rewrite firstn_app, firstn_all, Nat.sub_diag. cbn [firstn]. apply app_nil_r.
Qed.
Lemma slice_mid' (s a b c : gostring) i j : s = a ++ b ++ c -> i = length a -> j = (length a + length b)%nat -> slice i j s = b.
Proof. intros ->. apply slice_mid. Qed.

Lemma new_word s : no_star s -> include (new_strmatch s) = include (mk_sm s C_EQU [] [] s []).
Proof.
  intros H. unfold new_strmatch. cbv zeta.
  replace (beqb s [star] || beqb s [star; star]) with false.
  2:{ symmetry. apply orb_false_iff. split; apply beqb_neq; intros ->; apply H; left; reflexivity. }
  destruct (length s <? 2)%nat eqn:El; [reflexivity|]. apply Nat.ltb_ge in El.
  destruct s as [|c s]; [cbn in El; lia|]. destruct (nostar_cons _ _ H) as [Hc Hs].
  replace (nth 0 (c :: s) 0 =? star) with false by (cbn [nth]; lia).
  pose proof (nostar_last (c :: s) 0 H ltac:(discriminate)) as Hl.
  replace (nth (length (c :: s) - 1) (c :: s) 0 =? star) with false by lia.
  cbn [skipn]. rewrite index_byte_none by exact Hs. reflexivity.
Qed.

Lemma new_prefix s : no_star s -> s <> [] -> new_strmatch (s ++ [star]) = mk_sm (s ++ [star]) C_STR s [] [] [].
Proof.
  intros H Hn. unfold new_strmatch. cbv zeta.
  destruct s as [|c s]; [contradiction|]. destruct (nostar_cons _ _ H) as [Hc Hs]. cbn [app].
  rewrite !(beqb_hd _ _ c star) by assumption. cbn [orb].
  replace (length (c :: s ++ [star]) <? 2)%nat with false by (symmetry; apply Nat.ltb_ge; cbn [length]; rewrite app_length; cbn [length]; lia).
  replace (nth 0 (c :: s ++ [star]) 0 =? star) with false by (cbn [nth]; lia).
  pose proof (nth_last_snoc (c :: s) star 0) as E. cbn [app] in E. rewrite E. replace (star =? star) with true by reflexivity.
  cbn [skipn]. rewrite index_byte_app by exact Hs. cbn [option_map].
  replace (S (length s) <? length (c :: s ++ [star]) - 1)%nat with false by (symmetry; apply Nat.ltb_ge; cbn [length]; rewrite app_length; cbn [length]; lia).
  rewrite andb_false_r. cbn [andb]. f_equal.
  apply (slice_mid' _ [] (c :: s) [star]); [reflexivity|reflexivity|]. cbn [length plus]. rewrite app_length. cbn [length]. lia.
Qed.

Lemma new_suffix s : no_star s -> s <> [] -> new_strmatch (star :: s) = mk_sm (star :: s) C_END [] s [] [].
Proof.
  intros H Hn. unfold new_strmatch. cbv zeta.
  destruct s as [|c s]; [contradiction|]. destruct (nostar_cons _ _ H) as [Hc Hs].
  rewrite (beqb_len (star :: c :: s) [star]) by (cbn [length]; lia).
  replace (beqb (star :: c :: s) [star; star]) with false by (symmetry; apply beqb_neq; congruence). cbn [orb].
  replace (length (star :: c :: s) <? 2)%nat with false by (symmetry; apply Nat.ltb_ge; cbn [length]; lia).
  replace (nth 0 (star :: c :: s) 0 =? star) with true by reflexivity.
  replace (nth (length (star :: c :: s) - 1) (star :: c :: s) 0 =? star) with false.
  2:{ pose proof (nostar_last (c :: s) 0 H ltac:(discriminate)) as Hl.
      replace (length (star :: c :: s) - 1)%nat with (S (length (c :: s) - 1)) by (cbn [length]; lia).
      change (nth (S (length (c :: s) - 1)) (star :: c :: s) 0) with (nth (length (c :: s) - 1) (c :: s) 0). lia. }
  change (skipn 1 (star :: c :: s)) with (c :: s). rewrite index_byte_none by exact H. cbn [option_map andb]. f_equal.
  apply (slice_mid' _ [star] (c :: s) []); [rewrite app_nil_r; reflexivity|reflexivity|reflexivity].
Qed.

Lemma new_infix s : no_star s -> s <> [] -> new_strmatch (star :: s ++ [star]) = mk_sm (star :: s ++ [star]) C_MID [] [] s [].
Proof.
  intros H Hn. unfold new_strmatch. cbv zeta.
  assert (0 < length s)%nat by (destruct s; [contradiction|cbn [length]; lia]).
  rewrite (beqb_len (star :: s ++ [star]) [star]) by (cbn [length]; rewrite app_length; cbn [length]; lia).
  rewrite (beqb_len (star :: s ++ [star]) [star; star]) by (cbn [length]; rewrite app_length; cbn [length]; lia). cbn [orb].
  replace (length (star :: s ++ [star]) <? 2)%nat with false by (symmetry; apply Nat.ltb_ge; cbn [length]; rewrite app_length; lia).
  replace (nth 0 (star :: s ++ [star]) 0 =? star) with true by reflexivity.
  pose proof (nth_last_snoc (star :: s) star 0) as E. cbn [app] in E. rewrite E. replace (star =? star) with true by reflexivity.
  change (skipn 1 (star :: s ++ [star])) with (s ++ [star]). rewrite index_byte_app by exact H. cbn [option_map].
  replace (S (length s) <? length (star :: s ++ [star]) - 1)%nat with false by (symmetry; apply Nat.ltb_ge; cbn [length]; rewrite app_length; cbn [length]; lia).
  rewrite andb_false_r. cbn [andb]. f_equal.
  apply (slice_mid' _ [star] s [star]); [reflexivity|reflexivity|]. cbn [length]. rewrite app_length. cbn [length]. lia.
Qed.

Lemma inc_nonempty m t : t <> [] -> include m t =
    match sm_comp m with
    | C_ANY => true
    | C_EQU => beqb (sm_mid m) t
    | C_STR => has_prefix t (sm_start m)
    | C_STR_MID => has_prefix t (sm_start m) && contains t (sm_mid m)
    | C_STR_END => has_prefix t (sm_start m) && has_suffix t (sm_end m)
    | C_MID => contains t (sm_mid m)
    | C_MID_MID => contains t (sm_mid m) && (contains t (sm_mid2 m) && has_suffix t (sm_end m))
    | C_MID_END => contains t (sm_mid m) && has_suffix t (sm_end m)
    | C_END => has_suffix t (sm_end m)
    end.
Proof. destruct t; [contradiction|reflexivity]. Qed.

Lemma glob_any t : glob [star] t.
Proof. apply glob_star_iff. exists t, []. rewrite app_nil_r. split; [reflexivity|constructor]. Qed.

Lemma exact_match p t : exact_shape p -> t <> [] -> (include (new_strmatch p) t = true <-> glob p t).
Proof.
  intros Hs Ht. destruct Hs as [s H| | |s H|s H|s H].
  - rewrite new_word by assumption. rewrite inc_nonempty by assumption. cbn [sm_comp sm_mid].
    rewrite beqb_eq, glob_word by assumption. split; congruence.
  - split; [intros _; apply glob_any|intros _; destruct t; [contradiction|reflexivity]].
  - split; [intros _|intros _; destruct t; [contradiction|reflexivity]].
    apply glob_star_iff. exists [], t. split; [reflexivity|apply glob_any].
  - destruct s as [|c s].
    { cbn [app]. split; [intros _; apply glob_any|intros _; destruct t; [contradiction|reflexivity]]. }
    rewrite new_prefix by (try assumption; discriminate). rewrite inc_nonempty by assumption. cbn [sm_comp sm_start].
    rewrite has_prefix_iff, glob_word_app by assumption. split; intros [t' E]; [exists t'; split; [exact E|apply glob_any]|exists t'; tauto].
  - destruct s as [|c s].
    { split; [intros _; apply glob_any|intros _; destruct t; [contradiction|reflexivity]]. }
    rewrite new_suffix by (try assumption; discriminate). rewrite inc_nonempty by assumption. cbn [sm_comp sm_end].
    rewrite has_suffix_iff, glob_star_iff. split.
    + intros [t' ->]. exists t', (c :: s). split; [reflexivity|apply glob_word; auto].
    + intros (r & t' & -> & G). apply glob_word in G; [|assumption]. subst. eauto.
  - destruct s as [|c s].
    { cbn [app]. split; [intros _|intros _; destruct t; [contradiction|reflexivity]].
      apply glob_star_iff. exists [], t. split; [reflexivity|apply glob_any]. }
    rewrite new_infix by (try assumption; discriminate). rewrite inc_nonempty by assumption. cbn [sm_comp sm_mid].
    rewrite contains_iff, glob_star_iff. split.
    + intros (a & b & ->). exists a, ((c :: s) ++ b). split; [reflexivity|]. apply glob_word_app; [assumption|]. exists b. split; [reflexivity|apply glob_any].
    + intros (r & t' & -> & G). apply glob_word_app in G as (b & -> & _); [|assumption]. eauto.
Qed.

(** * Two pieces *)
Lemma new_both s e : no_star s -> no_star e -> s <> [] -> e <> [] ->
  new_strmatch (s ++ star :: e) = mk_sm (s ++ star :: e) C_STR_END s e [] [].
Proof.
  intros H He Hn Hne. unfold new_strmatch. cbv zeta.
  assert (0 < length e)%nat as Hle by (destruct e; [contradiction|cbn [length]; lia]).
  destruct s as [|c s]; [contradiction|]. destruct (nostar_cons _ _ H) as [Hc Hs]. cbn [app].
  rewrite !(beqb_hd _ _ c star) by assumption. cbn [orb].
  replace (length (c :: s ++ star :: e) <? 2)%nat with false by (symmetry; apply Nat.ltb_ge; cbn [length]; rewrite app_length; cbn [length]; lia).
  replace (nth 0 (c :: s ++ star :: e) 0 =? star) with false by (cbn [nth]; lia).
  replace (nth (length (c :: s ++ star :: e) - 1) (c :: s ++ star :: e) 0 =? star) with false.
  2:{ pose proof (nostar_last e 0 He Hne) as Hl.
      replace (c :: s ++ star :: e) with ((c :: s ++ [star]) ++ e) by (cbn [app]; rewrite <- app_assoc; reflexivity).
      rewrite app_length. rewrite app_nth2 by lia.
      replace (length (c :: s ++ [star]) + length e - 1 - length (c :: s ++ [star]))%nat with (length e - 1)%nat by lia. lia. }
  cbn [skipn]. rewrite index_byte_app by exact Hs. cbn [option_map].
  replace (S (length s) <? length (c :: s ++ star :: e) - 1)%nat with true by (symmetry; apply Nat.ltb_lt; cbn [length]; rewrite app_length; cbn [length]; lia).
  replace (0 <? S (length s))%nat with true by reflexivity. cbn [andb]. f_equal.
  - apply (slice_mid' _ [] (c :: s) (star :: e)); reflexivity.
  - apply (slice_mid' _ (c :: s ++ [star]) e []).
    + rewrite app_nil_r. cbn [app]. rewrite <- app_assoc. reflexivity.
    + cbn [length]. rewrite app_length. cbn [length]. lia.
    + cbn [length]. rewrite !app_length. cbn [length]. lia.
Qed.

Lemma new_str_mid s m : no_star s -> no_star m -> s <> [] ->
  new_strmatch (s ++ star :: m ++ [star]) = mk_sm (s ++ star :: m ++ [star]) C_STR_MID s [] m [].
Proof.
  intros H Hm Hn. unfold new_strmatch. cbv zeta.
  destruct s as [|c s]; [contradiction|]. destruct (nostar_cons _ _ H) as [Hc Hs]. cbn [app].
  rewrite !(beqb_hd _ _ c star) by assumption. cbn [orb].
  assert (length (c :: s ++ star :: m ++ [star]) = length s + length m + 3)%nat as L by (cbn [length]; rewrite app_length; cbn [length]; rewrite app_length; cbn [length]; lia).
  replace (length (c :: s ++ star :: m ++ [star]) <? 2)%nat with false by (symmetry; apply Nat.ltb_ge; lia).
  replace (nth 0 (c :: s ++ star :: m ++ [star]) 0 =? star) with false by (cbn [nth]; lia).
  pose proof (nth_last_snoc (c :: s ++ star :: m) star 0) as E. cbn [app] in E. rewrite <- app_assoc in E. cbn [app] in E. rewrite E.
  replace (star =? star) with true by reflexivity.
  cbn [skipn]. rewrite index_byte_app by exact Hs. cbn [option_map].
  replace (S (length s) <? length (c :: s ++ star :: m ++ [star]) - 1)%nat with true by (symmetry; apply Nat.ltb_lt; lia).
  replace (0 <? S (length s))%nat with true by reflexivity. cbn [andb]. f_equal.
  - apply (slice_mid' _ [] (c :: s) (star :: m ++ [star])); reflexivity.
  - apply (slice_mid' _ (c :: s ++ [star]) m [star]).
    + cbn [app]. rewrite <- app_assoc. reflexivity.
    + cbn [length]. rewrite app_length. cbn [length]. lia.
    + rewrite L. cbn [length]. rewrite !app_length. cbn [length]. lia.
Qed.

Lemma new_mid_end m e : no_star m -> no_star e -> e <> [] ->
  new_strmatch (star :: m ++ star :: e) = mk_sm (star :: m ++ star :: e) C_MID_END [] e m [].
Proof.
  intros Hm He Hne. unfold new_strmatch. cbv zeta.
  assert (0 < length e)%nat as Hle by (destruct e; [contradiction|cbn [length]; lia]).
  assert (length (star :: m ++ star :: e) = length m + length e + 2)%nat as L by (cbn [length]; rewrite app_length; cbn [length]; lia).
  rewrite (beqb_len (star :: m ++ star :: e) [star]) by (rewrite L; cbn [length]; lia).
  rewrite (beqb_len (star :: m ++ star :: e) [star; star]) by (rewrite L; cbn [length]; lia). cbn [orb].
  replace (length (star :: m ++ star :: e) <? 2)%nat with false by (symmetry; apply Nat.ltb_ge; lia).
  replace (nth 0 (star :: m ++ star :: e) 0 =? star) with true by reflexivity.
  replace (nth (length (star :: m ++ star :: e) - 1) (star :: m ++ star :: e) 0 =? star) with false.
  2:{ pose proof (nostar_last e 0 He Hne) as Hl.
      replace (star :: m ++ star :: e) with ((star :: m ++ [star]) ++ e) by (cbn [app]; rewrite <- app_assoc; reflexivity).
      rewrite app_length. rewrite app_nth2 by lia.
      replace (length (star :: m ++ [star])%Z + length e - 1 - length (star :: m ++ [star])%Z)%nat with (length e - 1)%nat by lia. lia. }
  change (skipn 1 (star :: m ++ star :: e)) with (m ++ star :: e). rewrite index_byte_app by exact Hm. cbn [option_map].
  replace (S (length m) <? length (star :: m ++ star :: e) - 1)%nat with true by (symmetry; apply Nat.ltb_lt; lia).
  replace (0 <? S (length m))%nat with true by reflexivity. cbn [andb]. f_equal.
  - apply (slice_mid' _ (star :: m ++ [star]) e []).
    + rewrite app_nil_r. cbn [app]. rewrite <- app_assoc. reflexivity.
    + cbn [length]. rewrite app_length. cbn [length]. lia.
    + rewrite L. cbn [length]. rewrite !app_length. cbn [length]. lia.
  - apply (slice_mid' _ [star] m (star :: e)); [reflexivity|reflexivity|]. cbn [length]. lia.
Qed.

Lemma new_mid_mid m m2 : no_star m -> no_star m2 ->
  new_strmatch (star :: m ++ star :: m2 ++ [star]) = mk_sm (star :: m ++ star :: m2 ++ [star]) C_MID_MID [] [] m m2.
Proof.
  intros Hm Hm2. unfold new_strmatch. cbv zeta.
  assert (length (star :: m ++ star :: m2 ++ [star]) = length m + length m2 + 3)%nat as L by (cbn [length]; rewrite app_length; cbn [length]; rewrite app_length; cbn [length]; lia).
  rewrite (beqb_len _ [star]) by (rewrite L; cbn [length]; lia).
  rewrite (beqb_len _ [star; star]) by (rewrite L; cbn [length]; lia). cbn [orb].
  replace (length (star :: m ++ star :: m2 ++ [star]) <? 2)%nat with false by (symmetry; apply Nat.ltb_ge; lia).
  replace (nth 0 (star :: m ++ star :: m2 ++ [star]) 0 =? star) with true by reflexivity.
  pose proof (nth_last_snoc (star :: m ++ star :: m2) star 0) as E. cbn [app] in E. rewrite <- app_assoc in E. cbn [app] in E. rewrite E.
  replace (star =? star) with true by reflexivity.
  change (skipn 1 (star :: m ++ star :: m2 ++ [star])) with (m ++ star :: m2 ++ [star]). rewrite index_byte_app by exact Hm. cbn [option_map].
  replace (S (length m) <? length (star :: m ++ star :: m2 ++ [star]) - 1)%nat with true by (symmetry; apply Nat.ltb_lt; lia).
  replace (0 <? S (length m))%nat with true by reflexivity. cbn [andb]. f_equal.
  - apply (slice_mid' _ [star] m (star :: m2 ++ [star])); [reflexivity|reflexivity|]. cbn [length]. lia.
  - apply (slice_mid' _ (star :: m ++ [star]) m2 [star]).
    + cbn [app]. rewrite <- app_assoc. reflexivity.
    + cbn [length]. rewrite app_length. cbn [length]. lia.
    + rewrite L. cbn [length]. rewrite !app_length. cbn [length]. lia.
Qed.

Lemma contains_intro a p b : contains (a ++ p ++ b) p = true.
Proof. apply contains_iff. eauto. Qed.

(** s*e: matched exactly when the target starts with s and ends with e (they may overlap) *)
Lemma both_match s e t : no_star s -> no_star e -> s <> [] -> e <> [] -> t <> [] ->
  include (new_strmatch (s ++ star :: e)) t = has_prefix t s && has_suffix t e.
Proof. intros. rewrite new_both by assumption. rewrite inc_nonempty by assumption. reflexivity. Qed.

Lemma glob_both s e t : no_star s -> no_star e ->
  glob (s ++ star :: e) t <-> has_prefix t s = true /\ has_suffix t e = true /\ (length s + length e <= length t)%nat.
Proof.
  intros Hs He. rewrite glob_word_app by assumption. rewrite has_prefix_iff, has_suffix_iff. split.
  - intros (t' & -> & G). apply glob_star_iff in G as (r & e' & -> & G). apply glob_word in G; [|assumption]. subst e'.
    split; [eauto|]. split; [exists (s ++ r); rewrite app_assoc; reflexivity|]. rewrite !app_length. lia.
  - intros ([t1 ->] & [t2 E] & Hl). exists t1. split; [reflexivity|]. rewrite app_length in Hl.
    assert (exists r, t1 = r ++ e) as [r ->].
    { exists (firstn (length t1 - length e) t1).
      assert (skipn (length (s ++ t1) - length e) (s ++ t1) = e) as Es.
      { rewrite E. rewrite app_length. replace (length t2 + length e - length e)%nat with (length t2) by lia.
        rewrite skipn_app, skipn_all, Nat.sub_diag. reflexivity. }
      rewrite app_length in Es. replace (length s + length t1 - length e)%nat with (length s + (length t1 - length e))%nat in Es by lia.
      rewrite skipn_app in Es. rewrite skipn_all2 in Es by lia. cbn [app] in Es.
      replace (length s + (length t1 - length e) - length s)%nat with (length t1 - length e)%nat in Es by lia.
      rewrite <- (firstn_skipn (length t1 - length e) t1) at 1. rewrite Es. reflexivity. }
    apply glob_star_iff. exists r, e. split; [reflexivity|apply glob_word; auto].
Qed.

(** no false negatives *)
Lemma two_piece_complete p t : two_piece_shape p -> t <> [] -> glob p t -> include (new_strmatch p) t = true.
Proof.
  intros Hs Ht G. destruct Hs as [s e Hs He|s m Hs Hm|m e Hm He|m m2 Hm Hm2].
  - destruct s as [|c s].
    { apply exact_match; [constructor; assumption|assumption|exact G]. }
    destruct e as [|d e].
    { apply exact_match; [apply sh_prefix; assumption|assumption|exact G]. }
    rewrite both_match by (try assumption; discriminate). apply glob_both in G as (G1 & G2 & _); [|assumption..]. rewrite G1, G2. reflexivity.
  - apply glob_word_app in G as (t' & -> & G); [|assumption]. apply glob_star_iff in G as (r & t'' & -> & G).
    apply glob_word_app in G as (t3 & -> & G); [|assumption].
    destruct s as [|c s].
    { cbn [app]. apply exact_match; [apply sh_infix; assumption|assumption|]. apply glob_star_iff. exists r, (m ++ t3).
      split; [reflexivity|]. apply glob_word_app; [assumption|]. exists t3. split; [reflexivity|apply glob_any]. }
    rewrite new_str_mid by (try assumption; discriminate). rewrite inc_nonempty by assumption. cbn [sm_comp sm_start sm_mid].
    apply andb_true_iff. split; [apply has_prefix_iff; eauto|]. rewrite app_assoc. apply contains_intro.
  - apply glob_star_iff in G as (r & t' & -> & G). apply glob_word_app in G as (t3 & -> & G); [|assumption].
    apply glob_star_iff in G as (r2 & e' & -> & G). apply glob_word in G; [|assumption]. subst e'.
    destruct e as [|d e].
    { destruct m as [|c m].
      - cbn [app]. destruct (r ++ r2 ++ []) eqn:E; [|reflexivity]. exfalso. apply Ht. exact E.
      - apply exact_match; [apply sh_infix; assumption|assumption|]. apply glob_star_iff. exists r, ((c :: m) ++ r2 ++ []).
        split; [reflexivity|]. apply glob_word_app; [assumption|]. eexists. split; [reflexivity|apply glob_any]. }
    rewrite new_mid_end by (try assumption; discriminate). rewrite inc_nonempty by assumption. cbn [sm_comp sm_end sm_mid].
    apply andb_true_iff. split; [apply contains_intro|]. apply has_suffix_iff. exists (r ++ m ++ r2). rewrite <- !app_assoc. reflexivity.
  - apply glob_star_iff in G as (r & t' & -> & G). apply glob_word_app in G as (t3 & -> & G); [|assumption].
    apply glob_star_iff in G as (r2 & e' & -> & G). apply glob_word_app in G as (t4 & -> & G); [|assumption].
    rewrite new_mid_mid by assumption. rewrite inc_nonempty by assumption. cbn [sm_comp sm_end sm_mid sm_mid2].
    rewrite contains_intro. cbn [andb]. apply andb_true_iff. split.
    + apply contains_iff. exists (r ++ m ++ r2), t4. rewrite <- !app_assoc. reflexivity.
    + apply has_suffix_iff. exists (r ++ m ++ r2 ++ m2 ++ t4). rewrite app_nil_r. reflexivity.
Qed.

(** the comma separated matcher never matches *)
Lemma comma_never patterns t : is_match (comma_matcher patterns) t = false.
Proof.
  unfold is_match, comma_matcher. destruct (split_byte 44 patterns) as [|p l] eqn:E; [reflexivity|]. clear E.
  generalize (p :: l) as ps. intros ps. induction ps as [|q ps IH]; cbn [map existsb]; [reflexivity|].
  rewrite IH, orb_false_r. destruct t; reflexivity.
Qed.
