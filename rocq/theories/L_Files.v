From Verif Require Import GoInt M_Util M_StrMatch M_Dump M_Conf M_Files S_Conf S_Dump S_Files L_Dump.

(** * Environment *)
Lemma entry_iff name e v : env_entry e name v <-> name <> [] /\ ~ In 61 name /\ e = name ++ 61 :: v.
Proof. unfold env_entry. cbn. tauto. Qed.
Lemma prefix_test name e : beqb (firstn (length name + 1) e) (name ++ [61]) = true <-> exists v, e = name ++ 61 :: v.
Proof.
  split.
  - intro H. apply beqb_eq in H. exists (skipn (length name + 1) e).
    rewrite <- (firstn_skipn (length name + 1) e) at 1. rewrite H, <- app_assoc. reflexivity.
  - intros (v & ->). replace (name ++ 61 :: v) with ((name ++ [61]) ++ v) by (rewrite <- app_assoc; reflexivity).
    replace (length name + 1)%nat with (length (name ++ [61])) by (rewrite app_length; reflexivity).
    rewrite firstn_app, firstn_all, Nat.sub_diag. cbn [firstn]. rewrite app_nil_r. apply beqb_refl.
Qed.
Lemma entry_value name v : skipn (length name + 1) (name ++ 61 :: v) = v.
Proof.
  replace (name ++ 61 :: v) with ((name ++ [61]) ++ v) by (rewrite <- app_assoc; reflexivity).
  replace (length name + 1)%nat with (length (name ++ [61])) by (rewrite app_length; reflexivity).
  rewrite skipn_app, skipn_all, Nat.sub_diag. reflexivity.
Qed.

Lemma getenv_spec name env : name <> [] -> ~ In 61 name ->
  (exists v, var_is env name v /\ getenv name env = v) \/ ((forall e t, In e env -> ~ env_entry e name t) /\ getenv name env = []).
Proof.
  intros N E. induction env as [|e env IH]; [right; split; [intros ? ? []|reflexivity]|].
  cbn [getenv]. destruct (beqb (firstn (length name + 1) e) (name ++ [61])) eqn:B.
  - apply prefix_test in B as (v & ->). left. exists v. rewrite entry_value. split; [|reflexivity].
    exists [], (name ++ 61 :: v), env. repeat split; [exact N|exact E|]. intros ? ? [].
  - assert (forall t, ~ env_entry e name t) as X.
    { intros t H. apply entry_iff in H as (_ & _ & ->). rewrite (proj2 (prefix_test name _)) in B; [discriminate B|exists t; reflexivity]. }
    destruct IH as [(v & (a & x & b & -> & He & Hb) & G)|(Hn & G)].
    + left. exists v. split; [|exact G]. exists (e :: a), x, b. split; [reflexivity|]. split; [exact He|].
      intros e' t [<-|I]; [apply X|apply Hb, I].
    + right. split; [|exact G]. intros e' t [<-|I]; [apply X|apply Hn, I].
Qed.
Lemma var_is_fun env name v w : var_is env name v -> var_is env name w -> v = w.
Proof.
  intros (a & x & b & E1 & H1 & N1) (a' & x' & b' & E2 & H2 & N2). rewrite E1 in E2. clear E1.
  revert a' E2 N2. induction a as [|y a IH]; intros [|y' a'] E2 N2; cbn in E2; injection E2 as Ey E2.
  - subst x'. apply entry_iff in H1 as (_ & _ & H1). apply entry_iff in H2 as (_ & _ & H2). rewrite H1 in H2.
    apply app_inv_head in H2. injection H2 as H2. exact H2.
  - subst y'. destruct (N2 x v); [left; reflexivity|exact H1].
  - subst x'. destruct (N1 y w); [left; reflexivity|exact H2].
  - subst y'. refine (IH _ a' E2 _); [intros e t I; apply N1; right; exact I|intros e t I; apply N2; right; exact I].
Qed.
Lemma getenv_set name env v : name <> [] -> ~ In 61 name -> v <> [] -> (getenv name env = v <-> var_set env name v).
Proof.
  intros N E V. destruct (getenv_spec name env N E) as [(u & Hu & G)|(Hn & G)]; rewrite G; split.
  - intros <-. split; [exact Hu|exact V].
  - intros (Hv & _). exact (var_is_fun _ _ _ _ Hu Hv).
  - intros <-. contradiction V. reflexivity.
  - intros ((a & x & b & -> & He & _) & _). destruct (Hn x v); [apply in_or_app; right; left; reflexivity|exact He].
Qed.
Lemma getenv_unset name env : name <> [] -> ~ In 61 name -> (getenv name env = [] <-> var_unset env name).
Proof.
  intros N E. split.
  - intros G v (Hv & V). destruct (getenv name env) eqn:X; [|discriminate G].
    assert (getenv name env = v) by (apply getenv_set; [exact N|exact E|exact V|split; assumption]). congruence.
  - intro U. destruct (getenv name env) as [|z b] eqn:X; [reflexivity|exfalso]. apply (U (z :: b)).
    apply getenv_set; [exact N|exact E|discriminate|exact X].
Qed.

(** * Paths *)
Lemma slashed_join cs : slashed cs = join_slash cs.
Proof. induction cs as [|c [|d cs] IH]; [reflexivity|reflexivity|]. change (c ++ 47 :: slashed (d :: cs) = c ++ slash :: join_slash (d :: cs)). rewrite IH. reflexivity. Qed.
Lemma split_nonempty sep s : split_byte sep s <> [].
Proof.
  unfold split_byte. assert (forall cur, split_go sep cur s <> []) as H; [|apply H].
  induction s as [|x s IH]; intro cur; cbn; [discriminate|]. destruct (x =? sep); [discriminate|apply IH].
Qed.
Lemma split_comps sep s : Forall (fun c => ~ In sep c) (split_byte sep s).
Proof. apply split_nosep_comp. intros []. Qed.
Lemma join_split s : join_slash (split_byte slash s) = s.
Proof.
  unfold split_byte. assert (forall cur, join_slash (split_go slash cur s) = rev cur ++ s) as H; [|apply H].
  induction s as [|x s IH]; intro cur; cbn [split_go].
  - cbn. symmetry. apply app_nil_r.
  - destruct (x =? slash) eqn:E.
    + apply Z.eqb_eq in E. subst x. pose proof (split_nonempty slash s) as N. unfold split_byte in N. pose proof (IH []) as I.
      destruct (split_go slash [] s) as [|c cs] eqn:G; [contradiction N; reflexivity|].
      change (rev cur ++ slash :: join_slash (c :: cs) = rev cur ++ slash :: s). rewrite I. reflexivity.
    + rewrite IH. cbn [rev]. rewrite <- app_assoc. reflexivity.
Qed.
Lemma dotdot_plain c : plain_name c -> beqb c [] = false /\ beqb c dot = false /\ beqb c dotdot = false.
Proof. intros (A & B & C & _). repeat split; apply beqb_neq; assumption. Qed.

Lemma follow_walk at_ cs to : follow at_ cs to -> walk_from at_ cs = to.
Proof.
  intro F. induction F as [at_|at_ c cs to H F IH|dir l cs to F IH|cs to F IH|at_ c cs to P F IH]; cbn [walk_from].
  - reflexivity.
  - replace (beqb c [] || beqb c dot) with true; [exact IH|]. destruct H as [-> | ->]; reflexivity.
  - replace (beqb (of_string "..") [] || beqb (of_string "..") dot) with false by reflexivity.
    replace (beqb (of_string "..") dotdot) with true by reflexivity. rewrite removelast_last. exact IH.
  - replace (beqb (of_string "..") [] || beqb (of_string "..") dot) with false by reflexivity.
    replace (beqb (of_string "..") dotdot) with true by reflexivity. exact IH.
  - destruct (dotdot_plain c P) as (-> & -> & ->). exact IH.
Qed.
Lemma walk_follow cs : Forall (fun c => ~ In 47 c) cs -> forall at_, follow at_ cs (walk_from at_ cs).
Proof.
  induction 1 as [|c cs Hc Hcs IH]; intro at_; [constructor|]. cbn [walk_from].
  destruct (beqb_spec c []) as [E1|E1]; [apply follow_stay; [left; exact E1|apply IH]|].
  destruct (beqb_spec c dot) as [E2|E2]; [apply follow_stay; [right; exact E2|apply IH]|]. cbn [orb].
  destruct (beqb_spec c dotdot) as [E3|E3].
  - rewrite E3. destruct at_ as [|a at_] using rev_ind.
    + apply follow_top, IH.
    + rewrite removelast_last. apply follow_up, IH.
  - apply follow_down; [repeat split; assumption|apply IH].
Qed.
Lemma rooted_absolute s : is_rooted s = true <-> absolute s.
Proof.
  destruct s as [|c s]; cbn; split.
  - discriminate.
  - intros (s' & E). discriminate E.
  - intro E. apply Z.eqb_eq in E. subst c. exists s. reflexivity.
  - intros (s' & E). injection E as -> _. reflexivity.
Qed.
Lemma leads_locate pl name to : leads_to pl name to <-> to = locate pl name.
Proof.
  split.
  - intros (cs & N & Hs & -> & H). unfold locate. rewrite slashed_join in *. rewrite (split_join cs N Hs).
    destruct H as [(A & F)|(A & F)]; apply follow_walk in F.
    + apply rooted_absolute in A. rewrite A. symmetry. exact F.
    + destruct (is_rooted (join_slash cs)) eqn:R; [apply rooted_absolute in R; contradiction|symmetry; exact F].
  - intros ->. exists (split_byte slash name). split; [apply split_nonempty|]. split; [apply split_comps|].
    split; [rewrite slashed_join, join_split; reflexivity|]. unfold locate.
    destruct (is_rooted name) eqn:R.
    + left. split; [apply rooted_absolute, R|]. apply walk_follow, split_comps.
    + right. split; [intro A; apply rooted_absolute in A; congruence|]. apply walk_follow, split_comps.
Qed.

Lemma walk_app cs : forall at_ ds, walk_from at_ (cs ++ ds) = walk_from (walk_from at_ cs) ds.
Proof. induction cs as [|c cs IH]; intros; [reflexivity|]. cbn [app walk_from]. apply IH. Qed.
Lemma walk_plain cs : Forall plain_name cs -> forall at_, walk_from at_ cs = at_ ++ cs.
Proof.
  induction 1 as [|c cs Hc Hcs IH]; intro at_; cbn [walk_from]; [symmetry; apply app_nil_r|].
  destruct (dotdot_plain c Hc) as (-> & -> & ->). cbn [orb]. rewrite IH, <- app_assoc. reflexivity.
Qed.
Lemma plain_app a b : Forall plain_name (a ++ b) <-> Forall plain_name a /\ Forall plain_name b.
Proof. apply Forall_app. Qed.
Lemma walk_is_plain cs : Forall (fun c => ~ In 47 c) cs -> forall at_, Forall plain_name at_ -> Forall plain_name (walk_from at_ cs).
Proof.
  induction 1 as [|c cs Hc Hcs IH]; intros at_ P; [exact P|]. cbn [walk_from]. apply IH.
  destruct (beqb_spec c []) as [E1|E1]; [exact P|]. destruct (beqb_spec c dot) as [E2|E2]; [exact P|]. cbn [orb].
  destruct (beqb_spec c dotdot) as [E3|E3].
  - destruct at_ as [|a at_ _] using rev_ind; [constructor|]. rewrite removelast_last. apply plain_app in P. exact (proj1 P).
  - apply plain_app. split; [exact P|]. constructor; [repeat split; assumption|constructor].
Qed.
(** walking the cleaned components is walking the components *)
Lemma walk_clean_step at_ st c : (forall x, In x st -> beqb x [] || beqb x dot = false) ->
  walk_from at_ (rev (clean_step false st c)) = walk_from (walk_from at_ (rev st)) [c] /\ (forall x, In x (clean_step false st c) -> beqb x [] || beqb x dot = false).
Proof.
  intro P. unfold clean_step. cbn [walk_from]. destruct (beqb c [] || beqb c dot) eqn:E; [split; [reflexivity|exact P]|].
  destruct (beqb c dotdot) eqn:D.
  - apply beqb_eq in D. subst c. destruct st as [|top rest].
    + cbn [rev app walk_from]. split; [reflexivity|]. intros x [<-|[]]. exact E.
    + destruct (beqb_spec top dotdot) as [T|T].
      * cbn [rev]. rewrite walk_app. split; [reflexivity|]. intros x [<-|I]; [exact E|apply P, I].
      * cbn [rev]. rewrite walk_app. cbn [walk_from]. rewrite (P top (or_introl eq_refl)). apply beqb_neq in T. rewrite T, removelast_last.
        split; [reflexivity|]. intros x I. apply P. right. exact I.
  - cbn [rev]. rewrite walk_app. cbn [walk_from]. rewrite E, D. split; [reflexivity|]. intros x [<-|I]; [exact E|apply P, I].
Qed.
Lemma walk_clean_false cs : forall st at_, (forall x, In x st -> beqb x [] || beqb x dot = false) ->
  walk_from at_ (rev (fold_left (clean_step false) cs st)) = walk_from (walk_from at_ (rev st)) cs.
Proof.
  induction cs as [|c cs IH]; intros st at_ P; [reflexivity|]. cbn [fold_left]. destruct (walk_clean_step at_ st c P) as (E & P').
  rewrite (IH _ _ P'), E. reflexivity.
Qed.
Lemma clean_true_walk cs : forall st, ~ In dotdot st -> rev (fold_left (clean_step true) cs st) = walk_from (rev st) cs.
Proof.
  induction cs as [|c cs IH]; intros st P; [reflexivity|]. cbn [fold_left walk_from].
  assert (~ In dotdot (clean_step true st c) /\ rev (clean_step true st c) = (if beqb c [] || beqb c dot then rev st else if beqb c dotdot then removelast (rev st) else rev st ++ [c])) as (P' & <-).
  { unfold clean_step. destruct (beqb c [] || beqb c dot); [split; [exact P|reflexivity]|]. destruct (beqb_spec c dotdot) as [D|D].
    - destruct st as [|top rest]; [split; [intros []|reflexivity]|].
      destruct (beqb_spec top dotdot) as [T|T]; [contradiction P; left; exact T|]. split; [intro I; apply P; right; exact I|].
      cbn [rev]. rewrite removelast_last. reflexivity.
    - split; [intros [I|I]; [apply D; exact I|apply P, I]|reflexivity]. }
  apply IH, P'.
Qed.
Lemma locate_clean pl name : Forall plain_name (pl_wd pl) -> locate pl (render (clean name)) = locate pl name.
Proof.
  intro W. unfold clean. destruct (is_rooted name) eqn:R.
  - assert (rev (fold_left (clean_step true) (split_byte slash name) []) = locate pl name) as E.
    { rewrite clean_true_walk; [|intros []]. unfold locate. rewrite R. reflexivity. }
    rewrite E. assert (Forall plain_name (locate pl name)) as P by (unfold locate; rewrite R; apply walk_is_plain; [apply split_comps|constructor]).
    generalize dependent (locate pl name). intros cs _ P. unfold locate. cbn [render is_rooted]. rewrite Z.eqb_refl.
    destruct cs as [|c cs]; [reflexivity|].
    assert (split_byte slash (slash :: join_slash (c :: cs)) = [] :: c :: cs) as ->.
    { change (slash :: join_slash (c :: cs)) with ([] ++ slash :: join_slash (c :: cs)). rewrite split_app.
      rewrite split_join; [reflexivity|discriminate|]. eapply Forall_impl; [|exact P]. intros x (_ & _ & _ & H). exact H. }
    change (walk_from [] (c :: cs) = c :: cs). apply (walk_plain (c :: cs) P []).
  - set (cs := rev (fold_left (clean_step false) (split_byte slash name) [])).
    assert (walk_from (pl_wd pl) cs = locate pl name) as <-.
    { unfold cs, locate. rewrite R. rewrite walk_clean_false; [reflexivity|intros ? []]. }
    assert (normal (false, cs)) as N by (pose proof (clean_normal name) as N; unfold clean in N; rewrite R in N; exact N).
    destruct cs as [|c cs]; [reflexivity|].
    assert (Forall proper (c :: cs)) as P by exact (normal_proper _ N).
    unfold locate. change (render (false, c :: cs)) with (join_slash (c :: cs)).
    rewrite split_join; [|discriminate|exact (proper_noslash _ P)].
    destruct (join_nonempty (c :: cs)) as (x & s & -> & X); [discriminate|exact P|]. cbn [is_rooted].
    apply Z.eqb_neq in X. rewrite X. reflexivity.
Qed.
Lemma split_plain c : ~ In slash c -> split_byte slash c = [c].
Proof. intro H. change c with (join_slash [c]) at 1. apply split_join; [discriminate|constructor; [exact H|constructor]]. Qed.
Lemma locate_join pl a name : Forall plain_name (pl_wd pl) -> a <> [] -> plain_name name -> locate pl (filepath_join a name) = locate pl a ++ [name].
Proof.
  intros W A P. assert (filepath_join a name = render (clean (a ++ slash :: name))) as ->.
  { destruct a as [|x a]; [contradiction A; reflexivity|]. destruct name as [|y name]; [destruct P as (P & _); contradiction P; reflexivity|reflexivity]. }
  rewrite (locate_clean _ _ W). unfold locate. rewrite split_app.
  destruct P as (P1 & P2 & P3 & P4). rewrite (split_plain name P4), walk_app.
  replace (is_rooted (a ++ slash :: name)) with (is_rooted a) by (destruct a; [contradiction A; reflexivity|reflexivity]).
  apply (walk_plain [name]). constructor; [repeat split; assumption|constructor].
Qed.
Lemma locate_wd pl : Forall plain_name (pl_wd pl) -> locate pl (render (true, pl_wd pl)) = pl_wd pl.
Proof.
  intro W. unfold locate. cbn [render is_rooted]. rewrite Z.eqb_refl. destruct (pl_wd pl) as [|c cs]; [reflexivity|].
  change (slash :: join_slash (c :: cs)) with ([] ++ slash :: join_slash (c :: cs)). rewrite split_app.
  rewrite split_join; [|discriminate|eapply Forall_impl; [|exact W]; intros x (_ & _ & _ & H); exact H].
  exact (walk_plain (c :: cs) W []).
Qed.
Lemma locate_plain pl name : Forall plain_name (pl_wd pl) -> Forall plain_name (locate pl name).
Proof. intro W. unfold locate. apply walk_is_plain; [apply split_comps|destruct (is_rooted name); [constructor|exact W]]. Qed.

(** * The agent's places *)
Ltac no_equals := cbn; intuition discriminate.
Definition plain_lit (c : gostring) : bool := negb (beqb c []) && negb (beqb c dot) && negb (beqb c dotdot) && forallb (fun x => negb (x =? 47)) c.
Lemma plain_lit_ok c : plain_lit c = true -> plain_name c.
Proof.
  unfold plain_lit. intro H. apply andb_prop in H as (H & H4). apply andb_prop in H as (H & H3). apply andb_prop in H as (H1 & H2).
  repeat split.
  - intros ->. discriminate H1.
  - intros ->. discriminate H2.
  - intros ->. discriminate H3.
  - intro I. rewrite forallb_forall in H4. specialize (H4 47 I). discriminate H4.
Qed.
Lemma not_in_lit (c : gostring) : forallb (fun x => negb (x =? 61)) c = true -> ~ In 61 c.
Proof. intros H I. rewrite forallb_forall in H. specialize (H 61 I). discriminate H. Qed.
Lemma getenv_cases name env : name <> [] -> ~ In 61 name -> (getenv name env = [] /\ var_unset env name) \/ (exists v, v <> [] /\ getenv name env = v /\ var_set env name v).
Proof.
  intros N E. destruct (getenv name env) as [|x v] eqn:G.
  - left. split; [reflexivity|]. apply getenv_unset; assumption.
  - right. exists (x :: v). split; [discriminate|]. split; [reflexivity|]. apply getenv_set; [exact N|exact E|discriminate|exact G].
Qed.
Lemma var_set_fun env name v w : var_set env name v -> var_set env name w -> v = w.
Proof. intros (A & _) (B & _). exact (var_is_fun _ _ _ _ A B). Qed.

Lemma home_iff pl h : proper_place pl -> (home pl h <-> h = locate pl (scouter_path pl)).
Proof.
  intro W. unfold scouter_path, get_app_path.
  destruct (getenv_cases (of_string "SCOUTER_AGENT_HOME") (pl_env pl)) as [(G & U)|(v & V & G & S)]; [discriminate|apply not_in_lit; reflexivity| |]; rewrite G.
  - destruct (pl_getwd pl) eqn:P.
    + rewrite locate_join; [|exact W|discriminate|apply plain_lit_ok; reflexivity]. rewrite (locate_wd pl W). split.
      * intro H. destruct H as [v h Hs|Hu Hw|v t Hu Hw _ _]; [destruct (U _ Hs)|reflexivity|congruence].
      * intros ->. apply home_working; assumption.
    + assert (temp_dir (pl_env pl) <> []) as T by (unfold temp_dir; destruct (getenv (of_string "TMPDIR") (pl_env pl)); discriminate).
      rewrite locate_join; [|exact W|exact T|apply plain_lit_ok; reflexivity].
      assert (forall v, (var_set (pl_env pl) (of_string "TMPDIR") v \/ var_unset (pl_env pl) (of_string "TMPDIR") /\ v = of_string "/tmp") <-> v = temp_dir (pl_env pl)) as K.
      { intro v. unfold temp_dir. destruct (getenv_cases (of_string "TMPDIR") (pl_env pl)) as [(G' & U')|(v' & V' & G' & S')]; [discriminate|apply not_in_lit; reflexivity| |]; rewrite G'.
        - split; [intros [H|(_ & H)]; [destruct (U' _ H)|exact H]|intros ->; right; split; [exact U'|reflexivity]].
        - destruct v' as [|x v']; [contradiction V'; reflexivity|]. split.
          + intros [H|(H & _)]; [exact (var_set_fun _ _ _ _ H S')|destruct (H _ S')].
          + intros ->. left. exact S'. }
      split.
      * intro H. destruct H as [v h Hs|Hu Hw|v t Hu Hw Hv Hl]; [destruct (U _ Hs)|congruence|].
        apply K in Hv. subst v. apply leads_locate in Hl. subst t. reflexivity.
      * intros ->. apply (home_temporary pl (temp_dir (pl_env pl))); [exact U|exact P|apply K; reflexivity|apply leads_locate; reflexivity].
  - destruct v as [|x v]; [contradiction V; reflexivity|]. split.
    + intro H. destruct H as [w h Hs Hl|Hu Hw|w t Hu Hw _ _]; [|destruct (Hu _ S)|destruct (Hu _ S)].
      rewrite (var_set_fun _ _ _ _ Hs S) in Hl. apply leads_locate, Hl.
    + intros ->. apply (home_given pl (x :: v)); [exact S|apply leads_locate; reflexivity].
Qed.
Lemma scouter_path_nonempty pl : scouter_path pl <> [].
Proof.
  unfold scouter_path. destruct (getenv (of_string "SCOUTER_AGENT_HOME") (pl_env pl)); [|discriminate].
  set (a := match get_app_path pl with Some p => p | None => _ end). clearbody a.
  unfold filepath_join. destruct a; cbn [of_string]; apply render_nonempty, clean_normal.
Qed.
Lemma join_nonempty_path a b : b <> [] -> filepath_join a b <> [].
Proof. intro B. unfold filepath_join. destruct a, b; try contradiction; try (apply render_nonempty, clean_normal). Qed.
Lemma locate_in_home pl a b : proper_place pl -> plain_name a -> plain_name b ->
  locate pl (filepath_join (filepath_join (scouter_path pl) a) b) = locate pl (scouter_path pl) ++ [a; b].
Proof.
  intros W A B. rewrite locate_join; [|exact W|apply join_nonempty_path; destruct A; assumption|exact B].
  rewrite locate_join; [|exact W|apply scouter_path_nonempty|exact A]. rewrite <- app_assoc. reflexivity.
Qed.
Lemma log_iff pl p : proper_place pl -> (log_file pl p <-> p = locate pl (log_name pl)).
Proof.
  intro W. unfold log_name. rewrite locate_in_home; [|exact W|apply plain_lit_ok; reflexivity|apply plain_lit_ok; reflexivity].
  split.
  - intros (h & H & ->). apply (home_iff pl h W) in H. rewrite H. reflexivity.
  - intros ->. eexists. split; [apply (home_iff pl _ W); reflexivity|reflexivity].
Qed.
Lemma conf_iff pl d p : proper_place pl -> (configuration pl p <-> p = locate pl (fst (conf_file_path pl d))).
Proof.
  intro W. unfold conf_file_path.
  destruct (getenv_cases (of_string "SCOUTER_CONFIG") (pl_env pl)) as [(G1 & U1)|(v1 & V1 & G1 & S1)]; [discriminate|apply not_in_lit; reflexivity| |]; rewrite G1.
  - destruct (getenv_cases (of_string "scouter.config") (pl_env pl)) as [(G2 & U2)|(v2 & V2 & G2 & S2)]; [discriminate|apply not_in_lit; reflexivity| |]; rewrite G2.
    + cbn [get_scouter_dir fst]. rewrite locate_in_home; [|exact W|apply plain_lit_ok; reflexivity|apply plain_lit_ok; reflexivity]. split.
      * intro H. destruct H as [v p Hs|v p Hu Hs|h _ _ H]; [destruct (U1 _ Hs)|destruct (U2 _ Hs)|]. apply (home_iff pl h W) in H. rewrite H. reflexivity.
      * intros ->. apply conf_default; [exact U1|exact U2|apply (home_iff pl _ W); reflexivity].
    + destruct v2 as [|x v2]; [contradiction V2; reflexivity|]. cbn [fst]. split.
      * intro H. destruct H as [v p Hs|v p Hu Hs Hl|h _ Hu]; [destruct (U1 _ Hs)| |destruct (Hu _ S2)].
        rewrite (var_set_fun _ _ _ _ Hs S2) in Hl. apply leads_locate, Hl.
      * intros ->. apply (conf_second pl (x :: v2)); [exact U1|exact S2|apply leads_locate; reflexivity].
  - destruct v1 as [|x v1]; [contradiction V1; reflexivity|]. cbn [fst]. split.
    + intro H. destruct H as [v p Hs Hl|v p Hu|h Hu]; [|destruct (Hu _ S1)|destruct (Hu _ S1)].
      rewrite (var_set_fun _ _ _ _ Hs S1) in Hl. apply leads_locate, Hl.
    + intros ->. apply (conf_first pl (x :: v1)); [exact S1|apply leads_locate; reflexivity].
Qed.

(** * Disks *)
Lemma is_dir_with p q d : is_dir q (with_dir p d) = comps_eqb q p || is_dir q d.
Proof.
  unfold is_dir, with_dir. cbn [k_dirs existsb]. destruct q as [|c q]; [symmetry; apply orb_true_r|reflexivity].
Qed.
Lemma file_with_dir p q d : file_at q (with_dir p d) = file_at q d.
Proof. reflexivity. Qed.
Lemma file_with_file p f q d : file_at q (with_file p f d) = if comps_eqb q p then Some f else file_at q d.
Proof. reflexivity. Qed.
Lemma is_dir_with_file p f q d : is_dir q (with_file p f d) = is_dir q d.
Proof. reflexivity. Qed.
Lemma comps_refl p : comps_eqb p p = true.
Proof. apply comps_eqb_eq. reflexivity. Qed.
Lemma comps_eq_false p q : comps_eqb p q = false -> p <> q.
Proof. intros H ->. rewrite comps_refl in H. discriminate H. Qed.

Lemma tree_with_dir p d : tree d -> is_dir (removelast p) d = true -> file_at p d = None -> tree (with_dir p d).
Proof.
  intros (T1 & T2) P N. split.
  - intros q H. rewrite is_dir_with. apply orb_true_iff. right. rewrite is_dir_with, file_with_dir in H.
    destruct H as [H|H]; [|apply T1; right; exact H]. apply orb_prop in H as [H|H]; [apply comps_eqb_eq in H; subst q; exact P|apply T1; left; exact H].
  - intros q H. rewrite file_with_dir. rewrite is_dir_with in H. apply orb_prop in H as [H|H]; [apply comps_eqb_eq in H; subst q; exact N|apply T2, H].
Qed.
Lemma tree_with_file p f d : tree d -> is_dir (removelast p) d = true -> is_dir p d = false -> tree (with_file p f d).
Proof.
  intros (T1 & T2) P N. split.
  - intros q H. rewrite is_dir_with_file in *. rewrite file_with_file in H. destruct (comps_eqb q p) eqn:E; [apply comps_eqb_eq in E; subst q; exact P|apply T1, H].
  - intros q H. rewrite is_dir_with_file in H. rewrite file_with_file. destruct (comps_eqb q p) eqn:E; [apply comps_eqb_eq in E; subst q; congruence|apply T2, H].
Qed.

(** an obstacle on the way from [at_] along [cs] *)
Definition obstacle (pl : place) (d : disk) (at_ cs : list gostring) : Prop :=
  exists a b, cs = a ++ b /\ is_dir (at_ ++ a) d = false /\ (file_at (at_ ++ a) d <> None \/ pl_write pl (at_ ++ a) = false).
(** directories added where it was possible *)
Definition ways (pl : place) (p : list gostring) (d d' : disk) : Prop :=
  (forall q, file_at q d' = file_at q d) /\ (forall q, is_dir q d = true -> is_dir q d' = true) /\
  (forall q, is_dir q d' = true -> is_dir q d = true \/ ((exists rest, p = q ++ rest) /\ pl_write pl q = true /\ file_at q d = None)).
Lemma ways_refl pl p d : ways pl p d d.
Proof. split; [reflexivity|]. split; auto. Qed.
Lemma ways_trans pl p q d d1 d2 : (exists r, q = p ++ r) -> ways pl p d d1 -> ways pl q d1 d2 -> ways pl q d d2.
Proof.
  intros (r & ->) (A1 & B1 & C1) (A2 & B2 & C2). split; [intro; rewrite A2; apply A1|]. split; [auto|].
  intros x H. destruct (C2 x H) as [H1|(E & w & f)]; [|right; split; [exact E|split; [exact w|rewrite <- A1; exact f]]].
  destruct (C1 x H1) as [H2|((s & E) & w & f)]; [left; exact H2|right]. split; [exists (s ++ r); rewrite E, <- app_assoc; reflexivity|split; assumption].
Qed.
Lemma ways_added_of pl p d d' : ways pl p d d' -> ways_added p d d'.
Proof. intros (A & B & C). split; [exact A|]. split; [exact B|]. intros q H. destruct (C q H) as [H'|(H' & _)]; auto. Qed.
Lemma ways_longer pl p r d d' : ways pl p d d' -> ways pl (p ++ r) d d'.
Proof. intro H. apply (ways_trans pl p (p ++ r) d d' d'); [exists r; reflexivity|exact H|apply ways_refl]. Qed.

Lemma mkdirs_spec pl cs : forall at_ d, tree d -> is_dir at_ d = true -> let d' := mkdirs pl at_ cs d in
  tree d' /\ ways pl (at_ ++ cs) d d' /\ (is_dir (at_ ++ cs) d' = false -> obstacle pl d at_ cs).
Proof.
  induction cs as [|c cs IH]; intros at_ d T D; cbn [mkdirs]; cbv zeta.
  - split; [exact T|]. split; [apply ways_refl|]. rewrite app_nil_r. intro H. congruence.
  - assert (at_ ++ c :: cs = (at_ ++ [c]) ++ cs) as E by (rewrite <- app_assoc; reflexivity). rewrite E.
    assert (forall d0, (forall q, file_at q d0 = file_at q d) -> (forall q, is_dir q d = true -> is_dir q d0 = true) -> obstacle pl d0 (at_ ++ [c]) cs ->
            (forall q, is_dir q d0 = true -> is_dir q d = true \/ (pl_write pl q = true /\ file_at q d = None)) -> obstacle pl d at_ (c :: cs)) as Lift.
    { intros d0 F G (a & b & -> & H1 & H2) K. exists (c :: a), b. split; [reflexivity|].
      assert (at_ ++ c :: a = (at_ ++ [c]) ++ a) as -> by (rewrite <- app_assoc; reflexivity). split.
      - destruct (is_dir ((at_ ++ [c]) ++ a) d) eqn:X; [rewrite (G _ X) in H1; discriminate H1|reflexivity].
      - rewrite F in H2. exact H2. }
    destruct (is_dir (at_ ++ [c]) d) eqn:X.
    + destruct (IH _ d T X) as (T' & W' & O). split; [exact T'|]. split; [exact W'|]. intro H. apply (Lift d); auto.
    + destruct (file_at (at_ ++ [c]) d) as [f|] eqn:F.
      * split; [exact T|]. split; [apply ways_refl|]. intros _. exists [c], cs. split; [reflexivity|]. split; [exact X|]. left. rewrite F. discriminate.
      * destruct (pl_write pl (at_ ++ [c])) eqn:Wr.
        -- assert (tree (with_dir (at_ ++ [c]) d)) as T1 by (apply tree_with_dir; [exact T|rewrite removelast_last; exact D|exact F]).
           assert (is_dir (at_ ++ [c]) (with_dir (at_ ++ [c]) d) = true) as X1 by (rewrite is_dir_with, comps_refl; reflexivity).
           destruct (IH _ _ T1 X1) as (T' & W' & O).
           assert (ways pl (at_ ++ [c]) d (with_dir (at_ ++ [c]) d)) as W1.
           { split; [reflexivity|]. split; [intros q H; rewrite is_dir_with, H; apply orb_true_r|].
             intros q H. rewrite is_dir_with in H. apply orb_prop in H as [H|H]; [|left; exact H]. apply comps_eqb_eq in H. subst q. right.
             split; [exists []; symmetry; apply app_nil_r|split; [exact Wr|exact F]]. }
           split; [exact T'|]. split; [eapply ways_trans; [exists cs; reflexivity|exact W1|exact W']|].
           intro H. apply (Lift (with_dir (at_ ++ [c]) d)); [reflexivity|apply W1|apply O, H|].
           intros q Hq. destruct W1 as (_ & _ & W1). destruct (W1 q Hq) as [Y|(_ & Y)]; auto.
        -- split; [exact T|]. split; [apply ways_refl|]. intros _. exists [c], cs. split; [reflexivity|]. split; [exact X|]. right. exact Wr.
Qed.
Lemma obstacle_stays pl d d' p at_ cs : ways pl p d d' -> obstacle pl d at_ cs -> obstacle pl d' at_ cs.
Proof.
  intros (A & B & C) (a & b & -> & H1 & H2). exists a, b. split; [reflexivity|]. split.
  - destruct (is_dir (at_ ++ a) d') eqn:X; [|reflexivity]. destruct (C _ X) as [Y|(_ & Y & Z)]; [congruence|]. destruct H2; congruence.
  - rewrite A. exact H2.
Qed.
Lemma obstacle_came pl d d' p at_ cs : ways pl p d d' -> obstacle pl d' at_ cs -> obstacle pl d at_ cs.
Proof.
  intros (A & B & C) (a & b & -> & H1 & H2). exists a, b. split; [reflexivity|]. split.
  - destruct (is_dir (at_ ++ a) d) eqn:X; [|reflexivity]. rewrite (B _ X) in H1. discriminate H1.
  - rewrite <- A. exact H2.
Qed.
Lemma tree_up d a b : tree d -> is_dir (a ++ b) d = true -> is_dir a d = true.
Proof.
  intros (T & _). induction b as [|c b IH] using rev_ind; [rewrite app_nil_r; auto|]. intro H. apply IH.
  rewrite app_assoc in H. specialize (T _ (or_introl H)). rewrite removelast_last in T. exact T.
Qed.
Lemma obstacle_no_dir pl d cs : tree d -> obstacle pl d [] cs -> is_dir cs d = false.
Proof. intros T (a & b & -> & H1 & _). cbn [app] in H1. destruct (is_dir (a ++ b) d) eqn:X; [|reflexivity]. rewrite (tree_up d a b T X) in H1. discriminate H1. Qed.

(** making the directories on the way to [p ++ r] after those on the way to [p] *)
Lemma make_dir_spec pl name d : tree d -> let d' := make_dir pl name d in
  tree d' /\ ways pl (locate pl name) d d' /\ (is_dir (locate pl name) d' = false <-> obstacle pl d [] (locate pl name)).
Proof.
  intro T. cbv zeta. unfold make_dir. destruct (mkdirs_spec pl (locate pl name) [] d T eq_refl) as (T' & W & O). cbn [app] in *.
  split; [exact T'|]. split; [exact W|]. split; [exact O|]. intro H. apply (obstacle_no_dir pl); [exact T'|]. apply (obstacle_stays pl d _ _ _ _ W H).
Qed.
Lemma file_up d a b : tree d -> file_at (a ++ b) d <> None -> b <> [] -> is_dir a d = true.
Proof.
  intros T F B. destruct (exists_last B) as (b' & c & ->). apply (tree_up d a b' T). destruct T as (T & _).
  specialize (T _ (or_intror F)). rewrite app_assoc, removelast_last in T. exact T.
Qed.

Lemma blocked_iff pl d p c : tree d -> (blocked pl d (p ++ [c]) <-> is_dir (p ++ [c]) d = true \/ pl_write pl (p ++ [c]) = false \/ obstacle pl d [] p).
Proof.
  intro T. unfold blocked. split; (intros [H|[H|H]]; [left; exact H|right; left; exact H|right; right]).
  - destruct H as (a & b & E & B & H1 & H2). destruct (exists_last B) as (b' & c' & ->). rewrite app_assoc in E. apply app_inj_tail in E as (-> & ->).
    exists a, b'. split; [reflexivity|]. split; assumption.
  - destruct H as (a & b & -> & H1 & H2). cbn [app] in *. exists a, (b ++ [c]). split; [rewrite app_assoc; reflexivity|]. split; [destruct b; discriminate|]. split; assumption.
Qed.

Lemma logger_cases pl d : proper_place pl -> tree d -> let p := locate pl (log_name pl) in
  match logger_init pl d with
  | None => blocked pl d p
  | Some d' => ~ blocked pl d p /\ tree d' /\ (forall q, is_dir q d = true -> is_dir q d' = true) /\
      (forall q, is_dir q d' = true -> is_dir q d = true \/ exists rest, p = q ++ rest) /\ is_dir p d' = false /\
      (file_at p d <> None -> forall q, file_at q d' = file_at q d) /\
      (file_at p d = None -> file_at p d' = Some (mk_file [] (pl_now pl)) /\ forall q, q <> p -> file_at q d' = file_at q d)
  end.
Proof.
  intros W T. cbv zeta. unfold logger_init. cbn [get_scouter_dir]. unfold log_name.
  pose proof (locate_in_home pl (of_string "logs") (of_string "scouter.log") W (plain_lit_ok (of_string "logs") eq_refl) (plain_lit_ok (of_string "scouter.log") eq_refl)) as E.
  set (h := scouter_path pl) in *.
  assert (locate pl (filepath_join h (of_string "logs")) = locate pl h ++ [of_string "logs"]) as E1
    by (apply locate_join; [exact W|apply scouter_path_nonempty|apply plain_lit_ok; reflexivity]).
  set (lg := of_string "logs") in *. set (fn := of_string "scouter.log") in *. clearbody lg fn.
  rewrite E. replace (locate pl h ++ [lg; fn]) with ((locate pl h ++ [lg]) ++ [fn]) by (rewrite <- app_assoc; reflexivity).
  destruct (make_dir_spec pl h d T) as (T1 & W1 & _). set (d1 := make_dir pl h d) in *. clearbody d1.
  destruct (make_dir_spec pl (filepath_join h lg) d1 T1) as (T2 & W2 & O). rewrite E1 in W2, O. set (d2 := make_dir pl (filepath_join h lg) d1) in *. clearbody d2.
  assert (ways pl (locate pl h ++ [lg]) d d2) as W3 by (eapply ways_trans; [exists [lg]; reflexivity|exact W1|exact W2]).
  set (dir := locate pl h ++ [lg]) in *. clearbody dir. clear E E1 W2.
  assert (is_dir dir d2 = false <-> obstacle pl d [] dir) as O'.
  { split; intro H.
    - apply (obstacle_came pl d d1 (locate pl h) [] dir W1). apply O, H.
    - apply O. apply (obstacle_stays pl d d1 (locate pl h) [] dir W1 H). }
  clear O W1 T1. pose proof (blocked_iff pl d dir fn T) as B. set (p := dir ++ [fn]) in *.
  assert (is_dir p d2 = is_dir p d) as Dp.
  { destruct W3 as (_ & B3 & C3). destruct (is_dir p d) eqn:X; [apply B3, X|]. destruct (is_dir p d2) eqn:Y; [|reflexivity].
    destruct (C3 p Y) as [Z|((r & Z) & _)]; [congruence|]. exfalso. unfold p in Z. apply (f_equal (@length _)) in Z. rewrite !app_length in Z. cbn in Z. lia. }
  assert (file_at p d2 = file_at p d) as Fp by apply W3.
  assert (removelast p = dir) as Rp by apply removelast_last.
  unfold open_write. rewrite Dp, Fp, Rp. destruct (is_dir p d) eqn:X; [apply B; left; reflexivity|].
  assert (forall q, is_dir q d2 = true -> is_dir q d = true \/ (exists rest, p = q ++ rest)) as C3.
  { intros q H. destruct W3 as (_ & _ & C3). destruct (C3 q H) as [Z|((r & Z) & _)]; [left; exact Z|right]. exists (r ++ [fn]). unfold p. rewrite Z, <- app_assoc. reflexivity. }
  destruct (file_at p d) as [f|] eqn:F.
  - assert (is_dir dir d = true) as Dd by (apply (file_up d dir [fn] T); [fold p; rewrite F; discriminate|discriminate]).
    assert (~ obstacle pl d [] dir) as No by (intro H; apply (obstacle_no_dir pl d dir T) in H; congruence).
    destruct (pl_write pl p) eqn:P; [|apply B; auto].
    split; [intro H; apply B in H as [H|[H|H]]; [discriminate H|discriminate H|exact (No H)]|]. split; [exact T2|]. split; [apply W3|]. split; [exact C3|]. split; [exact Dp|].
    split; [intros _; apply W3|intro H; discriminate H].
  - destruct (is_dir dir d2) eqn:Y.
    + cbn [andb]. destruct (pl_write pl p) eqn:P; [|apply B; auto].
      split; [intro H; apply B in H as [H|[H|H]]; [discriminate H|discriminate H|]; apply O' in H; discriminate H|].
      split; [apply tree_with_file; [exact T2|rewrite Rp; exact Y|exact Dp]|]. split; [apply W3|]. split; [exact C3|]. split; [exact Dp|].
      split; [intro H; contradiction H; reflexivity|]. intros _. split; [rewrite file_with_file, comps_refl; reflexivity|].
      intros q Q. rewrite file_with_file. destruct (comps_eqb q p) eqn:Z; [apply comps_eqb_eq in Z; contradiction|]. apply W3.
    + cbn [andb]. apply B. right. right. apply O'. reflexivity.
Qed.

Lemma conf_disk pl d name d' : proper_place pl -> tree d -> conf_file_path pl d = (name, d') -> let c := locate pl name in
  tree d' /\ ways pl (removelast c) d d'.
Proof.
  intros W T E. cbv zeta. unfold conf_file_path in E.
  destruct (getenv (of_string "SCOUTER_CONFIG") (pl_env pl)); [|injection E as <- <-; split; [exact T|apply ways_refl]].
  destruct (getenv (of_string "scouter.config") (pl_env pl)); [|injection E as <- <-; split; [exact T|apply ways_refl]].
  cbn [get_scouter_dir] in E. apply pair_equal_spec in E as (<- & <-).
  rewrite (locate_in_home pl (of_string "conf") (of_string "scouter.conf") W (plain_lit_ok (of_string "conf") eq_refl) (plain_lit_ok (of_string "scouter.conf") eq_refl)).
  assert (locate pl (filepath_join (scouter_path pl) (of_string "conf")) = locate pl (scouter_path pl) ++ [of_string "conf"]) as E1
    by (apply locate_join; [exact W|apply scouter_path_nonempty|apply plain_lit_ok; reflexivity]).
  set (h := scouter_path pl) in *. set (cf := of_string "conf") in *. set (fn := of_string "scouter.conf"). clearbody cf fn h.
  replace (locate pl h ++ [cf; fn]) with ((locate pl h ++ [cf]) ++ [fn]) by (rewrite <- app_assoc; reflexivity). rewrite removelast_last.
  destruct (make_dir_spec pl h d T) as (T1 & W1 & _).
  destruct (make_dir_spec pl (filepath_join h cf) _ T1) as (T2 & W2 & _). rewrite E1 in W2. split; [exact T2|].
  eapply ways_trans; [exists [cf]; reflexivity|exact W1|exact W2].
Qed.
Lemma removelast_shorter {A} (c r : list A) : removelast c = c ++ r -> c = [].
Proof.
  intro H. destruct c as [|x c] using rev_ind; [reflexivity|]. rewrite removelast_last in H. apply (f_equal (@length _)) in H. rewrite !app_length in H. cbn in H. lia.
Qed.
Lemma ways_at pl c d d' : ways pl (removelast c) d d' -> is_dir c d' = is_dir c d.
Proof.
  intros (A & B & C). destruct (is_dir c d) eqn:X; [apply B, X|]. destruct (is_dir c d') eqn:Y; [|reflexivity].
  destruct (C c Y) as [Z|((r & Z) & _)]; [congruence|]. apply removelast_shorter in Z. subst c. discriminate X.
Qed.
Lemma passable_way pl d : (forall q, pl_read pl q = true) -> forall cs at_, (forall a b, cs = a ++ b -> a <> [] -> b <> [] -> file_at (at_ ++ a) d = None) -> passable pl at_ cs d = true.
Proof.
  intros R. induction cs as [|c cs IH]; intros at_ H; [reflexivity|]. cbn [passable]. destruct cs as [|c' cs']; [reflexivity|].
  rewrite (H [c] (c' :: cs') eq_refl) by discriminate. destruct (is_dir (at_ ++ [c]) d); [|reflexivity]. rewrite R. cbn [andb]. apply IH.
  intros a b E Na Nb. rewrite <- app_assoc. cbn [app]. apply (H (c :: a) b); [cbn [app]; rewrite <- E; reflexivity|discriminate|exact Nb].
Qed.
Lemma file_way d p f : tree d -> file_at p d = Some f -> forall a b, p = a ++ b -> b <> [] -> file_at a d = None.
Proof. intros T F a b -> B. apply (proj2 T). apply (file_up d a b T); [rewrite F; discriminate|exact B]. Qed.

Lemma world_sees parse pl d name d' : proper_place pl -> tree d -> conf_file_path pl d = (name, d') ->
  sees parse pl d (locate pl name) (mk_world (pl_env pl) (stat pl (locate pl name) d') (load parse pl (locate pl name) d') (pl_host pl)).
Proof.
  intros W T E. destruct (conf_disk pl d name d' W T E) as (T' & Wy). pose proof (ways_at _ _ _ _ Wy) as D. destruct Wy as (F & _ & _).
  split; [reflexivity|]. split; [reflexivity|]. cbn [w_stat w_load]. unfold stat, load. split.
  - intros f R Hf. rewrite F, Hf. rewrite (passable_way pl d' R) by (intros a b E1 _ B; cbn [app]; rewrite F; apply (file_way d _ f T Hf a b E1 B)).
    split; [reflexivity|]. split; [intros t P; rewrite R, P; reflexivity|intro P; rewrite R, P; reflexivity].
  - intros R (N1 & N2). rewrite F, D, (N2 _ [] (eq_sym (app_nil_r _))), N1. rewrite (passable_way pl d' R) by (intros a b E1 _ _; cbn [app]; rewrite F; apply (N2 _ _ E1)).
    split; reflexivity.
Qed.
