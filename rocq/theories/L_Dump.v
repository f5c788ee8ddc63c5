From Verif Require Import GoInt M_OutX M_InX M_Value M_Access M_Util M_StrMatch M_Dump S_Wire S_Dump.
From Verif Require Import L_Codec L_Value L_Util L_StrMatch.

Lemma split_go_app sep a b : forall cur, split_go sep cur (a ++ sep :: b) = split_go sep cur a ++ split_byte sep b.
Proof.
  induction a as [|c a IH]; intros cur; cbn [app split_go].
  - rewrite Z.eqb_refl. reflexivity.
  - destruct (c =? sep); [rewrite IH; reflexivity|apply IH].
Qed.
Lemma split_app sep a b : split_byte sep (a ++ sep :: b) = split_byte sep a ++ split_byte sep b.
Proof. apply split_go_app. Qed.

Lemma split_nosep_comp sep s : forall cur, ~ In sep cur -> Forall (fun c => ~ In sep c) (split_go sep cur s).
Proof.
  induction s as [|c s IH]; intros cur H; cbn [split_go].
  - constructor; [rewrite <- in_rev; exact H|constructor].
  - destruct (c =? sep) eqn:E.
    + constructor; [rewrite <- in_rev; exact H|]. apply IH. intros [].
    + apply IH. intros [->|F]; [lia|contradiction].
Qed.

Lemma skipn_skipn {A} m : forall n (l : list A), skipn n (skipn m l) = skipn (n + m) l.
Proof.
  induction m as [|m IH]; intros n l; [rewrite Nat.add_0_r; reflexivity|].
  destruct l as [|x l]; [rewrite !skipn_nil; reflexivity|]. rewrite Nat.add_succ_r. cbn [skipn]. apply IH.
Qed.

Definition proper (c : gostring) : Prop := c <> [] /\ c <> dot /\ ~ In slash c.

(** shape of the stack kept by clean *)
Definition shape (rooted : bool) (st : list gostring) : Prop :=
  exists a k, st = a ++ repeat dotdot k /\ ~ In dotdot a /\ Forall proper st /\ (rooted = true -> k = O).

Lemma dotdot_proper : proper dotdot.
Proof. repeat split; try discriminate. cbn. intros [H|[H|[]]]; discriminate. Qed.

Lemma clean_step_shape rooted st c : ~ In slash c -> shape rooted st -> shape rooted (clean_step rooted st c).
Proof.
  intros Hc (a & k & -> & Ha & Hp & Hr). unfold clean_step.
  destruct (beqb_spec c []) as [->|N1]; cbn [orb]; [exists a, k; auto|].
  destruct (beqb_spec c dot) as [->|N2]; [exists a, k; auto|].
  destruct (beqb_spec c dotdot) as [->|N3].
  - destruct a as [|t a]; cbn [app].
    + destruct k as [|k]; cbn [repeat].
      * destruct rooted; [exists [], O; auto|].
        exists [], 1%nat. split; [reflexivity|]. split; [intros []|]. split; [|discriminate].
        constructor; [apply dotdot_proper|constructor].
      * rewrite beqb_refl. exists [], (S (S k)). split; [reflexivity|]. split; [intros []|].
        split; [constructor; [apply dotdot_proper|exact Hp]|]. intro; specialize (Hr H); discriminate.
    + destruct (beqb_spec t dotdot) as [->|N]; [exfalso; apply Ha; left; reflexivity|].
      exists a, k. split; [reflexivity|]. split; [intro F; apply Ha; right; exact F|].
      split; [inversion Hp; assumption|exact Hr].
  - exists (c :: a), k. split; [reflexivity|]. split; [intros [F|F]; [congruence|contradiction]|].
    split; [|exact Hr]. constructor; [|exact Hp]. repeat split; assumption.
Qed.

Lemma clean_fold_shape rooted cs : Forall (fun c => ~ In slash c) cs -> forall st, shape rooted st ->
  shape rooted (fold_left (clean_step rooted) cs st).
Proof.
  induction 1 as [|c cs Hc _ IH]; intros st Hs; cbn [fold_left]; [exact Hs|].
  apply IH. apply clean_step_shape; assumption.
Qed.

Lemma shape_nil r : shape r [].
Proof. exists [], O. repeat split; auto. Qed.

Definition normal (p : path) : Prop := shape (fst p) (rev (snd p)).

Lemma clean_normal s : normal (clean s).
Proof.
  unfold normal, clean; cbn [fst snd]. rewrite rev_involutive.
  apply clean_fold_shape; [apply split_nosep_comp; intros []|apply shape_nil].
Qed.

Lemma split_join cs : cs <> [] -> Forall (fun c => ~ In slash c) cs -> split_byte slash (join_slash cs) = cs.
Proof.
  intros N H. induction H as [|c cs Hc Hcs IH]; [congruence|].
  destruct cs as [|d cs].
  - cbn [join_slash]. unfold split_byte. rewrite split_go_nosep by exact Hc. reflexivity.
  - cbn [join_slash]. cbn [join_slash] in IH. rewrite split_app, IH by discriminate.
    unfold split_byte. rewrite split_go_nosep by exact Hc. reflexivity.
Qed.

Lemma push_proper rooted cs : Forall proper cs -> ~ In dotdot cs -> forall st,
  fold_left (clean_step rooted) cs st = rev cs ++ st.
Proof.
  induction 1 as [|c cs (P1 & P2 & P3) _ IH]; intros N st; cbn [fold_left rev app]; [reflexivity|].
  unfold clean_step at 2.
  destruct (beqb_spec c []); [contradiction|]. destruct (beqb_spec c dot); [contradiction|]. cbn [orb].
  destruct (beqb_spec c dotdot) as [->|]; [exfalso; apply N; left; reflexivity|].
  rewrite IH by (intro F; apply N; right; exact F). rewrite <- app_assoc. reflexivity.
Qed.

Lemma push_dotdots k : forall st, Forall (eq dotdot) st -> fold_left (clean_step false) (repeat dotdot k) st = repeat dotdot k ++ st.
Proof.
  induction k as [|k IH]; intros st H; [reflexivity|]. cbn [repeat fold_left].
  assert (clean_step false st dotdot = dotdot :: st) as ->.
  { unfold clean_step. change (beqb dotdot [] || beqb dotdot dot) with false. cbv iota.
    rewrite beqb_refl. destruct H as [|t st <- H]; [reflexivity|]. rewrite beqb_refl. reflexivity. }
  rewrite IH by (constructor; [reflexivity|exact H]).
  change (dotdot :: st) with ([dotdot] ++ st). rewrite app_assoc.
  replace (repeat dotdot k ++ [dotdot]) with (dotdot :: repeat dotdot k); [reflexivity|].
  clear. induction k; cbn [repeat app]; [reflexivity|]. f_equal. exact IHk.
Qed.

Lemma rev_repeat {A} (x : A) k : rev (repeat x k) = repeat x k.
Proof.
  induction k; [reflexivity|]. cbn [repeat rev]. rewrite IHk.
  clear. induction k; cbn [repeat app]; [reflexivity|]. f_equal. exact IHk.
Qed.

Lemma refold rooted st : shape rooted st -> fold_left (clean_step rooted) (rev st) [] = st.
Proof.
  intros (a & k & -> & Ha & Hp & Hr). rewrite rev_app_distr, fold_left_app, rev_repeat.
  assert (Forall proper (rev a)) as Pa.
  { apply Forall_rev. apply Forall_app in Hp. apply Hp. }
  assert (~ In dotdot (rev a)) as Na by (rewrite <- in_rev; exact Ha).
  destruct rooted.
  - rewrite (Hr eq_refl). cbn [repeat fold_left]. rewrite push_proper by assumption. rewrite rev_involutive. reflexivity.
  - rewrite push_dotdots by constructor. rewrite push_proper by assumption. rewrite rev_involutive, app_nil_r. reflexivity.
Qed.

Lemma join_nonempty cs : cs <> [] -> Forall proper cs -> exists c s, join_slash cs = c :: s /\ c <> slash.
Proof.
  intros N H. destruct H as [|c cs (P1 & _ & P3) _]; [congruence|].
  destruct c as [|x c]; [congruence|].
  exists x. destruct cs; cbn [join_slash app]; eexists; (split; [reflexivity|]); intro; subst; apply P3; left; reflexivity.
Qed.

Lemma proper_noslash cs : Forall proper cs -> Forall (fun c => ~ In slash c) cs.
Proof. intro H. eapply Forall_impl; [|exact H]. intros c Hc; apply Hc. Qed.

Lemma normal_proper p : normal p -> Forall proper (snd p).
Proof. intros (a & k & E & _ & Hp & _). rewrite <- (rev_involutive (snd p)). apply Forall_rev. exact Hp. Qed.

(** cleaning a rendered normal path, possibly with something joined to it *)
Lemma clean_render_app p : normal p -> forall name,
  clean (render p ++ slash :: name) = (fst p, rev (fold_left (clean_step (fst p)) (split_byte slash name) (rev (snd p)))).
Proof.
  intros Hn name. pose proof (normal_proper p Hn) as Hp. destruct p as [r cs]. unfold normal in Hn. cbn [fst snd] in *.
  unfold clean. rewrite split_app, fold_left_app.
  assert (is_rooted (render (r, cs) ++ slash :: name) = r) as ->.
  { destruct r; [reflexivity|]. destruct cs as [|c cs]; [reflexivity|].
    cbn [render]. destruct (join_nonempty (c :: cs)) as (x & s & E & Nx); [discriminate|exact Hp|].
    rewrite E. cbn [app is_rooted]. lia. }
  f_equal. f_equal. f_equal.
  assert (fold_left (clean_step r) (split_byte slash (render (r, cs))) [] = fold_left (clean_step r) cs []) as ->.
  { destruct r.
    - cbn [render]. change (slash :: join_slash cs) with ([] ++ slash :: join_slash cs). rewrite split_app.
      destruct cs as [|c cs]; [reflexivity|]. rewrite split_join; [reflexivity|discriminate|now apply proper_noslash].
    - destruct cs as [|c cs]; [reflexivity|]. cbn [render]. rewrite split_join; [reflexivity|discriminate|now apply proper_noslash]. }
  rewrite <- (rev_involutive cs) at 1. rewrite refold by exact Hn. reflexivity.
Qed.

Lemma clean_render p : normal p -> clean (render p) = p.
Proof.
  intro Hn. pose proof (normal_proper p Hn) as Hp. destruct p as [r cs]. unfold normal in Hn. cbn [fst snd] in *.
  unfold clean.
  assert (is_rooted (render (r, cs)) = r) as ->.
  { destruct r; [reflexivity|]. destruct cs as [|c cs]; [reflexivity|].
    cbn [render]. destruct (join_nonempty (c :: cs)) as (x & s & E & Nx); [discriminate|exact Hp|].
    rewrite E. cbn [is_rooted]. lia. }
  assert (fold_left (clean_step r) (split_byte slash (render (r, cs))) [] = fold_left (clean_step r) cs []) as ->.
  { destruct r.
    - cbn [render]. change (slash :: join_slash cs) with ([] ++ slash :: join_slash cs). rewrite split_app.
      destruct cs as [|c cs]; [reflexivity|]. rewrite split_join; [reflexivity|discriminate|now apply proper_noslash].
    - destruct cs as [|c cs]; [reflexivity|]. cbn [render]. rewrite split_join; [reflexivity|discriminate|now apply proper_noslash]. }
  f_equal. rewrite <- (rev_involutive cs) at 1. rewrite refold by exact Hn. apply rev_involutive.
Qed.

Lemma render_nonempty p : normal p -> render p <> [].
Proof.
  intro Hn. pose proof (normal_proper p Hn) as Hp. destruct p as [[|] cs]; [discriminate|].
  destruct cs as [|c cs]; [discriminate|]. cbn [render].
  destruct (join_nonempty (c :: cs)) as (x & s & E & _); [discriminate|exact Hp|]. rewrite E. discriminate.
Qed.

(** joining a relative name to a cleaned directory *)
Lemma clean_join_dir p name : normal p ->
  clean (filepath_join (render p) name) = (fst p, rev (fold_left (clean_step (fst p)) (split_byte slash name) (rev (snd p)))).
Proof.
  intro Hn. unfold filepath_join. destruct (render p) as [|c s] eqn:E; [destruct (render_nonempty p Hn E)|].
  destruct name as [|d name].
  - rewrite <- E, (clean_render p Hn), (clean_render p Hn).
    change (fold_left (clean_step (fst p)) (split_byte slash []) (rev (snd p))) with (rev (snd p)).
    rewrite rev_involutive. destruct p; reflexivity.
  - rewrite <- E, clean_render by apply clean_normal. apply clean_render_app; exact Hn.
Qed.

Lemma filepath_join_clean a b : a <> [] \/ b <> [] ->
  exists p, normal p /\ filepath_join a b = render p.
Proof.
  intro H. unfold filepath_join. destruct a as [|x a], b as [|y b]; try (eexists; split; [apply clean_normal|reflexivity]).
  destruct H; congruence.
Qed.

Definition dump_dir (home cwd : gostring) : path := clean (get_dump_path home cwd).
Definition binary_dir (home cwd : gostring) : path := clean (get_binary_dump_path home cwd).

Lemma dump_path_render home cwd : get_dump_path home cwd = render (dump_dir home cwd) /\ normal (dump_dir home cwd).
Proof.
  unfold dump_dir, get_dump_path.
  destruct (filepath_join_clean (get_scouter_path home cwd) (of_string "dump")) as (p & Hp & E); [right; discriminate|].
  rewrite E, clean_render by exact Hp. auto.
Qed.
Lemma binary_path_render home cwd : get_binary_dump_path home cwd = render (binary_dir home cwd) /\ normal (binary_dir home cwd).
Proof.
  unfold binary_dir, get_binary_dump_path.
  destruct (filepath_join_clean (get_scouter_path home cwd) (of_string "binary_dump")) as (p & Hp & E); [right; discriminate|].
  rewrite E, clean_render by exact Hp. auto.
Qed.

(** components of a name with no parent step *)
Definition kept (c : gostring) : bool := negb (beqb c [] || beqb c dot).

Lemma push_kept rooted cs : ~ In dotdot cs -> forall st,
  fold_left (clean_step rooted) cs st = rev (filter kept cs) ++ st.
Proof.
  induction cs as [|c cs IH]; intros N st; [reflexivity|]. cbn [fold_left filter].
  assert (~ In dotdot cs) as N' by (intro F; apply N; right; exact F).
  rewrite IH by exact N'. unfold kept at 2. unfold clean_step.
  destruct (beqb c [] || beqb c dot) eqn:E; cbn [negb]; [reflexivity|].
  destruct (beqb_spec c dotdot) as [->|]; [exfalso; apply N; left; reflexivity|].
  cbn [rev]. rewrite <- app_assoc. reflexivity.
Qed.

Lemma in_split_go sep s : forall cur c, In c (split_go sep cur s) ->
  (exists a b, rev cur ++ s = a ++ c ++ b /\ (a = [] \/ exists a', a = a' ++ [sep]) /\ (b = [] \/ exists b', b = sep :: b')).
Proof.
  induction s as [|x s IH]; intros cur c; cbn [split_go].
  - intros [<-|[]]. exists [], []. split; [cbn; reflexivity|]. auto.
  - destruct (x =? sep) eqn:E.
    + apply Z.eqb_eq in E; subst x. intros [<-|F].
      * exists [], (sep :: s). split; [reflexivity|]. eauto.
      * apply IH in F as (a & b & Eq & Ha & Hb). cbn [rev app] in Eq. subst s.
        exists (rev cur ++ sep :: a), b. rewrite <- app_assoc. split; [reflexivity|]. split; [|exact Hb].
        right. destruct Ha as [->|[a' ->]]; [exists (rev cur); reflexivity|].
        exists (rev cur ++ sep :: a'). rewrite <- app_assoc. reflexivity.
    + intro F. apply IH in F as (a & b & Eq & H). cbn [rev] in Eq. rewrite <- app_assoc in Eq. exists a, b. auto.
Qed.

Lemma no_parent_split name : no_parent_step name -> ~ In dotdot (split_byte slash name).
Proof.
  intros H F. apply in_split_go in F as (a & b & E & Ha & Hb). cbn [rev app] in E.
  exact (H a b E Ha Hb).
Qed.

Lemma joined_inside p name : normal p -> no_parent_step name -> inside p (clean (filepath_join (render p) name)).
Proof.
  intros Hn Hp. rewrite clean_join_dir by exact Hn. split; [reflexivity|]. cbn [snd].
  rewrite push_kept by (apply no_parent_split; exact Hp).
  rewrite rev_app_distr, !rev_involutive. eexists; split; [reflexivity|].
  intro F. apply filter_In in F as [F _]. exact (no_parent_split _ Hp F).
Qed.

(** a plain name selects the file of that name in the directory *)
Lemma joined_plain p name : normal p -> plain_name name -> clean (filepath_join (render p) name) = (fst p, snd p ++ [name]).
Proof.
  intros Hn (P1 & P2 & P3 & P4). rewrite clean_join_dir by exact Hn. f_equal.
  unfold split_byte. rewrite split_go_nosep by exact P4. cbn [rev app fold_left clean_step].
  unfold clean_step.
  destruct (beqb_spec name []); [contradiction|]. destruct (beqb_spec name dot); [contradiction|]. cbn [orb].
  destruct (beqb_spec name dotdot); [contradiction|]. cbn [rev]. rewrite rev_involutive. reflexivity.
Qed.

(** enough ".." reach the root *)
Lemma pop_all st : ~ In dotdot st -> forall k, (length st <= k)%nat -> fold_left (clean_step true) (repeat dotdot k) st = [].
Proof.
  induction st as [|t st IH]; intros N k Hk.
  - clear. induction k; [reflexivity|exact IHk].
  - destruct k as [|k]; [cbn in Hk; lia|]. cbn [repeat fold_left].
    unfold clean_step at 2. change (beqb dotdot [] || beqb dotdot dot) with false. cbv iota. rewrite beqb_refl.
    destruct (beqb_spec t dotdot) as [->|]; [exfalso; apply N; left; reflexivity|].
    apply IH; [intro F; apply N; right; exact F|cbn in Hk; lia].
Qed.

Definition climb (k : nat) (t : list gostring) : gostring := join_slash (repeat dotdot k ++ t).

Lemma split_climb k t : t <> [] -> Forall plain_name t -> split_byte slash (climb k t) = repeat dotdot k ++ t.
Proof.
  intros N H. apply split_join.
  - destruct k; [exact N|discriminate].
  - apply Forall_app. split.
    + apply Forall_forall. intros c Hc. apply repeat_spec in Hc as ->. apply dotdot_proper.
    + eapply Forall_impl; [|exact H]. intros c Hc. apply Hc.
Qed.

Lemma plain_proper c : plain_name c -> proper c.
Proof. intros (A & B & C & D). repeat split; assumption. Qed.

Lemma joined_climb p k t : normal p -> fst p = true -> (length (snd p) <= k)%nat -> t <> [] -> Forall plain_name t ->
  clean (filepath_join (render p) (climb k t)) = (true, t).
Proof.
  intros Hn Hr Hk Nt Ht. rewrite clean_join_dir by exact Hn. rewrite Hr, split_climb by assumption.
  rewrite fold_left_app, pop_all.
  - rewrite push_proper.
    + rewrite app_nil_r, rev_involutive. reflexivity.
    + eapply Forall_impl; [|exact Ht]. apply plain_proper.
    + intro F. rewrite Forall_forall in Ht. apply Ht in F. destruct F as (_ & _ & F & _). apply F; reflexivity.
  - destruct Hn as (a & j & E & Ha & _ & Hj). rewrite E, (Hj Hr). cbn [repeat]. rewrite app_nil_r. exact Ha.
  - rewrite rev_length. exact Hk.
Qed.

Lemma join_last k t : t <> [] -> exists pre, climb k t = pre ++ last t [].
Proof.
  intro N. unfold climb.
  assert (forall cs, cs <> [] -> exists pre, join_slash cs = pre ++ last cs []) as H.
  { clear. induction cs as [|c cs IH]; [congruence|]. intros _. destruct cs as [|d cs].
    - exists []. reflexivity.
    - destruct IH as [pre E]; [discriminate|]. exists (c ++ slash :: pre).
      cbn [join_slash]. cbn [join_slash] in E. rewrite E. rewrite <- app_assoc. reflexivity. }
  destruct (H (repeat dotdot k ++ t)) as [pre E]; [destruct k; [exact N|discriminate]|].
  exists pre. rewrite E. f_equal. clear -N. induction k as [|k IH]; [reflexivity|].
  cbn [repeat app]. destruct (repeat dotdot k ++ t) eqn:F; [destruct k; [cbn in F; congruence|discriminate]|]. exact IH.
Qed.

(** * Streams of blobs *)

Definition enc_items (chunks : list bytes) : bytes := concat (map (fun c => be 1 3 ++ enc_blob c) chunks).

Lemma enc_items_app a b : enc_items (a ++ b) = enc_items a ++ enc_items b.
Proof. unfold enc_items. rewrite map_app, concat_app. reflexivity. Qed.

Lemma writes_item b : writes (fun o => write_blob b (write_uint8 HasNEXT o)) (be 1 3 ++ enc_blob b).
Proof. apply (writes_comp (write_uint8 HasNEXT) (write_blob b)); [apply writes_uint8|apply writes_blob]. Qed.

Lemma parses_items {A B} (p : parser A) (enc : B -> bytes) (v : B -> A) l : (forall x, In x l -> parses p (enc x) (v x)) ->
  forall fuel, (length l < fuel)%nat ->
  parses (p_items p fuel) (concat (map (fun c => be 1 3 ++ enc c) l) ++ be 1 4) (map v l).
Proof.
  induction l as [|x l IH]; intros H fuel Hf; (destruct fuel as [|k]; [cbn in Hf; lia|]).
  - intro rest. reflexivity.
  - intro rest. cbn [map concat p_items]. rewrite <- !app_assoc.
    unfold pbind at 1. rewrite (parses_u8 3) by (unfold is_byte; lia). change (3 =? 3) with true. cbv iota.
    unfold pbind at 1. rewrite (H x (or_introl eq_refl)).
    unfold pbind at 1.
    pose proof (IH (fun y Hy => H y (or_intror Hy)) k ltac:(cbn in Hf; lia) rest) as E.
    rewrite <- app_assoc in E. rewrite E. reflexivity.
Qed.

Lemma response_of_items {A B} (p : parser A) (enc : B -> bytes) (v : B -> A) l : (forall x, In x l -> parses p (enc x) (v x)) ->
  response_items p (concat (map (fun c => be 1 3 ++ enc c) l) ++ be 1 4) = Some (map v l).
Proof.
  intro H. unfold response_items.
  set (bs := concat (map (fun c => be 1 3 ++ enc c) l) ++ be 1 4).
  assert (length l < length bs)%nat as Hl.
  { subst bs. rewrite app_length, be_length. clear. induction l as [|x l IH]; cbn [map concat length]; [lia|].
    rewrite !app_length, be_length. lia. }
  pose proof (parses_items p enc v l H (length bs) Hl []) as E. rewrite app_nil_r in E. fold bs in E. rewrite E. reflexivity.
Qed.

(** * Download *)

Fixpoint cut300 (fuel : nat) (data : bytes) : list bytes :=
  match fuel with
  | O => []
  | S k => if (length data <? 300)%nat then [data] else firstn 300 data :: cut300 k (skipn 300 data)
  end.

Lemma cut300_concat fuel : forall data, (length data < fuel)%nat -> concat (cut300 fuel data) = data.
Proof.
  induction fuel as [|k IH]; intros data H; [lia|]. cbn [cut300].
  destruct (length data <? 300)%nat eqn:E.
  - cbn. apply app_nil_r.
  - apply Nat.ltb_ge in E. cbn [concat]. rewrite IH by (rewrite skipn_length; lia). apply firstn_skipn.
Qed.

Lemma cut300_len fuel : forall data c, In c (cut300 fuel data) -> (length c <= 300)%nat.
Proof.
  induction fuel as [|k IH]; intros data c; cbn [cut300]; [intros []|].
  destruct (length data <? 300)%nat eqn:E.
  - apply Nat.ltb_lt in E. intros [<-|[]]. lia.
  - intros [<-|H]; [rewrite firstn_length; lia|eauto].
Qed.

Lemma enc_items_cons c l : enc_items (c :: l) = (be 1 3 ++ enc_blob c) ++ enc_items l.
Proof. reflexivity. Qed.

Lemma writes_cons_item b (w : dout -> dout) l : writes w (enc_items l) ->
  writes (fun o => w (write_blob b (write_uint8 HasNEXT o))) (enc_items (b :: l)).
Proof. intro H. rewrite enc_items_cons. apply (writes_comp _ w); [apply writes_item|exact H]. Qed.

Lemma writes_one_item b : writes (fun o => write_blob b (write_uint8 HasNEXT o)) (enc_items [b]).
Proof. rewrite enc_items_cons. cbn [enc_items map concat]. rewrite app_nil_r. apply writes_item. Qed.

Lemma download_loop_chunks data fuel : forall offset, (offset <= length data)%nat -> (length data - offset < fuel)%nat ->
  writes (download_loop fuel data None (Z.of_nat offset)) (enc_items (cut300 fuel (skipn offset data))).
Proof.
  induction fuel as [|k IH]; intros offset Ho Hf; [lia|].
  cbn [download_loop cut300]. unfold read_at. rewrite Nat2Z.id. change (Z.to_nat 300) with 300%nat.
  rewrite skipn_length.
  assert (zlen (firstn 300 (skipn offset data)) = Z.min 300 (Z.of_nat (length data - offset))) as El.
  { unfold zlen. rewrite firstn_length, skipn_length. lia. }
  rewrite El.
  destruct (length data - offset <? 300)%nat eqn:E.
  - apply Nat.ltb_lt in E. assert (Z.min 300 (Z.of_nat (length data - offset)) <? 300 = true) as -> by lia.
    rewrite firstn_all2 by (rewrite skipn_length; lia). apply writes_one_item.
  - apply Nat.ltb_ge in E. assert (Z.min 300 (Z.of_nat (length data - offset)) <? 300 = false) as -> by lia.
    cbv beta iota. rewrite El. replace (Z.of_nat offset + Z.min 300 (Z.of_nat (length data - offset))) with (Z.of_nat (offset + 300)) by lia.
    apply writes_cons_item.
    rewrite skipn_skipn. replace (300 + offset)%nat with (offset + 300)%nat by lia. apply IH; lia.
Qed.

(** whatever goes wrong, what is written is a stream of blobs whose concatenation is a prefix of the file *)
Lemma download_loop_any data bad fuel : forall offset, (offset <= length data)%nat ->
  exists chunks rest, writes (download_loop fuel data bad (Z.of_nat offset)) (enc_items chunks) /\
    concat chunks ++ rest = skipn offset data /\ Forall (fun c => (length c <= 300)%nat) chunks.
Proof.
  induction fuel as [|k IH]; intros offset Ho.
  { exists [], (skipn offset data). split; [apply writes_id|]. split; [reflexivity|constructor]. }
  cbn [download_loop]. unfold read_at. rewrite Nat2Z.id. change (Z.to_nat 300) with 300%nat.
  set (got := firstn 300 (skipn offset data)).
  assert (length got <= 300)%nat as Hg by (subst got; rewrite firstn_length; lia).
  assert (got ++ skipn 300 (skipn offset data) = skipn offset data) as Hgot by apply firstn_skipn.
  assert (exists chunks rest, writes (fun o => write_blob got (write_uint8 HasNEXT o)) (enc_items chunks) /\
    concat chunks ++ rest = skipn offset data /\ Forall (fun c => (length c <= 300)%nat) chunks) as Hone.
  { exists [got], (skipn 300 (skipn offset data)). split; [apply writes_one_item|]. cbn [concat]. rewrite app_nil_r.
    split; [exact Hgot|]. constructor; [exact Hg|constructor]. }
  assert (exists chunks rest, writes (fun o => download_loop k data bad (Z.of_nat offset + zlen got) (write_blob got (write_uint8 HasNEXT o))) (enc_items chunks) /\
    concat chunks ++ rest = skipn offset data /\ Forall (fun c => (length c <= 300)%nat) chunks) as Hmore.
  { assert (length got <= length data - offset)%nat by (subst got; rewrite firstn_length, skipn_length; lia).
    destruct (IH (offset + length got)%nat) as (chunks & rest & Hw & Hc & Hf); [lia|].
    exists (got :: chunks), rest. unfold zlen. rewrite <- Nat2Z.inj_add.
    split; [apply (writes_cons_item got (download_loop k data bad (Z.of_nat (offset + length got)))); exact Hw|].
    split; [|constructor; assumption]. cbn [concat]. rewrite <- app_assoc, Hc.
    rewrite Nat.add_comm, <- skipn_skipn.
    replace (skipn (length got) (skipn offset data)) with (skipn 300 (skipn offset data)); [exact Hgot|].
    subst got. rewrite firstn_length. generalize (skipn offset data). clear. intro l.
    destruct (Nat.le_ge_cases 300 (length l)); [rewrite Nat.min_l by lia; reflexivity|].
    rewrite Nat.min_r by lia. rewrite !skipn_all2 by lia. reflexivity. }
  destruct bad as [b|].
  - destruct (b <? Z.of_nat offset + zlen got).
    + exists [], (skipn offset data). split; [apply writes_id|]. split; [reflexivity|constructor].
    + destruct (zlen got <? 300); assumption.
  - destruct (zlen got <? 300); assumption.
Qed.

(** * Streaming *)

Lemma rd_read_some n r : (0 < n)%Z -> concat r <> [] -> exists part r', rd_read n r = (part, None, r') /\
  part ++ concat r' = concat r /\ (0 < length part <= Z.to_nat n)%nat.
Proof.
  intros Hn. induction r as [|s r IH]; intro Hc; [cbn in Hc; congruence|].
  cbn [rd_read]. destruct (n =? 0) eqn:E; [lia|]. destruct s as [|x s]; [apply IH; exact Hc|].
  eexists _, _. split; [reflexivity|]. split.
  - cbn [concat]. rewrite app_assoc, firstn_skipn. reflexivity.
  - rewrite firstn_length. cbn [length]. lia.
Qed.
Lemma rd_read_end n r : (0 < n)%Z -> concat r = [] -> exists r', rd_read n r = ([], Some EOF, r').
Proof.
  intros Hn. induction r as [|s r IH]; intro Hc; cbn [rd_read]; destruct (n =? 0) eqn:E; try lia; [eauto|].
  cbn [concat] in Hc. apply app_eq_nil in Hc as [-> Hc]. apply IH; exact Hc.
Qed.

Lemma stream_loop_chunks fuel : forall r, (length (concat r) < fuel)%nat ->
  exists chunks, writes (stream_loop fuel r) (enc_items chunks) /\ concat chunks = concat r /\
    Forall (fun c => (0 < length c <= 4096)%nat) chunks.
Proof.
  induction fuel as [|k IH]; intros r Hf; [lia|]. cbn [stream_loop].
  destruct (concat r) as [|x l] eqn:E.
  - destruct (rd_read_end 4096 r) as [r' Hr]; [lia|exact E|]. rewrite Hr. exists [].
    split; [apply writes_id|]. split; [reflexivity|constructor].
  - destruct (rd_read_some 4096 r) as (part & r' & Hr & Hp & Hl); [lia|congruence|]. rewrite Hr.
    destruct (IH r') as (chunks & Hw & Hc & Hall).
    { apply (f_equal (@length _)) in Hp. rewrite app_length, E in Hp. lia. }
    exists (part :: chunks). split; [apply (writes_cons_item part (stream_loop k r')); exact Hw|].
    split; [cbn [concat]; rewrite Hc, Hp; exact E|]. constructor; [exact Hl|exact Hall].
Qed.

(** * Listing *)
Lemma list_rows files : forall n s m,
  fold_left (fun (acc : list value * list value * list value) (e : path * file) =>
    let '(nameLv, sizeLv, modifiedLv) := acc in
    (list_add_string (base_name (fst e)) nameLv, list_add_int64 (zlen (f_data (snd e))) sizeLv,
     list_add_int64 (time_to_millis (f_mtime (snd e))) modifiedLv)) files (n, s, m)
  = (n ++ map (fun e => VText (base_name (fst e))) files, s ++ map (fun e => VDec (zlen (f_data (snd e)))) files,
     m ++ map (fun e => VDec (time_to_millis (f_mtime (snd e)))) files).
Proof.
  induction files as [|e files IH]; intros n s m; cbn [fold_left map]; [rewrite !app_nil_r; reflexivity|].
  rewrite IH. unfold list_add_string, list_add_int64, list_add. rewrite <- !app_assoc. reflexivity.
Qed.

Lemma list_rows2 files : forall n s,
  fold_left (fun (acc : list value * list value) (e : path * file) =>
    let '(nameLv, sizeLv) := acc in
    if has_suffix (base_name (fst e)) suffix
    then (list_add_string (base_name (fst e)) nameLv, list_add_int64 (zlen (f_data (snd e))) sizeLv)
    else acc) files (n, s)
  = (n ++ map (fun e => VText (base_name (fst e))) (filter (fun e => has_suffix (base_name (fst e)) suffix) files),
     s ++ map (fun e => VDec (zlen (f_data (snd e)))) (filter (fun e => has_suffix (base_name (fst e)) suffix) files)).
Proof.
  induction files as [|e files IH]; intros n s; cbn [fold_left map filter]; [rewrite !app_nil_r; reflexivity|].
  destruct (has_suffix (base_name (fst e)) suffix).
  - rewrite IH. unfold list_add_string, list_add_int64, list_add. cbn [map]. rewrite <- !app_assoc. reflexivity.
  - apply IH.
Qed.

Lemma comps_eqb_eq a : forall b, comps_eqb a b = true <-> a = b.
Proof.
  induction a as [|x a IH]; intros [|y b]; cbn [comps_eqb]; split; intro H; try congruence; auto.
  - apply andb_true_iff in H as [H1 H2]. apply beqb_eq in H1. apply IH in H2. congruence.
  - inversion H; subst. rewrite beqb_refl. apply IH. reflexivity.
Qed.
Lemma path_eqb_eq p q : path_eqb p q = true <-> p = q.
Proof.
  unfold path_eqb. destruct p as [a b], q as [c d]; cbn [fst snd]. rewrite andb_true_iff, eqb_true_iff, comps_eqb_eq.
  split; [intros [-> ->]; reflexivity|intro E; inversion E; auto].
Qed.
Lemma path_eqb_neq p q : path_eqb p q = false <-> p <> q.
Proof. rewrite <- (path_eqb_eq p q). destruct (path_eqb p q); split; congruence. Qed.

Lemma fs_get_remove p q d : fs_get q (fs_remove p d) = if path_eqb q p then None else fs_get q d.
Proof.
  induction d as [|[r f] d IH]; cbn [fs_remove fs_get]; [destruct (path_eqb q p); reflexivity|].
  destruct (path_eqb p r) eqn:E.
  - apply path_eqb_eq in E as <-. rewrite IH. destruct (path_eqb q p); reflexivity.
  - cbn [fs_get]. destruct (path_eqb q r) eqn:F; [|exact IH].
    apply path_eqb_eq in F as ->. destruct (path_eqb r p) eqn:G; [|reflexivity].
    apply path_eqb_eq in G as ->. rewrite (proj2 (path_eqb_eq p p) eq_refl) in E. discriminate.
Qed.

Lemma fs_get_write p f q d : fs_get q (fs_write p f d) = if path_eqb q p then Some f else fs_get q d.
Proof. unfold fs_write; cbn [fs_get]. rewrite fs_get_remove. destruct (path_eqb q p); reflexivity. Qed.

Lemma comps_prefix_iff a : forall b, comps_prefix a b = true <-> exists r, b = a ++ r.
Proof.
  induction a as [|x a IH]; intros b; cbn [comps_prefix app].
  - split; [exists b; reflexivity|auto].
  - destruct b as [|y b]; [split; [discriminate|intros [r H]; discriminate]|].
    rewrite andb_true_iff, beqb_eq, IH. split.
    + intros [-> [r ->]]. exists r. reflexivity.
    + intros [r H]. inversion H; subst. split; [reflexivity|exists r; reflexivity].
Qed.

(** * bufio.Writer *)
Lemma bufw_write_inv p w : (length (w_pending w) <= bufw_size)%nat ->
  w_file (bufw_write p w) ++ w_pending (bufw_write p w) = (w_file w ++ w_pending w) ++ p /\
  (length (w_pending (bufw_write p w)) <= bufw_size)%nat.
Proof.
  intro H. unfold bufw_write.
  destruct (length p <=? bufw_size - length (w_pending w))%nat eqn:E.
  - apply Nat.leb_le in E. cbn [w_file w_pending]. rewrite app_length, <- app_assoc. split; [reflexivity|lia].
  - destruct (w_pending w) as [|x l] eqn:Ep.
    + cbn [w_file w_pending]. rewrite !app_nil_r. split; [reflexivity|cbn; lia].
    + rewrite <- Ep in *. clear Ep.
      destruct (length (skipn (bufw_size - length (w_pending w)) p) <=? bufw_size)%nat eqn:F.
      * apply Nat.leb_le in F. cbn [w_file w_pending]. split; [|exact F].
        rewrite <- !app_assoc. rewrite firstn_skipn. reflexivity.
      * cbn [w_file w_pending]. split; [|cbn; lia]. rewrite <- !app_assoc, app_nil_r, firstn_skipn. reflexivity.
Qed.

Lemma bufw_writes_inv ps : forall w, (length (w_pending w) <= bufw_size)%nat ->
  let w' := fold_left (fun w p => bufw_write p w) ps w in
  w_file w' ++ w_pending w' = (w_file w ++ w_pending w) ++ concat ps /\ (length (w_pending w') <= bufw_size)%nat.
Proof.
  induction ps as [|p ps IH]; intros w H; cbn [fold_left concat]; [rewrite app_nil_r; auto|].
  destruct (bufw_write_inv p w H) as [E Hl]. destruct (IH _ Hl) as [E2 Hl2]. cbv zeta in *.
  rewrite E2, E, <- app_assoc. auto.
Qed.
Lemma join_plain_any a name : plain_name name -> clean (filepath_join a name) = (fst (clean a), snd (clean a) ++ [name]).
Proof.
  intros Hp. pose proof (plain_proper _ Hp) as Pp. destruct Hp as (N1 & N2 & N3 & N4).
  assert (forall s, clean (s ++ slash :: name) = (is_rooted (s ++ slash :: name), rev (fold_left (clean_step (is_rooted (s ++ slash :: name))) (split_byte slash s ++ [name]) []))) as Hc.
  { intros s. unfold clean. rewrite split_app. assert (split_byte slash name = [name]) as -> by (apply (split_join [name]); [discriminate|repeat constructor; exact N4]). reflexivity. }
  assert (forall r st, fold_left (clean_step r) [name] st = name :: st) as Hs.
  { intros r st. change (name :: st) with (rev [name] ++ st). apply push_proper; [repeat constructor; assumption|]. intros [H|[]]. apply N3. rewrite H. reflexivity. }
  unfold filepath_join. destruct name as [|b name]; [congruence|]. destruct a as [|x a].
  - rewrite clean_render by apply clean_normal. unfold clean at 1. assert (split_byte slash (b :: name) = [b :: name]) as -> by (apply (split_join [b :: name]); [discriminate|repeat constructor; exact N4]).
    rewrite Hs. cbn [rev app]. assert (is_rooted (b :: name) = false) as -> by (destruct (is_rooted (b :: name)) eqn:E; [|reflexivity]; unfold is_rooted in E; exfalso; apply N4; left; apply Z.eqb_eq in E; exact E). reflexivity.
  - rewrite clean_render by apply clean_normal. rewrite Hc, fold_left_app, Hs. reflexivity.
Qed.

(** * Names of profiles *)
Lemma profile_suffix c : profile_name c <-> has_suffix c suffix = true.
Proof. symmetry. apply has_suffix_iff. Qed.
Lemma split_last sep tail : ~ In sep tail -> forall s, exists pre u, split_byte sep (s ++ tail) = pre ++ [u ++ tail].
Proof.
  intros N s. unfold split_byte.
  assert (forall t cur, ~ In sep t -> split_go sep cur t = [rev cur ++ t]) as K.
  { induction t as [|c t IH]; intros cur H; cbn [split_go]; [rewrite app_nil_r; reflexivity|].
    destruct (c =? sep) eqn:E; [exfalso; apply H; left; lia|]. rewrite IH by (intros F; apply H; right; exact F). cbn [rev]. rewrite <- app_assoc. reflexivity. }
  generalize (@nil Z) as cur. induction s as [|c s IH]; intros cur; cbn [app split_go].
  - exists [], (rev cur). rewrite K by exact N. reflexivity.
  - destruct (c =? sep); [|apply IH]. destruct (IH []) as (pre & u & ->). exists (rev cur :: pre), u. reflexivity.
Qed.
Lemma joined_profile p name : normal p -> profile_name name -> profile_name (base_name (clean (filepath_join (render p) name))).
Proof.
  intros Hn (s & ->). rewrite clean_join_dir by exact Hn. unfold base_name. cbn [snd].
  destruct (split_last slash (of_string "pprof") ltac:(cbn; unfold slash; lia) s) as (pre & u & ->). rewrite fold_left_app. cbn [fold_left].
  set (st := fold_left _ pre _). set (c := u ++ of_string "pprof").
  assert (forall x, (length x <= 2)%nat -> beqb c x = false) as B.
  { intros x Hx. destruct (beqb_spec c x) as [E|]; [|reflexivity]. exfalso. apply (f_equal (@length Z)) in E. subst c. rewrite app_length in E. cbn [of_string length] in E. lia. }
  unfold clean_step. rewrite (B [] ltac:(cbn; lia)), (B dot ltac:(cbn; lia)), (B dotdot ltac:(cbn; lia)). cbn [orb rev]. rewrite last_last. exists u. reflexivity.
Qed.
