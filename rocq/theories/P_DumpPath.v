(** C57, C58 and C66 again, with the files named by following path names from the agent's directory instead of by the agent's path functions. *)
From Verif Require Import GoInt M_OutX M_InX M_Value M_Access M_Util M_StrMatch M_Dump M_Conf M_Files S_Wire S_Conf S_Dump S_Files.
From Verif Require Import L_StrMatch L_Dump L_Files P_Dump.
From Coq Require Import Lia.

(** the agent's directory is known by an absolute path: SCOUTER_AGENT_HOME gives one, or it is not set and there is a working directory *)
Definition settled (pl : place) : Prop :=
  (exists v, var_set (pl_env pl) (of_string "SCOUTER_AGENT_HOME") v /\ absolute v) \/ (var_unset (pl_env pl) (of_string "SCOUTER_AGENT_HOME") /\ pl_getwd pl = true).
(** what the dump functions are given there: os.Getenv and os.Getwd *)
Definition env_home (pl : place) : gostring := getenv (of_string "SCOUTER_AGENT_HOME") (pl_env pl).
Definition env_cwd (pl : place) : gostring := render (true, pl_wd pl).

Lemma clean_rooted s : is_rooted s = true -> clean s = (true, walk_from [] (split_byte slash s)).
Proof. intro R. unfold clean. rewrite R. f_equal. apply (clean_true_walk (split_byte slash s) []). intros []. Qed.
Lemma clean_join a b : is_rooted a = true -> clean (filepath_join a b) = (true, walk_from (snd (clean a)) (split_byte slash b)).
Proof.
  intro R. rewrite (clean_rooted a R). cbn [snd]. unfold filepath_join. destruct a as [|x a]; [discriminate R|]. destruct b as [|y b].
  - rewrite clean_render by apply clean_normal. rewrite clean_rooted by exact R. reflexivity.
  - rewrite clean_render by apply clean_normal. rewrite clean_rooted by exact R.
    rewrite split_app, walk_app. reflexivity.
Qed.
Lemma rooted_render cs : is_rooted (render (true, cs)) = true.
Proof. reflexivity. Qed.
Lemma rooted_join a b : is_rooted a = true -> is_rooted (filepath_join a b) = true.
Proof.
  intro R. destruct a as [|x a]; [discriminate R|]. unfold filepath_join. destruct b as [|y b]; (rewrite (clean_rooted _); [reflexivity|exact R]).
Qed.
Lemma settled_path pl h : proper_place pl -> settled pl -> home pl h ->
  is_rooted (get_scouter_path (env_home pl) (env_cwd pl)) = true /\ clean (get_scouter_path (env_home pl) (env_cwd pl)) = (true, h).
Proof.
  intros W S H. apply (home_iff pl h W) in H. unfold env_home, env_cwd.
  assert (is_rooted (get_scouter_path (getenv (of_string "SCOUTER_AGENT_HOME") (pl_env pl)) (render (true, pl_wd pl))) = true /\
          get_scouter_path (getenv (of_string "SCOUTER_AGENT_HOME") (pl_env pl)) (render (true, pl_wd pl)) = scouter_path pl) as (R & E).
  { unfold scouter_path, get_app_path, get_scouter_path. destruct S as [(v & Sv & A)|(U & G)].
    - assert (getenv (of_string "SCOUTER_AGENT_HOME") (pl_env pl) = v) as ->.
      { apply getenv_set; [discriminate|apply not_in_lit; reflexivity|apply Sv|exact Sv]. }
      destruct A as (s & ->). split; reflexivity.
    - assert (getenv (of_string "SCOUTER_AGENT_HOME") (pl_env pl) = []) as ->.
      { apply getenv_unset; [discriminate|apply not_in_lit; reflexivity|exact U]. }
      rewrite G. split; [apply rooted_join, rooted_render|reflexivity]. }
  split; [exact R|]. rewrite (clean_rooted _ R). f_equal. rewrite H, <- E. unfold locate. rewrite R. reflexivity.
Qed.
Lemma under_home pl h sub name cs to : proper_place pl -> settled pl -> home pl h -> plain_name sub -> cs <> [] -> Forall (fun c => ~ In 47 c) cs -> name = slashed cs ->
  follow (h ++ [sub]) cs to -> clean (filepath_join (filepath_join (get_scouter_path (env_home pl) (env_cwd pl)) sub) name) = (true, to).
Proof.
  intros W S H P N Ns -> F. destruct (settled_path pl h W S H) as (R & E).
  rewrite clean_join by (apply rooted_join, R). rewrite clean_join by exact R. rewrite E. cbn [snd].
  rewrite (split_plain sub) by apply P. rewrite (walk_plain [sub]) by (constructor; [exact P|constructor]). rewrite slashed_join, (split_join cs N Ns).
  f_equal. apply follow_walk, F.
Qed.
Lemma suffix_is name sfx : has_suffix name sfx = true <-> exists r, name = r ++ sfx.
Proof.
  unfold has_suffix. rewrite has_prefix_iff. split.
  - intros (r & E). exists (rev r). apply (f_equal (@rev Z)) in E. rewrite rev_involutive, rev_app_distr, rev_involutive in E. exact E.
  - intros (r & ->). exists (rev r). apply rev_app_distr.
Qed.

(** A detail request: the file that the name leads to from the directory "dump" of the agent's directory is streamed whole. *)
Theorem C57_text_file_followed pl h d split param name cs to f : proper_place pl -> settled pl -> home pl h ->
  get_string (of_string "name") param = name -> cs <> [] -> Forall (fun c => ~ In 47 c) cs -> name = slashed cs -> follow (h ++ [of_string "dump"]) cs to ->
  (forall data, concat (split data) = data) -> fs_get (true, to) d = Some f ->
  exists chunks, response_items p_blob (closed_response (stream_dump_file (env_home pl) (env_cwd pl) d split param new_dout)) = Some chunks /\ concat chunks = f_data f.
Proof.
  intros W S H En N Ns Es F Hs Hf.
  destruct (C57_text_download_complete (env_home pl) (env_cwd pl) d split param f Hs) as (chunks & A & B & _); [|exists chunks; auto].
  rewrite En. unfold fs_open, stream_name, get_dump_path. rewrite (under_home pl h (of_string "dump") name cs to W S H); try assumption. apply plain_lit_ok. reflexivity.
Qed.
(** A download: the same in "binary_dump", for names that end in "pprof". *)
Theorem C57_binary_file_followed pl h d name cs to f r : proper_place pl -> settled pl -> home pl h ->
  name = r ++ of_string "pprof" -> cs <> [] -> Forall (fun c => ~ In 47 c) cs -> name = slashed cs -> follow (h ++ [of_string "binary_dump"]) cs to ->
  fs_get (true, to) d = Some f ->
  exists chunks, response_items p_blob (closed_response (download_binary_dump (env_home pl) (env_cwd pl) d None name new_dout)) = Some chunks /\ concat chunks = f_data f.
Proof.
  intros W S H En N Ns Es F Hf.
  destruct (C57_binary_download_complete (env_home pl) (env_cwd pl) d name (filepath_join (get_binary_dump_path (env_home pl) (env_cwd pl)) name) f) as (chunks & A & B & _); [| |exists chunks; auto].
  - unfold download_name. assert (has_suffix name suffix = true) as -> by (apply suffix_is; exists r; exact En).
    destruct name as [|x name]; [destruct r; discriminate En|reflexivity].
  - unfold fs_open, get_binary_dump_path. rewrite (under_home pl h (of_string "binary_dump") name cs to W S H); try assumption. apply plain_lit_ok. reflexivity.
Qed.

(** The two requests read nothing but the file the name leads to; without ".." in the name that file lies in the directory, with it it may be any (C58_refuted_any_file_readable). *)
Theorem C58_reads_one_file_partial pl h d d' split param bad name cs to to' : proper_place pl -> settled pl -> home pl h ->
  get_string (of_string "name") param = name -> cs <> [] -> Forall (fun c => ~ In 47 c) cs -> name = slashed cs ->
  follow (h ++ [of_string "dump"]) cs to -> follow (h ++ [of_string "binary_dump"]) cs to' ->
  (fs_get (true, to) d = fs_get (true, to) d' ->
     stream_dump_file (env_home pl) (env_cwd pl) d split param new_dout = stream_dump_file (env_home pl) (env_cwd pl) d' split param new_dout) /\
  (fs_get (true, to') d = fs_get (true, to') d' ->
     download_binary_dump (env_home pl) (env_cwd pl) d bad name new_dout = download_binary_dump (env_home pl) (env_cwd pl) d' bad name new_dout) /\
  (~ In (of_string "..") cs -> (exists rest, to = (h ++ [of_string "dump"]) ++ rest) /\ exists rest, to' = (h ++ [of_string "binary_dump"]) ++ rest).
Proof.
  intros W S H En N Ns Es F F'. split; [|split].
  - intro E. unfold stream_dump_file. rewrite En. unfold fs_open, stream_name, get_dump_path.
    rewrite (under_home pl h (of_string "dump") name cs to W S H); try assumption; [|apply plain_lit_ok; reflexivity]. rewrite E. reflexivity.
  - intro E. unfold download_binary_dump, download_name. destruct (beqb name [] || negb (has_suffix name suffix)); [reflexivity|].
    unfold fs_open, get_binary_dump_path.
    rewrite (under_home pl h (of_string "binary_dump") name cs to' W S H); try assumption; [|apply plain_lit_ok; reflexivity]. rewrite E. reflexivity.
  - intro Nd. assert (forall a t, follow a cs t -> exists rest, t = a ++ rest) as K; [|split; apply K; assumption].
    clear - Nd. intros a t F. induction F as [a|a c cs t _ F IH|dir l cs t F IH|cs t F IH|a c cs t _ F IH].
    + exists []. symmetry. apply app_nil_r.
    + apply IH. intro K. apply Nd. right. exact K.
    + destruct Nd. left. reflexivity.
    + destruct Nd. left. reflexivity.
    + destruct IH as (r & ->); [intro K; apply Nd; right; exact K|]. exists (c :: r). rewrite <- app_assoc. reflexivity.
Qed.

(** The lists: one row per file at or below "dump" (for profiles: "binary_dump", names ending in "pprof") of the agent's directory [h]: the last name of the
    path, the size, the time of the last change in milliseconds. A file directly there, with a plain name, is brought whole by the name it is listed under. *)
Lemma dir_home pl h sub : proper_place pl -> settled pl -> home pl h -> plain_name sub ->
  clean (filepath_join (get_scouter_path (env_home pl) (env_cwd pl)) sub) = (true, h ++ [sub]).
Proof.
  intros W S H P. destruct (settled_path pl h W S H) as (R & E). rewrite clean_join by exact R. rewrite E. cbn [snd].
  rewrite (split_plain sub) by apply P. rewrite (walk_plain [sub]) by (constructor; [exact P|constructor]). reflexivity.
Qed.
Lemma dir_dump pl h : proper_place pl -> settled pl -> home pl h -> clean (get_dump_path (env_home pl) (env_cwd pl)) = (true, h ++ [of_string "dump"]).
Proof. intros W S H. apply (dir_home pl h (of_string "dump") W S H). apply plain_lit_ok. reflexivity. Qed.
Lemma dir_binary pl h : proper_place pl -> settled pl -> home pl h -> clean (get_binary_dump_path (env_home pl) (env_cwd pl)) = (true, h ++ [of_string "binary_dump"]).
Proof. intros W S H. apply (dir_home pl h (of_string "binary_dump") W S H). apply plain_lit_ok. reflexivity. Qed.
Lemma get_in p f d : fs_get p d = Some f -> In (p, f) d.
Proof.
  induction d as [|[q g] d IH]; cbn [fs_get]; [discriminate|].
  destruct (path_eqb p q) eqn:E; [apply path_eqb_eq in E; subst q; intros X; injection X as ->; left; reflexivity|right; apply IH; assumption].
Qed.
Theorem C66_lists_followed pl h d : proper_place pl -> settled pl -> home pl h ->
  (exists rows,
     get (of_string "name") (list_dump_files (env_home pl) (env_cwd pl) d) = Some (VList (map (fun r => VText (fst (fst r))) rows)) /\
     get (of_string "size") (list_dump_files (env_home pl) (env_cwd pl) d) = Some (VList (map (fun r => VDec (snd (fst r))) rows)) /\
     get (of_string "last_modified") (list_dump_files (env_home pl) (env_cwd pl) d) = Some (VList (map (fun r => VDec (snd r)) rows)) /\
     forall name size ms, In (name, size, ms) rows <->
       exists dirs file, In ((true, h ++ [of_string "dump"] ++ dirs), file) d /\ name = last (of_string "dump" :: dirs) [] /\ size = zlen (f_data file) /\ ms = Z.quot (f_mtime file) 1000000) /\
  (exists rows,
     get (of_string "name") (list_binary_dump_files (env_home pl) (env_cwd pl) d) = Some (VList (map (fun r => VText (fst r)) rows)) /\
     get (of_string "size") (list_binary_dump_files (env_home pl) (env_cwd pl) d) = Some (VList (map (fun r => VDec (snd r)) rows)) /\
     forall name size, In (name, size) rows <->
       exists dirs file stem, In ((true, h ++ [of_string "binary_dump"] ++ dirs), file) d /\ name = last (of_string "binary_dump" :: dirs) [] /\ name = stem ++ of_string "pprof" /\ size = zlen (f_data file)).
Proof.
  intros W S H.
  assert (forall sub dirs, base_name (true, h ++ [sub] ++ dirs) = last (sub :: dirs) []) as B.
  { intros sub dirs. unfold base_name. cbn [snd]. induction h as [|x l IH] in |- *; [reflexivity|]. cbn [app last]. destruct l; exact IH. }
  split.
  - destruct (C66_listing_rows (env_home pl) (env_cwd pl) d) as (rows & A1 & A2 & A3 & R & _). exists rows. split; [exact A1|]. split; [exact A2|]. split; [exact A3|].
    intros name size ms. rewrite R, (dir_dump pl h W S H). cbn [fst snd]. split.
    + intros ((b & cs) & f & I & E1 & (rest & E2) & E). cbn [fst snd] in E1, E2. subst b cs. rewrite <- app_assoc in I, E. exists rest, f. unfold row_of in E. rewrite B in E.
      apply pair_equal_spec in E as (E & ->). apply pair_equal_spec in E as (-> & ->). auto.
    + intros (dirs & f & I & -> & -> & ->). exists (true, h ++ [of_string "dump"] ++ dirs), f. split; [exact I|]. split; [reflexivity|].
      split; [exists dirs; cbn [snd]; apply app_assoc|]. unfold row_of. rewrite B. reflexivity.
  - destruct (C66_binary_listing_rows (env_home pl) (env_cwd pl) d) as (rows & A1 & A2 & R). exists rows. split; [exact A1|]. split; [exact A2|].
    intros name size. rewrite R, (dir_binary pl h W S H). cbn [fst snd]. split.
    + intros ((b & cs) & f & I & E1 & (rest & E2) & (stem & Es) & E). cbn [fst snd] in E1, E2. subst b cs. rewrite <- app_assoc in I, E, Es. exists rest, f, stem.
      rewrite B in E, Es. apply pair_equal_spec in E as (-> & ->). auto.
    + intros (dirs & f & stem & I & E & Es & ->). exists (true, h ++ [of_string "binary_dump"] ++ dirs), f. split; [exact I|]. split; [reflexivity|].
      split; [exists dirs; cbn [snd]; apply app_assoc|]. rewrite B. split; [exists stem; congruence|]. rewrite E. reflexivity.
Qed.
Theorem C66_fetched_followed pl h d split name f : proper_place pl -> settled pl -> home pl h -> plain_name name -> (forall data, concat (split data) = data) ->
  (fs_get (true, h ++ [of_string "dump"; name]) d = Some f ->
   exists chunks, response_items p_blob (closed_response (stream_dump_file (env_home pl) (env_cwd pl) d split [(of_string "name", VText name)] new_dout)) = Some chunks /\ concat chunks = f_data f) /\
  (forall stem, name = stem ++ of_string "pprof" -> fs_get (true, h ++ [of_string "binary_dump"; name]) d = Some f ->
   exists chunks, response_items p_blob (closed_response (download_binary_dump (env_home pl) (env_cwd pl) d None name new_dout)) = Some chunks /\ concat chunks = f_data f).
Proof.
  intros W S H P Hs.
  assert (forall sub, follow (h ++ [sub]) [name] (h ++ [sub; name])) as F.
  { intro sub. apply follow_down; [exact P|]. change [sub; name] with ([sub] ++ [name]). rewrite app_assoc. apply follow_end. }
  assert (Forall (fun c : gostring => ~ In 47 c) [name]) as Ns by (constructor; [apply P|constructor]). split.
  - intro G. apply (C57_text_file_followed pl h d split _ name [name] (h ++ [of_string "dump"; name]) f W S H); try assumption; try reflexivity; [discriminate|apply F].
  - intros stem E G. apply (C57_binary_file_followed pl h d name [name] (h ++ [of_string "binary_dump"; name]) f stem W S H); try assumption; try reflexivity; [discriminate|apply F].
Qed.

Example C57_followed_case : let pl := mkPlace [of_string "SCOUTER_AGENT_HOME=/opt/./scouter/"] [of_string "srv"] true (fun _ => true) (fun _ => true) 0 (of_string "h") in
  proper_place pl /\ settled pl /\ home pl [of_string "opt"; of_string "scouter"] /\
  follow ([of_string "opt"; of_string "scouter"] ++ [of_string "binary_dump"]) [of_string "old"; of_string ".."; of_string "a.pprof"] [of_string "opt"; of_string "scouter"; of_string "binary_dump"; of_string "a.pprof"] /\
  of_string "old/../a.pprof" = slashed [of_string "old"; of_string ".."; of_string "a.pprof"].
Proof.
  cbv zeta. set (pl := mkPlace _ _ _ _ _ _ _).
  assert (proper_place pl) as W by (constructor; [apply plain_lit_ok; reflexivity|constructor]).
  assert (var_set (pl_env pl) (of_string "SCOUTER_AGENT_HOME") (of_string "/opt/./scouter/")) as V.
  { split; [|discriminate]. exists [], (of_string "SCOUTER_AGENT_HOME=/opt/./scouter/"), []. split; [reflexivity|]. split; [|intros e' t []].
    split; [reflexivity|]. split; [discriminate|apply not_in_lit; reflexivity]. }
  split; [exact W|]. split; [left; exists (of_string "/opt/./scouter/"); split; [exact V|eexists; reflexivity]|]. split; [|split; [|reflexivity]].
  - apply (home_iff pl _ W). vm_compute. reflexivity.
  - apply (follow_down _ (of_string "old")); [apply plain_lit_ok; reflexivity|].
    apply (follow_up [of_string "opt"; of_string "scouter"; of_string "binary_dump"]).
    apply follow_down; [apply plain_lit_ok; reflexivity|]. apply follow_end.
Qed.

Print Assumptions C57_text_file_followed.
Print Assumptions C57_binary_file_followed.
Print Assumptions C58_reads_one_file_partial.
Print Assumptions C66_lists_followed.
Print Assumptions C66_fetched_followed.
