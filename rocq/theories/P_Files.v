(** C93: the agent's files - where they are, what starting the agent does to the disk, what is kept and what is lost. *)
From Verif Require Import GoInt M_Util M_StrMatch M_Dump M_Conf M_Files S_Conf S_Dump S_Files L_Dump L_Files.
From Coq Require Import Lia.

(** * Where the files are *)

(** There is exactly one configuration file and one log file at any moment, and these are the ones the agent opens. *)
Theorem C93_where pl d c l : proper_place pl ->
  (configuration pl c <-> c = locate pl (fst (conf_file_path pl d))) /\ (log_file pl l <-> l = locate pl (log_name pl)).
Proof. intro W. split; [apply conf_iff, W|apply log_iff, W]. Qed.

(** The application's directory (GetAppPath): as SCOUTER_AGENT_HOME says; without it the working directory, and an error exactly when that has gone. *)
Theorem C93_app_path pl : proper_place pl ->
  (forall v, var_set (pl_env pl) (of_string "SCOUTER_AGENT_HOME") v -> get_app_path pl = Some v) /\
  (var_unset (pl_env pl) (of_string "SCOUTER_AGENT_HOME") ->
   if pl_getwd pl then exists p, get_app_path pl = Some p /\ absolute p /\ forall to, leads_to pl p to <-> to = pl_wd pl else get_app_path pl = None).
Proof.
  intro W. unfold get_app_path. destruct (getenv_cases (of_string "SCOUTER_AGENT_HOME") (pl_env pl)) as [(G & U)|(v & V & G & S)]; [discriminate|apply not_in_lit; reflexivity| |]; rewrite G.
  - split; [intros v H; destruct (U _ H)|]. intros _. destruct (pl_getwd pl); [|reflexivity]. eexists. split; [reflexivity|]. split; [eexists; reflexivity|].
    intro to. rewrite leads_locate, (locate_wd pl W). reflexivity.
  - split; [intros w H; rewrite (var_set_fun _ _ _ _ S H) in *; destruct w as [|x w]; [destruct (V eq_refl)|reflexivity]|]. intros H. destruct (H _ S).
Qed.

(** A refresh is told about the file at the configuration's place - or that there is none - and does with it what C59 and C60 say; on the disk it makes at most
    the directories on the way. *)
Theorem C93_refresh_reads parse pl s c : proper_place pl -> tree (fd_disk s) -> configuration pl c ->
  exists w, sees parse pl (fd_disk s) c w /\
    match refresh_files parse pl s with
    | Some s' => (exists changed, refresh_conf w (fd_conf s) = Some (fd_conf s', changed)) /\ ways_added (removelast c) (fd_disk s) (fd_disk s') /\ tree (fd_disk s')
    | None => refresh_conf w (fd_conf s) = None
    end.
Proof.
  intros W T C. apply (conf_iff pl (fd_disk s) c W) in C. unfold refresh_files. destruct (conf_file_path pl (fd_disk s)) as (name, d') eqn:E. cbn [fst] in C. subst c.
  destruct (conf_disk pl _ name d' W T E) as (T' & Wy).
  eexists. split; [apply (world_sees parse pl _ name d' W T E)|].
  set (w := mk_world _ _ _ _). clearbody w. destruct (refresh_conf w (fd_conf s)) as [[s' ch]|]; cbn [option_map]; [|reflexivity].
  split; [exists ch; reflexivity|]. cbn [fd_disk fst]. split; [apply (ways_added_of pl), Wy|exact T'].
Qed.

(** * The start *)

(** Starting the agent: it opens its log - making it, and the directories on the way to it, if they are not there - and changes nothing else on the disk; and it
    ends the process when, and only when, that cannot be done. *)
Theorem C93_start pl d p : proper_place pl -> tree d -> log_file pl p ->
  (logger_init pl d = None <-> blocked pl d p) /\
  forall d', logger_init pl d = Some d' -> tree d' /\
    (forall q, is_dir q d = true -> is_dir q d' = true) /\
    (forall q, is_dir q d' = true -> is_dir q d = true \/ exists rest, rest <> [] /\ p = q ++ rest) /\
    (forall q, q <> p -> file_at q d' = file_at q d) /\
    file_at p d' = Some (match file_at p d with Some f => f | None => mk_file [] (pl_now pl) end).
Proof.
  intros W T L. apply (log_iff pl p W) in L. subst p. pose proof (logger_cases pl d W T) as H. cbv zeta in H. set (p := locate pl (log_name pl)) in *. clearbody p.
  destruct (logger_init pl d) as [d1|].
  - destruct H as (NB & T1 & D1 & D2 & Np & F1 & F2). split; [split; [discriminate|contradiction]|]. intros d' [= <-]. split; [exact T1|]. split; [exact D1|].
    split; [|split].
    + intros q Hq. destruct (D2 q Hq) as [K|(rest & K)]; [left; exact K|right]. exists rest. split; [|exact K]. intros ->. rewrite app_nil_r in K. subst q. congruence.
    + intros q Hq. destruct (file_at p d) eqn:F; [apply F1; discriminate|apply (F2 eq_refl); exact Hq].
    + destruct (file_at p d) eqn:F; [rewrite F1 by discriminate; exact F|apply (F2 eq_refl)].
  - split; [split; [intros _; exact H|reflexivity]|]. intros d' K. discriminate K.
Qed.

(** The first use of the agent ends the application on a disk it may not write to (unless it is told of a log that can be written): log.Fatalln in logger.Init is
    os.Exit(1). *)
Theorem C93_start_refuted parse pl d p : proper_place pl -> tree d -> log_file pl p -> (forall q, pl_write pl q = false) ->
  logger_init pl d = None /\ start_files parse pl d = None.
Proof.
  intros W T L N. assert (logger_init pl d = None) as E by (apply (proj1 (C93_start pl d p W T L)); right; left; apply N).
  split; [exact E|]. unfold start_files. rewrite E. reflexivity.
Qed.

(** A started agent works with the settings of the configuration file that was there (and of the environment), and no other file than the log differs. *)
Theorem C93_started parse pl d c p s : proper_place pl -> tree d -> configuration pl c -> log_file pl p -> start_files parse pl d = Some s ->
  (forall q, q <> p -> file_at q (fd_disk s) = file_at q d) /\
  exists w changed, w_env w = pl_env pl /\ w_host w = pl_host pl /\ refresh_conf w initial_cstate = Some (fd_conf s, changed) /\
    (forall f fp, readable pl -> c <> p -> file_at c d = Some f -> parse (f_data f) = Some fp -> reloads w initial_cstate fp).
Proof.
  intros W T C L E. unfold start_files in E. destruct (logger_init pl d) as [d1|] eqn:E1; [|discriminate E].
  destruct (proj2 (C93_start pl d p W T L) d1 E1) as (T1 & _ & _ & Fq & _).
  destruct (C93_refresh_reads parse pl (mkF d1 initial_cstate) c W T1 C) as (w & S & R). cbn [fd_disk fd_conf] in S, R. rewrite E in R. destruct R as ((ch & R) & (Wy & _) & _).
  split; [intros q Hq; rewrite Wy; apply Fq, Hq|]. destruct S as (S1 & S2 & S3 & _). exists w, ch. split; [exact S1|]. split; [exact S2|]. split; [exact R|].
  intros f fp Rd Nc Hf Hp. rewrite <- (Fq c Nc) in Hf. destruct (S3 f Rd Hf) as (St & Ld & _). split; [right; exists (f_mtime f); split; [exact St|]; intros l Hl; discriminate Hl|left; apply Ld, Hp].
Qed.

(** * Histories *)
Lemma disk_refresh parse pl s s' : proper_place pl -> tree (fd_disk s) -> refresh_files parse pl s = Some s' ->
  exists c, configuration pl c /\ tree (fd_disk s') /\ ways_added (removelast c) (fd_disk s) (fd_disk s').
Proof.
  intros W T E. assert (configuration pl (locate pl (fst (conf_file_path pl (fd_disk s))))) as C by (apply (conf_iff pl (fd_disk s) _ W); reflexivity).
  destruct (C93_refresh_reads parse pl s _ W T C) as (w & _ & H). rewrite E in H. destruct H as (_ & H & T'). eauto.
Qed.
Lemma disk_save pl text s ok s' : proper_place pl -> tree (fd_disk s) -> save_text pl text s = (ok, s') ->
  exists c, configuration pl c /\ tree (fd_disk s') /\ fd_conf s' = fd_conf s /\
    (forall q, is_dir q (fd_disk s) = true -> is_dir q (fd_disk s') = true) /\
    (forall q, is_dir q (fd_disk s') = true -> is_dir q (fd_disk s) = true \/ exists rest, removelast c = q ++ rest) /\
    (forall q, q <> c -> file_at q (fd_disk s') = file_at q (fd_disk s)) /\
    file_at c (fd_disk s') = if ok then Some (mk_file text (pl_now pl)) else file_at c (fd_disk s).
Proof.
  intros W T E. unfold save_text in E. destruct (conf_file_path pl (fd_disk s)) as (name, d') eqn:Ec. set (c := locate pl name) in *.
  assert (configuration pl c) as C by (apply (conf_iff pl (fd_disk s) _ W); rewrite Ec; reflexivity).
  destruct (conf_disk pl _ name d' W T Ec) as (T' & Wy). fold c in Wy. exists c. split; [exact C|]. clearbody c. clear Ec C.
  destruct (ways_added_of _ _ _ _ Wy) as (F & D1 & D2).
  destruct (open_write pl c d') as [o|] eqn:Eo; injection E as <- <-; cbn [fd_disk fd_conf].
  - split; [|split; [reflexivity|split; [exact D1|split; [exact D2|split]]]].
    + unfold open_write in Eo. destruct (is_dir c d') eqn:X; [discriminate Eo|]. apply tree_with_file; [exact T'| |exact X].
      destruct (file_at c d') eqn:Y; [apply (proj1 T'); right; rewrite Y; discriminate|]. destruct (is_dir (removelast c) d'); [reflexivity|discriminate Eo].
    + intros q Q. rewrite file_with_file. destruct (comps_eqb q c) eqn:Z; [apply comps_eqb_eq in Z; contradiction|apply F].
    + rewrite file_with_file, comps_refl. reflexivity.
  - repeat split; auto; apply T'.
Qed.
Lemma disk_log log now line d : tree d -> let d' := log_line log now line d in
  tree d' /\ (forall q, is_dir q d' = is_dir q d) /\ (forall q, q <> log -> file_at q d' = file_at q d) /\
  forall f, file_at log d = Some f -> file_at log d' = Some (mk_file (f_data f ++ line) now).
Proof.
  intro T. cbv zeta. unfold log_line. destruct (file_at log d) as [f|] eqn:E.
  - split; [|split; [reflexivity|split]].
    + apply tree_with_file; [exact T|apply (proj1 T); right; rewrite E; discriminate|]. destruct (is_dir log d) eqn:X; [|reflexivity]. apply (proj2 T) in X. congruence.
    + intros q Q. rewrite file_with_file. destruct (comps_eqb q log) eqn:Z; [apply comps_eqb_eq in Z; contradiction|reflexivity].
    + intros f' [= <-]. rewrite file_with_file, comps_refl. reflexivity.
  - split; [exact T|]. split; [reflexivity|]. split; [reflexivity|]. intros f' K. discriminate K.
Qed.

(** one move of the agent's own *)
Lemma disk_step parse log m s s' : (forall pl, place_of m pl -> proper_place pl) -> tree (fd_disk s) -> (forall d, m <> FOther d) -> file_step parse log m s = Some s' ->
  tree (fd_disk s') /\
  (forall q, is_dir q (fd_disk s) = true -> is_dir q (fd_disk s') = true) /\
  (forall q, is_dir q (fd_disk s') = true -> is_dir q (fd_disk s) = true \/ exists pl c rest, place_of m pl /\ configuration pl c /\ removelast c = q ++ rest) /\
  (forall q, file_at q (fd_disk s') = file_at q (fd_disk s) \/ (q = log /\ exists now l, m = FLog now l) \/ exists pl t, m = FSave pl t /\ configuration pl q) /\
  (forall f, file_at log (fd_disk s) = Some f -> (forall pl t, m = FSave pl t -> ~ configuration pl log) ->
     exists f', file_at log (fd_disk s') = Some f' /\ f_data f' = f_data f ++ match m with FLog _ l => l | _ => [] end).
Proof.
  intros W T NO E. destruct m as [pl|pl|pl text|now line|d]; cbn [file_step] in E; [| | | |destruct (NO d eq_refl)].
  - assert (place_of (FRefresh pl) pl) as P by (left; reflexivity). destruct (disk_refresh parse pl s s' (W pl P) T E) as (c & C & T' & F & D1 & D2).
    split; [exact T'|]. split; [exact D1|]. split; [|split].
    + intros q H. destruct (D2 q H) as [K|(r & K)]; [left; exact K|right; exists pl, c, r; auto].
    + intro q. left. apply F.
    + intros f Hf _. exists f. rewrite F. rewrite app_nil_r. auto.
  - assert (place_of (FLoadText pl) pl) as P by (right; left; reflexivity). injection E as <-. unfold load_text.
    destruct (conf_file_path pl (fd_disk s)) as (name, d') eqn:Ec. cbn [snd fd_disk]. destruct (conf_disk pl _ name d' (W pl P) T Ec) as (T' & Wy).
    destruct (ways_added_of _ _ _ _ Wy) as (F & D1 & D2). split; [exact T'|]. split; [exact D1|]. split; [|split].
    + intros q H. destruct (D2 q H) as [K|(r & K)]; [left; exact K|right; exists pl, (locate pl name), r]. split; [exact P|]. split; [|exact K].
      apply (conf_iff pl (fd_disk s) _ (W pl P)). rewrite Ec. reflexivity.
    + intro q. left. apply F.
    + intros f Hf _. exists f. rewrite F. rewrite app_nil_r. auto.
  - assert (place_of (FSave pl text) pl) as P by (right; right; exists text; reflexivity). unfold save_config in E.
    destruct (save_text pl text s) as (ok, s1) eqn:Es. destruct (disk_save pl text s ok s1 (W pl P) T Es) as (c & C & T1 & _ & A1 & A2 & A3 & A4).
    assert (exists c', configuration pl c' /\ tree (fd_disk s') /\ ways_added (removelast c') (fd_disk s1) (fd_disk s')) as (c' & C' & T' & F & D1 & D2).
    { destruct ok.
      - destruct (refresh_files parse pl s1) as [s2|] eqn:Er; cbn [option_map snd] in E; [|discriminate E]. injection E as <-. apply (disk_refresh parse pl s1 s2 (W pl P) T1 Er).
      - cbn [option_map snd] in E. injection E as <-. exists c. split; [exact C|]. split; [exact T1|]. repeat split; auto. }
    split; [exact T'|]. split; [auto|]. split; [|split].
    + intros q H. destruct (D2 q H) as [K|(r & K)]; [|right; exists pl, c', r; auto]. destruct (A2 q K) as [K'|(r & K')]; [left; exact K'|right; exists pl, c, r; auto].
    + intro q. rewrite F. destruct (comps_eqb q c) eqn:Z.
      * apply comps_eqb_eq in Z. subst q. right. right. exists pl, text. auto.
      * left. apply A3. apply comps_eq_false, Z.
    + intros f Hf Nc. exists f. rewrite F, app_nil_r. split; [|reflexivity]. rewrite A3; [exact Hf|]. intros ->. exact (Nc pl text eq_refl C).
  - injection E as <-. cbn [fd_disk]. destruct (disk_log log now line (fd_disk s) T) as (T' & D & F & G). split; [exact T'|]. split; [intros q H; rewrite D; exact H|].
    split; [intros q H; rewrite D in H; left; exact H|]. split.
    + intro q. destruct (comps_eqb q log) eqn:Z; [apply comps_eqb_eq in Z; subst q; right; left; split; [reflexivity|exists now, line; reflexivity]|left; apply F, comps_eq_false, Z].
    + intros f Hf _. eexists. split; [apply G, Hf|reflexivity].
Qed.
Lemma disk_run parse log ms : forall s s', (forall m pl, In m ms -> place_of m pl -> proper_place pl) -> tree (fd_disk s) -> agent_only ms -> file_run parse log ms s = Some s' ->
  tree (fd_disk s') /\
  (forall q, is_dir q (fd_disk s) = true -> is_dir q (fd_disk s') = true) /\
  (forall q, is_dir q (fd_disk s') = true -> is_dir q (fd_disk s) = true \/ exists m pl c rest, In m ms /\ place_of m pl /\ configuration pl c /\ removelast c = q ++ rest) /\
  (forall q, file_at q (fd_disk s') = file_at q (fd_disk s) \/ (q = log /\ exists now l, In (FLog now l) ms) \/ exists pl t, In (FSave pl t) ms /\ configuration pl q) /\
  (forall f, file_at log (fd_disk s) = Some f -> (forall pl t, In (FSave pl t) ms -> ~ configuration pl log) ->
     exists f', file_at log (fd_disk s') = Some f' /\ f_data f' = f_data f ++ lines_of ms).
Proof.
  induction ms as [|m ms IH]; intros s s' W T A E; cbn [file_run] in E.
  - injection E as <-. repeat split; auto; try apply T. intros f Hf _. exists f. split; [exact Hf|]. cbn. rewrite app_nil_r. reflexivity.
  - destruct (file_step parse log m s) as [s1|] eqn:E1; [|discriminate E].
    destruct (disk_step parse log m s s1) as (T1 & U1 & D1 & F1 & L1); [intros pl; apply W; left; reflexivity|exact T|intros d ->; apply (A d); left; reflexivity|exact E1|].
    destruct (IH s1 s') as (T2 & U2 & D2 & F2 & L2); [intros m' pl Hm; apply W; right; exact Hm|exact T1|intros d Hd; apply (A d); right; exact Hd|exact E|].
    split; [exact T2|]. split; [auto|]. split; [|split].
    + intros q H. destruct (D2 q H) as [K|(m' & pl & c & r & Hm & K)]; [|right; exists m', pl, c, r; split; [right; exact Hm|exact K]].
      destruct (D1 q K) as [K'|(pl & c & r & K')]; [left; exact K'|right; exists m, pl, c, r; split; [left; reflexivity|exact K']].
    + intro q. destruct (F2 q) as [K|[(K & now & l & Hl)|(pl & t & Ht & K)]].
      * rewrite K. destruct (F1 q) as [K'|[(K' & now & l & ->)|(pl & t & -> & K')]]; [left; exact K'|right; left; split; [exact K'|exists now, l; left; reflexivity]|right; right; exists pl, t; split; [left; reflexivity|exact K']].
      * right. left. split; [exact K|]. exists now, l. right. exact Hl.
      * right. right. exists pl, t. split; [right; exact Ht|exact K].
    + intros f Hf N. destruct (L1 f Hf) as (f1 & Hf1 & E2); [intros pl t ->; apply (N pl t); left; reflexivity|].
      destruct (L2 f1 Hf1) as (f2 & Hf2 & E3); [intros pl t Ht; apply (N pl t); right; exact Ht|]. exists f2. split; [exact Hf2|]. rewrite E3, E2, <- app_assoc. reflexivity.
Qed.

(** Whatever the agent goes through - refreshes, configuration commands from the server, log lines, in places that change - it never changes or removes a file
    other than its log and the configuration it is told to save, removes no directory and makes none but those on the way to a configuration. *)
Theorem C93_only_its_files parse log ms s s' : (forall m pl, In m ms -> place_of m pl -> proper_place pl) -> tree (fd_disk s) -> agent_only ms -> file_run parse log ms s = Some s' ->
  tree (fd_disk s') /\
  (forall q, file_at q (fd_disk s') = file_at q (fd_disk s) \/ (q = log /\ exists now l, In (FLog now l) ms) \/ exists pl t, In (FSave pl t) ms /\ configuration pl q) /\
  (forall q, is_dir q (fd_disk s) = true -> is_dir q (fd_disk s') = true) /\
  (forall q, is_dir q (fd_disk s') = true -> is_dir q (fd_disk s) = true \/ exists m pl c rest, In m ms /\ place_of m pl /\ configuration pl c /\ rest <> [] /\ c = q ++ rest).
Proof.
  intros W T A E. destruct (disk_run parse log ms s s' W T A E) as (T' & U & D & F & _). split; [exact T'|]. split; [exact F|]. split; [exact U|].
  intros q H. destruct (D q H) as [K|(m & pl & c & r & Hm & P & C & K)]; [left; exact K|].
  destruct (list_eq_dec (list_eq_dec Z.eq_dec) c []) as [->|Nc].
  - cbn in K. symmetry in K. apply app_eq_nil in K as (-> & _). left. reflexivity.
  - right. exists m, pl, c, (r ++ [last c []]). split; [exact Hm|]. split; [exact P|]. split; [exact C|]. split; [destruct r; discriminate|].
    rewrite app_assoc, <- K. apply app_removelast_last, Nc.
Qed.

(** The log keeps every line, in order, after what it held before - even from an earlier run of the application. *)
Theorem C93_log_grows parse log ms s s' f : (forall m pl, In m ms -> place_of m pl -> proper_place pl) -> tree (fd_disk s) -> agent_only ms -> file_run parse log ms s = Some s' ->
  file_at log (fd_disk s) = Some f -> (forall pl t, In (FSave pl t) ms -> ~ configuration pl log) ->
  exists f', file_at log (fd_disk s') = Some f' /\ f_data f' = f_data f ++ lines_of ms.
Proof. intros W T A E Hf N. destruct (disk_run parse log ms s s' W T A E) as (_ & _ & _ & _ & L). apply (L f Hf N). Qed.

(** A configuration saved from the server is read back as it was saved, until another one is saved there; and the refresh that follows the saving takes its
    settings from it if the file is newer than the one in force. A failed save changes nothing in any file. *)
Theorem C93_saved parse pl text s ok s' c : proper_place pl -> tree (fd_disk s) -> configuration pl c -> save_config parse pl text s = Some (ok, s') ->
  (ok = false -> (forall q, file_at q (fd_disk s') = file_at q (fd_disk s)) /\ fd_conf s' = fd_conf s) /\
  (ok = true ->
    (forall fp, readable pl -> parse text = Some fp -> match c_last (fd_conf s) with Some m => m < pl_now pl | None => True end ->
      exists w changed, reloads w (fd_conf s) fp /\ w_env w = pl_env pl /\ w_host w = pl_host pl /\ refresh_conf w (fd_conf s) = Some (fd_conf s', changed)) /\
    forall log ms s2 pl2, (forall m pl, In m ms -> place_of m pl -> proper_place pl) -> agent_only ms -> file_run parse log ms s' = Some s2 ->
      c <> log -> (forall pl t, In (FSave pl t) ms -> ~ configuration pl c) ->
      proper_place pl2 -> readable pl2 -> configuration pl2 c -> fst (load_text pl2 s2) = text).
Proof.
  intros W T C E. unfold save_config in E. destruct (save_text pl text s) as (o, s1) eqn:Es.
  destruct (disk_save pl text s o s1 W T Es) as (c1 & C1 & T1 & Cf & A1 & A2 & A3 & A4).
  assert (c1 = c) as -> by (apply (conf_iff pl (fd_disk s) _ W) in C, C1; congruence).
  destruct o.
  - destruct (refresh_files parse pl s1) as [s3|] eqn:Er; cbn [option_map] in E; [|discriminate E]. injection E as <- <-. split; [discriminate|]. intros _. split.
    + intros fp R P Lt. destruct (C93_refresh_reads parse pl s1 c W T1 C) as (w & (Ew & Eh & Hs & _) & H). rewrite Er in H. destruct H as ((ch & H) & _).
      destruct (Hs _ R A4) as (S1 & S2 & _). cbn [f_data f_mtime] in *. exists w, ch. rewrite Cf in H. split; [|auto].
      split; [right; exists (pl_now pl); split; [exact S1|]|left; apply S2, P].
      intros l Hl. rewrite Hl in Lt. exact Lt.
    + intros log ms s2 pl2 Wm Am Em Ncl Ns W2 R2 C2.
      destruct (disk_refresh parse pl s1 s3 W T1 Er) as (c' & _ & T3 & F3 & _).
      destruct (C93_only_its_files parse log ms s3 s2 Wm T3 Am Em) as (Ts & Fs & _).
      destruct (Fs c) as [K|[(K & _)|(p & t & Ht & K)]]; [|contradiction|destruct (Ns p t Ht K)]. rewrite F3, A4 in K.
      unfold load_text. destruct (conf_file_path pl2 (fd_disk s2)) as (name, d') eqn:Ec. cbn [fst].
      assert (c = locate pl2 name) as -> by (apply (conf_iff pl2 (fd_disk s2) _ W2) in C2; rewrite Ec in C2; exact C2).
      destruct (conf_disk pl2 _ name d' W2 Ts Ec) as (T' & (F' & _ & _)).
      unfold read_file. rewrite F', K, R2.
      rewrite (passable_way pl2 d' R2); [reflexivity|]. intros a b Eab _ B. cbn [app]. rewrite F'. apply (file_way _ _ _ Ts K a b Eab B).
  - injection E as <- <-. split; [|discriminate]. intros _. split; [|exact Cf]. intro q. destruct (comps_eqb q c) eqn:Z; [apply comps_eqb_eq in Z; subst q; exact A4|apply A3, comps_eq_false, Z].
Qed.

Lemma passable_reads pl d cs : forall at_, (forall a b, cs = a ++ b -> a <> [] -> b <> [] -> file_at (at_ ++ a) d = None /\ is_dir (at_ ++ a) d = true) ->
  (passable pl at_ cs d = true <-> forall a b, cs = a ++ b -> a <> [] -> b <> [] -> pl_read pl (at_ ++ a) = true).
Proof.
  induction cs as [|c cs IH]; intros at_ H.
  - split; [|reflexivity]. intros _ a b E Na _. destruct a; [contradiction|discriminate E].
  - destruct cs as [|c' cs'].
    + split; [|reflexivity]. intros _ a b E Na Nb. destruct a as [|x a]; [contradiction|]. injection E as _ E. symmetry in E. apply app_eq_nil in E. destruct E as (_ & ->). contradiction.
    + cbn [passable]. destruct (H [c] (c' :: cs') eq_refl) as (F & D); [discriminate|discriminate|]. rewrite F, D.
      assert (forall a b, c' :: cs' = a ++ b -> a <> [] -> b <> [] -> file_at ((at_ ++ [c]) ++ a) d = None /\ is_dir ((at_ ++ [c]) ++ a) d = true) as H'.
      { intros a b E _ Nb. rewrite <- app_assoc. cbn [app]. apply (H (c :: a) b); [cbn [app]; rewrite <- E; reflexivity|discriminate|exact Nb]. }
      split.
      * intros B. apply andb_prop in B. destruct B as (B1 & B2). pose proof (proj1 (IH _ H') B2) as K. intros a b E Na Nb. destruct a as [|x a]; [contradiction|].
        cbn [app] in E. injection E as <- E. destruct a as [|y a]; [exact B1|]. change (c :: y :: a) with ([c] ++ y :: a). rewrite app_assoc. apply (K (y :: a) b E); [discriminate|exact Nb].
      * intros K. rewrite (K [c] (c' :: cs') eq_refl) by discriminate. apply (IH _ H'). intros a b E _ Nb. rewrite <- app_assoc. cbn [app].
        apply (K (c :: a) b); [cbn [app]; rewrite <- E; reflexivity|discriminate|exact Nb].
Qed.
(** What the server is shown as the configuration is the contents of the file at its place if it may be read, and nothing otherwise. *)
Theorem C93_shown pl s c : proper_place pl -> tree (fd_disk s) -> configuration pl c ->
  (forall f, file_at c (fd_disk s) = Some f -> may_read pl c -> fst (load_text pl s) = f_data f) /\
  (fst (load_text pl s) <> [] -> exists f, file_at c (fd_disk s) = Some f /\ may_read pl c /\ fst (load_text pl s) = f_data f).
Proof.
  intros W T C. apply (conf_iff pl (fd_disk s) c W) in C. unfold load_text. destruct (conf_file_path pl (fd_disk s)) as (name, d') eqn:E. cbn [fst] in *. subst c.
  destruct (conf_disk pl _ name d' W T E) as (T' & (F' & _ & _)). set (c := locate pl name) in *. clearbody c. unfold read_file. rewrite F'.
  assert (forall f, file_at c (fd_disk s) = Some f -> (passable pl [] c d' = true <-> forall a b, c = a ++ b -> a <> [] -> b <> [] -> pl_read pl a = true)) as K.
  { intros f Hf. apply (passable_reads pl d' c []). intros a b Eab _ Nb. cbn [app]. rewrite <- F' in Hf. split; [exact (file_way _ _ _ T' Hf a b Eab Nb)|].
    subst c. apply (file_up d' a b T'); [rewrite Hf; discriminate|exact Nb]. }
  split.
  - intros f Hf (R & Rw). rewrite (proj2 (K f Hf) Rw), R, Hf. reflexivity.
  - destruct (file_at c (fd_disk s)) as [f|] eqn:Hf; [|destruct (_ && _); cbn [option_map]; intros H; contradiction]. intros H. exists f. split; [reflexivity|].
    destruct (passable pl [] c d') eqn:P; cbn [andb] in *; [|contradiction]. destruct (pl_read pl c) eqn:R; [|contradiction]. split; [|reflexivity]. split; [exact R|]. apply (K f eq_refl). reflexivity.
Qed.

(** * The configuration's place *)

(** The configuration stays where it is while the environment stays, if the variable that says where it is gives an absolute path, or if the application stays in
    its working directory. *)
Theorem C93_stays_partial pl pl' c : pl_env pl' = pl_env pl ->
  (pl_wd pl' = pl_wd pl /\ pl_getwd pl' = pl_getwd pl) \/
  (exists v, absolute v /\
    (var_set (pl_env pl) (of_string "SCOUTER_CONFIG") v \/
     var_unset (pl_env pl) (of_string "SCOUTER_CONFIG") /\ var_set (pl_env pl) (of_string "scouter.config") v \/
     var_unset (pl_env pl) (of_string "SCOUTER_CONFIG") /\ var_unset (pl_env pl) (of_string "scouter.config") /\ var_set (pl_env pl) (of_string "SCOUTER_AGENT_HOME") v)) ->
  configuration pl c -> configuration pl' c.
Proof.
  intros E [(Ew & Eg)|(v & Av & H)] C.
  - assert (forall n t, leads_to pl n t -> leads_to pl' n t) as L by (intros n t (cs & A & B & D & F); exists cs; rewrite Ew; auto).
    assert (forall h, home pl h -> home pl' h) as Hm.
    { intros h [v t Hs Hl|Hu Hg|v t Hu Hg Hv Hl].
      - apply (home_given pl' v); [rewrite E; exact Hs|apply L, Hl].
      - rewrite <- Ew. apply home_working; [rewrite E; exact Hu|rewrite Eg; exact Hg].
      - apply (home_temporary pl' v); [rewrite E; exact Hu|rewrite Eg; exact Hg|rewrite E; exact Hv|apply L, Hl]. }
    destruct C as [v p Hs Hl|v p Hu Hs Hl|h H1 H2 H].
    + apply (conf_first pl' v); [rewrite E; exact Hs|apply L, Hl].
    + apply (conf_second pl' v); [rewrite E; exact Hu|rewrite E; exact Hs|apply L, Hl].
    + apply conf_default; [rewrite E; exact H1|rewrite E; exact H2|apply Hm, H].
  - assert (forall w t, var_set (pl_env pl) w v -> forall u, var_set (pl_env pl) w u -> leads_to pl u t -> leads_to pl' u t) as L.
    { intros w t Sv u Su (cs & A & B & D & F). rewrite (var_set_fun _ _ _ _ Su Sv) in *. exists cs. split; [exact A|]. split; [exact B|]. split; [exact D|]. left.
      destruct F as [F|(F & _)]; [exact F|contradiction]. }
    destruct C as [u p Hs Hl|u p Hu Hs Hl|h H1 H2 Hh].
    + destruct H as [H|[(H & _)|(H & _)]]; [|destruct (H _ Hs)|destruct (H _ Hs)]. apply (conf_first pl' u); [rewrite E; exact Hs|apply (L _ _ H u Hs Hl)].
    + destruct H as [H|[(_ & H)|(_ & H & _)]]; [destruct (Hu _ H)| |destruct (H _ Hs)]. apply (conf_second pl' u); [rewrite E; exact Hu|rewrite E; exact Hs|apply (L _ _ H u Hs Hl)].
    + destruct H as [H|[(_ & H)|(_ & _ & H)]]; [destruct (H1 _ H)|destruct (H2 _ H)|].
      apply conf_default; [rewrite E; exact H1|rewrite E; exact H2|].
      destruct Hh as [u t Hs Hl|Hu _|u t Hu _ _ _]; [|destruct (Hu _ H)|destruct (Hu _ H)]. apply (home_given pl' u); [rewrite E; exact Hs|apply (L _ _ H u Hs Hl)].
Qed.

(** ** Examples *)
Definition ex_parse (t : bytes) : option props := Some [(of_string "net_collector_ip", t)].
Definition ex_place (wd : list gostring) (now : Z) : place := mkPlace [of_string "HOME=/root"] wd true (fun _ => true) (fun _ => true) now (of_string "h").
Definition ex_app : list gostring := [of_string "srv"; of_string "app"].
Definition ex_conf : list gostring := ex_app ++ [of_string "scouter"; of_string "conf"; of_string "scouter.conf"].
Definition ex_log : list gostring := ex_app ++ [of_string "scouter"; of_string "logs"; of_string "scouter.log"].
Definition ex_disk : disk :=
  mkDisk [ex_app; [of_string "srv"]; [of_string "tmp"]; ex_app ++ [of_string "scouter"]; ex_app ++ [of_string "scouter"; of_string "conf"]]
         [(ex_conf, mk_file (of_string "10.0.0.9") 5); ([of_string "tmp"; of_string "note"], mk_file (of_string "mine") 3)].
Lemma ex_unset n : In n [of_string "SCOUTER_CONFIG"; of_string "scouter.config"; of_string "SCOUTER_AGENT_HOME"] -> var_unset [of_string "HOME=/root"] n.
Proof.
  intros H v ((b & e & a & E & (K & _) & _) & _). destruct b as [|x b]; [|destruct b; discriminate E].
  injection E as <- _. cbn [In] in H. destruct H as [<-|[<-|[<-|[]]]]; discriminate K.
Qed.
Lemma ex_home wd now : home (ex_place wd now) (wd ++ [of_string "scouter"]).
Proof. apply (home_working (ex_place wd now)); [apply ex_unset; cbn; tauto|reflexivity]. Qed.
Lemma ex_configuration now : configuration (ex_place ex_app now) ex_conf /\ log_file (ex_place ex_app now) ex_log.
Proof.
  pose proof (ex_home ex_app now) as H. split.
  - change ex_conf with ((ex_app ++ [of_string "scouter"]) ++ [of_string "conf"; of_string "scouter.conf"]).
    apply conf_default; [apply ex_unset; cbn; tauto|apply ex_unset; cbn; tauto|exact H].
  - exists (ex_app ++ [of_string "scouter"]). split; [exact H|reflexivity].
Qed.
Lemma ex_proper now : proper_place (ex_place ex_app now) /\ proper_place (ex_place [of_string "tmp"] now).
Proof. split; repeat constructor; apply plain_lit_ok; reflexivity. Qed.

(** The application changes its working directory - to /tmp - and the agent, with no variable set, now looks for its configuration there: the collector's address
    it was given is replaced by the default, though its file is unchanged. *)
Theorem C93_moves_refuted : exists s1 s2, start_files ex_parse (ex_place ex_app 10) ex_disk = Some s1 /\
  file_run ex_parse ex_log [FRefresh (ex_place [of_string "tmp"] 20)] s1 = Some s2 /\
  cf_NetCollectorIP (c_conf (fd_conf s1)) = of_string "10.0.0.9" /\ cf_NetCollectorIP (c_conf (fd_conf s2)) = of_string "127.0.0.1" /\
  file_at ex_conf (fd_disk s2) = file_at ex_conf ex_disk /\ ~ configuration (ex_place [of_string "tmp"] 20) ex_conf.
Proof.
  assert (match start_files ex_parse (ex_place ex_app 10) ex_disk with
          | Some s1 => match file_run ex_parse ex_log [FRefresh (ex_place [of_string "tmp"] 20)] s1 with
                       | Some s2 => beqb (cf_NetCollectorIP (c_conf (fd_conf s1))) (of_string "10.0.0.9") && beqb (cf_NetCollectorIP (c_conf (fd_conf s2))) (of_string "127.0.0.1") &&
                           match file_at ex_conf (fd_disk s2) with Some f => beqb (f_data f) (of_string "10.0.0.9") && (f_mtime f =? 5)%Z | None => false end
                       | None => false end
          | None => false end = true) as K by (vm_compute; reflexivity).
  destruct (start_files ex_parse (ex_place ex_app 10) ex_disk) as [s1|] eqn:E1; [|discriminate K].
  destruct (file_run ex_parse ex_log [FRefresh (ex_place [of_string "tmp"] 20)] s1) as [s2|] eqn:E2; [|discriminate K].
  exists s1, s2. split; [reflexivity|]. split; [exact E2|]. clear E1 E2.
  apply andb_prop in K as (K & K3). apply andb_prop in K as (K1 & K2). apply beqb_eq in K1, K2. split; [exact K1|]. split; [exact K2|]. split.
  - destruct (file_at ex_conf (fd_disk s2)) as [[dt mt]|]; [|discriminate K3]. cbn [f_data f_mtime] in K3. apply andb_prop in K3 as (Ka & Kb). apply beqb_eq in Ka. apply Z.eqb_eq in Kb. subst. reflexivity.
  - intro C. apply (conf_iff _ ex_disk _ (proj2 (ex_proper 20))) in C. vm_compute in C. discriminate C.
Qed.

(** The hypotheses of the theorems above are met: a tree with the agent's directory and another file; the log made at the start, lines logged, a configuration
    saved and read back. *)
Example C93_tree_case : tree ex_disk.
Proof.
  split.
  - intros p H. assert (forallb (fun q => is_dir (removelast q) ex_disk) (k_dirs ex_disk ++ map fst (k_files ex_disk)) = true) as K by (vm_compute; reflexivity).
    rewrite forallb_forall in K. destruct H as [H|H].
    + destruct p as [|c p]; [reflexivity|]. cbn [is_dir] in H. apply existsb_exists in H as (q & Hq & E). apply comps_eqb_eq in E. rewrite E. apply K, in_or_app. left. exact Hq.
    + apply K, in_or_app. right. unfold file_at in H. revert H. generalize (k_files ex_disk). intro l. induction l as [|(q, f) l IH]; [intro H; contradiction H; reflexivity|].
      cbn [file_in map fst]. destruct (comps_eqb p q) eqn:E; [apply comps_eqb_eq in E; left; symmetry; exact E|intro H; right; apply IH, H].
  - intros p H. destruct p as [|c p]; [vm_compute; reflexivity|]. cbn [is_dir] in H.
    assert (forallb (fun q => match file_at q ex_disk with None => true | _ => false end) (k_dirs ex_disk) = true) as K by (vm_compute; reflexivity). rewrite forallb_forall in K.
    apply existsb_exists in H as (q & Hq & E). apply comps_eqb_eq in E. rewrite E. specialize (K q Hq). destruct (file_at q ex_disk); [discriminate K|reflexivity].
Qed.
Definition ex_moves : list fmove :=
  [FLog 11 (of_string "a"); FRefresh (ex_place ex_app 12); FSave (ex_place ex_app 13) (of_string "10.0.0.7"); FLog 14 (of_string "b"); FLoadText (ex_place ex_app 15)].
Example C93_case :
  match logger_init (ex_place ex_app 10) ex_disk, start_files ex_parse (ex_place ex_app 10) ex_disk with
  | Some _, Some s => match file_run ex_parse ex_log ex_moves s with
      | Some s' => match file_at ex_log (fd_disk s'), file_at ex_conf (fd_disk s') with
          | Some l, Some c => beqb (f_data l) (of_string "ab") && beqb (f_data c) (of_string "10.0.0.7") && beqb (cf_NetCollectorIP (c_conf (fd_conf s'))) (of_string "10.0.0.7")
          | _, _ => false end
      | None => false end
  | _, _ => false end = true.
Proof. vm_compute. reflexivity. Qed.
Example C93_stays_case : let env := [of_string "SCOUTER_CONFIG=/etc/scouter.conf"] in
  absolute (of_string "/etc/scouter.conf") /\ var_set env (of_string "SCOUTER_CONFIG") (of_string "/etc/scouter.conf").
Proof.
  split; [eexists; reflexivity|]. split; [|discriminate]. exists [], (of_string "SCOUTER_CONFIG=/etc/scouter.conf"), []. split; [reflexivity|].
  split; [|intros e' t []]. split; [reflexivity|]. split; [discriminate|]. intro H. vm_compute in H. repeat (destruct H as [H|H]; [discriminate H|]). exact H.
Qed.
(** an obstacle: the logs' directory is a file *)
Example C93_blocked_case : blocked (ex_place ex_app 10) (with_file (ex_app ++ [of_string "scouter"; of_string "logs"]) (mk_file [] 1) ex_disk) ex_log.
Proof.
  right. right. exists (ex_app ++ [of_string "scouter"; of_string "logs"]), [of_string "scouter.log"]. split; [reflexivity|]. split; [discriminate|]. split; [reflexivity|].
  left. vm_compute. discriminate.
Qed.

Print Assumptions C93_where.
Print Assumptions C93_app_path.
Print Assumptions C93_refresh_reads.
Print Assumptions C93_start.
Print Assumptions C93_started.
Print Assumptions C93_start_refuted.
Print Assumptions C93_only_its_files.
Print Assumptions C93_log_grows.
Print Assumptions C93_saved.
Print Assumptions C93_shown.
Print Assumptions C93_stays_partial.
Print Assumptions C93_moves_refuted.
