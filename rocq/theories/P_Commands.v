(** C57, C58, C65 and C66 as the collector sees them: through the commands of the TCP protocol. [handle] takes a command by its name; the response
    to it is [response out res] (tcpclient.go:103-114), which [response_items] reads. *)
From Verif Require Import GoInt M_OutX M_InX M_Value M_Packs M_Access M_Util M_StrMatch M_Dump M_Trace M_Conf M_Tcp S_Wire S_Dump.
From Verif Require Import L_Codec L_Value L_StrMatch L_Dump P_Dump P_Tcp.

(** Listing and then fetching: every text dump directly in the dump directory is in the list, and asking for it by the listed name brings its contents. *)
Theorem C66_list_then_fetch h s param p f : h_walk_ok h = true -> (forall data, concat (h_split h data) = data) ->
  fs_get p (hs_fs s) = Some f -> plain_name (base_name p) -> directly_in (clean (get_dump_path (h_home h) (h_cwd h))) p (base_name p) ->
  exists t names, handle h (of_string "OBJECT_DUMP_FILE_LIST") param s new_dout = (s, new_dout, Some (PMap t)) /\
    get (of_string "name") t = Some (VList names) /\ In (VText (base_name p)) names /\
    exists out chunks, handle h (of_string "OBJECT_DUMP_FILE_DETAIL") (Some (PMap [(of_string "name", VText (base_name p))])) s new_dout = (s, out, None) /\
      response_items p_blob (response out None) = Some chunks /\ concat chunks = f_data f.
Proof.
  intros W Sp G Pn D.
  destruct (C66_listing_rows (h_home h) (h_cwd h) (hs_fs s)) as (rows & A & _ & _ & R & _).
  exists (list_dump_files (h_home h) (h_cwd h) (hs_fs s)), (map (fun r => VText (fst (fst r))) rows).
  split; [unfold handle; change (get (of_string "OBJECT_DUMP_FILE_LIST") commands) with (Some DumpFileList); cbv iota; rewrite W; reflexivity|].
  split; [exact A|]. split.
  - apply in_map_iff. exists (row_of p f). split; [reflexivity|]. apply R. exists p, f. destruct D as (D1 & D2).
    split; [|split; [exact D1|split; [exists [base_name p]; exact D2|reflexivity]]].
    clear - G. revert G. induction (hs_fs s) as [|[q g] d IH]; cbn [fs_get]; [discriminate|].
    destruct (path_eqb p q) eqn:E; [apply path_eqb_eq in E; subst q; intros X; injection X as ->; left; reflexivity|right; apply IH; assumption].
  - destruct (C66_fetch_by_listed_name_partial (h_home h) (h_cwd h) (hs_fs s) (h_split h) p f Sp G Pn D) as (chunks & B & C).
    eexists _, chunks. split; [unfold handle; change (get (of_string "OBJECT_DUMP_FILE_DETAIL") commands) with (Some DumpFileDetail); cbv iota; reflexivity|].
    split; [exact B|exact C].
Qed.

(** The same for profiles. *)
Theorem C66_list_then_download h s param p f : h_walk_ok h = true -> h_bad h = None ->
  fs_get p (hs_fs s) = Some f -> plain_name (base_name p) -> profile_name (base_name p) ->
  directly_in (clean (get_binary_dump_path (h_home h) (h_cwd h))) p (base_name p) ->
  exists t names, handle h (of_string "OBJECT_LIST_HEAP_DUMP") param s new_dout = (s, new_dout, Some (PMap t)) /\
    get (of_string "name") t = Some (VList names) /\ In (VText (base_name p)) names /\
    exists out chunks, handle h (of_string "OBJECT_DOWNLOAD_HEAP_DUMP") (Some (PMap [(of_string "fileName", VText (base_name p))])) s new_dout = (s, out, None) /\
      response_items p_blob (response out None) = Some chunks /\ concat chunks = f_data f.
Proof.
  intros W Bad G Pn Sf D.
  destruct (C66_binary_listing_rows (h_home h) (h_cwd h) (hs_fs s)) as (rows & A & _ & R).
  exists (list_binary_dump_files (h_home h) (h_cwd h) (hs_fs s)), (map (fun r => VText (fst r)) rows).
  split; [unfold handle; change (get (of_string "OBJECT_LIST_HEAP_DUMP") commands) with (Some ListHeapDump); cbv iota; rewrite W; reflexivity|].
  split; [exact A|]. split.
  - apply in_map_iff. exists (base_name p, zlen (f_data f)). split; [reflexivity|]. apply R. exists p, f. destruct D as (D1 & D2).
    split; [|split; [exact D1|split; [exists [base_name p]; exact D2|split; [|reflexivity]]]].
    + clear - G. revert G. induction (hs_fs s) as [|[q g] d IH]; cbn [fs_get]; [discriminate|].
      destruct (path_eqb p q) eqn:E; [apply path_eqb_eq in E; subst q; intros X; injection X as ->; left; reflexivity|right; apply IH; assumption].
    + exact Sf.
  - destruct (C66_download_by_listed_name_partial (h_home h) (h_cwd h) (hs_fs s) p f G Pn Sf D) as (chunks & B & C).
    eexists _, chunks. split; [unfold handle; change (get (of_string "OBJECT_DOWNLOAD_HEAP_DUMP") commands) with (Some DownloadHeapDump); cbv iota; reflexivity|].
    rewrite Bad. split; [exact B|exact C].
Qed.

(** Deleting: only files change; with a name that has no parent step, at most one of them, below the directory of the profiles; the answer tells whether a
    file is gone, and a listed profile does go. *)
Theorem C58_delete_command_partial h s name : no_parent_step name ->
  exists t s', handle h (of_string "OBJECT_DELETE_HEAP_DUMP") (Some (PMap [(of_string "delfileName", VText name)])) s new_dout = (s', new_dout, Some (PMap t)) /\
    hs_agent s' = hs_agent s /\ hs_conf s' = hs_conf s /\ hs_file s' = hs_file s /\
    (forall p, ~ inside (clean (get_binary_dump_path (h_home h) (h_cwd h))) p -> fs_get p (hs_fs s') = fs_get p (hs_fs s)) /\
    (forall p q, fs_get p (hs_fs s') <> fs_get p (hs_fs s) -> fs_get q (hs_fs s') <> fs_get q (hs_fs s) -> p = q) /\
    (get_boolean (of_string "success") t = true <-> exists p, fs_get p (hs_fs s) <> None /\ fs_get p (hs_fs s') = None) /\
    (forall p f, fs_get p (hs_fs s) = Some f -> plain_name name -> profile_name name ->
       directly_in (clean (get_binary_dump_path (h_home h) (h_cwd h))) p name -> fs_get p (hs_fs s') = None).
Proof.
  intros N. unfold handle. change (get (of_string "OBJECT_DELETE_HEAP_DUMP") commands) with (Some DeleteHeapDump). cbv iota.
  change (get_string (of_string "delfileName") [(of_string "delfileName", VText name)]) with name.
  pose proof (C58_delete_partial (h_home h) (h_cwd h) (hs_fs s) (h_remove_err h) name N) as C.
  assert (forall p f, fs_get p (hs_fs s) = Some f -> plain_name name -> profile_name name ->
       directly_in (clean (get_binary_dump_path (h_home h) (h_cwd h))) p name ->
       fs_get p (snd (delete_binary_dump (h_home h) (h_cwd h) (hs_fs s) (h_remove_err h) name)) = None) as L.
  { intros p f G Pn Sf (D1 & D2). apply profile_suffix in Sf. unfold delete_binary_dump. rewrite Sf.
    destruct (beqb_spec name []) as [F|_]; [destruct Pn as [Pn _]; contradiction|]. cbn [orb negb].
    assert (clean (filepath_join (get_binary_dump_path (h_home h) (h_cwd h)) name) = p) as E.
    { destruct (binary_path_render (h_home h) (h_cwd h)) as [E Hn]. rewrite E, joined_plain by assumption. fold (binary_dir (h_home h) (h_cwd h)) in D1, D2.
      rewrite <- D1, <- D2. symmetry. apply surjective_pairing. }
    rewrite E, G. cbn [snd]. rewrite fs_get_remove, (proj2 (path_eqb_eq p p) eq_refl). reflexivity. }
  destruct (delete_binary_dump (h_home h) (h_cwd h) (hs_fs s) (h_remove_err h) name) as [t d]. destruct C as (C1 & C2 & C3).
  exists t, (set_fs d s). split; [reflexivity|]. cbn [set_fs hs_agent hs_conf hs_file hs_fs]. split; [reflexivity|]. split; [reflexivity|]. split; [reflexivity|]. split; [exact C1|]. split; [exact C2|]. split; [exact C3|exact L].
Qed.

(** The directories: below SCOUTER_AGENT_HOME if that is set, otherwise below "scouter" in the working directory. *)
Theorem C65_dump_directories home cwd : exists base,
  (home <> [] -> base = clean home) /\ (home = [] -> directly_in (clean cwd) base (of_string "scouter")) /\
  directly_in base (clean (get_dump_path home cwd)) (of_string "dump") /\ directly_in base (clean (get_binary_dump_path home cwd)) (of_string "binary_dump").
Proof.
  assert (plain_name (of_string "scouter") /\ plain_name (of_string "dump") /\ plain_name (of_string "binary_dump")) as (P1 & P2 & P3)
    by (repeat split; try discriminate; cbn; intros H; decompose [or] H; try discriminate; contradiction).
  exists (clean (get_scouter_path home cwd)). unfold get_dump_path, get_binary_dump_path. rewrite !join_plain_any by assumption. split; [|split; [|split; split; reflexivity]].
  - intros N. destruct home; [congruence|reflexivity].
  - intros ->. cbn [get_scouter_path]. rewrite join_plain_any by assumption. split; reflexivity.
Qed.

(** A thread dump on command: it is written below the dump directory, the answer names it, every other file stays as it is. *)
Theorem C65_thread_dump_command h s param : h_creatable h = true -> ~ In 47 (h_stamp h) ->
  exists name s', handle h (of_string "TRIGGER_THREAD_DUMP") param s new_dout = (s', new_dout, Some (PMap [(of_string "name", VText name)])) /\
    hs_agent s' = hs_agent s /\ hs_conf s' = hs_conf s /\ hs_file s' = hs_file s /\
    directly_in (clean (get_dump_path (h_home h) (h_cwd h))) (clean name) (of_string "go_dump_" ++ h_stamp h ++ of_string ".log") /\
    fs_get (clean name) (hs_fs s') = Some (mk_file (heavy_dump_file (h_goroutines h)) (h_now h)) /\
    forall p, p <> clean name -> fs_get p (hs_fs s') = fs_get p (hs_fs s).
Proof.
  intros Cr St. unfold handle. change (get (of_string "TRIGGER_THREAD_DUMP") commands) with (Some TriggerThreadDump). cbv iota.
  unfold heavy_all_stack_trace. rewrite Cr. set (nm := heavy_dump_name (h_home h) (h_cwd h) (h_stamp h)).
  exists nm, (set_fs (fs_write (clean nm) (mk_file (heavy_dump_file (h_goroutines h)) (h_now h)) (hs_fs s)) s). split; [reflexivity|]. cbn [set_fs hs_agent hs_conf hs_file hs_fs].
  split; [reflexivity|]. split; [reflexivity|]. split; [reflexivity|]. split; [|split].
  - destruct (dump_path_render (h_home h) (h_cwd h)) as [E Hn].
    assert (plain_name (of_string "go_dump_" ++ h_stamp h ++ of_string ".log")) as Hb.
    { repeat split; try discriminate. rewrite !in_app_iff. intros [F|[F|F]]; [|contradiction|]; cbn in F; decompose [or] F; try discriminate; contradiction. }
    assert (clean nm = (fst (dump_dir (h_home h) (h_cwd h)), snd (dump_dir (h_home h) (h_cwd h)) ++ [of_string "go_dump_" ++ h_stamp h ++ of_string ".log"])) as Ec
      by (unfold nm, heavy_dump_name; rewrite E; apply joined_plain; assumption).
    rewrite Ec. split; reflexivity.
  - rewrite fs_get_write, (proj2 (path_eqb_eq _ _) eq_refl). reflexivity.
  - intros p Np. rewrite fs_get_write. destruct (path_eqb p (clean nm)) eqn:E; [apply path_eqb_eq in E; contradiction|reflexivity].
Qed.

(** The three profiling commands and the two triggers change nothing by themselves; the former are answered at once. *)
Theorem C65_profile_commands h s param :
  (forall cmd, In cmd [of_string "OBJECT_CALL_CPU_PROFILE"; of_string "OBJECT_CALL_BLOCK_PROFILE"; of_string "OBJECT_CALL_MUTEX_PROFILE"] ->
     exists t, handle h cmd param s new_dout = (s, new_dout, Some (PMap t)) /\ get_boolean (of_string "success") t = true) /\
  (forall cmd, In cmd [of_string "TRIGGER_BLOCK_PROFILE"; of_string "TRIGGER_MUTEX_PROFILE"] -> handle h cmd param s new_dout = (s, new_dout, None)).
Proof.
  split; intros cmd I; cbn [In] in I.
  - exists profile_reply. split; [|reflexivity]. destruct I as [<-|[<-|[<-|[]]]]; reflexivity.
  - destruct I as [<-|[<-|[]]]; reflexivity.
Qed.

(** The hypotheses are met: a text dump and a profile, listed, fetched and deleted; a thread dump. *)
Definition cmd_fs : fs := [((true, [of_string "opt"; of_string "scouter"; of_string "dump"; of_string "t.log"]), mk_file [1; 2; 3] 7);
  ((true, [of_string "opt"; of_string "scouter"; of_string "binary_dump"; of_string "a.pprof"]), mk_file [4; 5] 8)].
Example C66_command_case :
  fs_get (true, [of_string "opt"; of_string "scouter"; of_string "binary_dump"; of_string "a.pprof"]) cmd_fs = Some (mk_file [4; 5] 8) /\
  profile_name (of_string "a.pprof") /\ plain_name (of_string "a.pprof") /\ no_parent_step (of_string "a.pprof") /\
  directly_in (clean (get_binary_dump_path (of_string "/opt/scouter") [])) (true, [of_string "opt"; of_string "scouter"; of_string "binary_dump"; of_string "a.pprof"]) (of_string "a.pprof").
Proof.
  split; [reflexivity|]. split; [exists (of_string "a."); reflexivity|].
  assert (plain_name (of_string "a.pprof")) as P by (repeat split; try discriminate; cbn; intuition discriminate).
  split; [exact P|]. split; [|split; vm_compute; reflexivity].
  intros a b E [->|(a' & ->)] _; [discriminate E|]. destruct P as (_ & _ & _ & N). apply N. rewrite E, !in_app_iff. left. right. left. reflexivity.
Qed.

Print Assumptions C66_list_then_fetch.
Print Assumptions C66_list_then_download.
Print Assumptions C58_delete_command_partial.
Print Assumptions C65_dump_directories.
Print Assumptions C65_thread_dump_command.
Print Assumptions C65_profile_commands.
