(** Properties C57, C58, C65 and C66: dump downloads, dump directories, dump completeness, dump listings. *)
From Verif Require Import GoInt M_OutX M_InX M_Value M_Access M_Util M_StrMatch M_Dump S_Wire S_Dump.
From Verif Require Import L_Codec L_Value L_StrMatch L_Dump.

(** the response the collector receives when a handler wrote [out] and returned no pack (tcpclient.go:103) *)
Definition closed_response (out : dout) : bytes := buf (write_uint8 NoNEXT out).

Lemma closed_writes w chunks : writes w (enc_items chunks) -> Forall (fun c => (length c <= 4096)%nat) chunks ->
  response_items p_blob (closed_response (w new_dout)) = Some chunks.
Proof.
  intros Hw Hc. unfold closed_response.
  assert (buf (write_uint8 NoNEXT (w new_dout)) = enc_items chunks ++ be 1 4) as ->.
  { apply (writes_buf (fun o => write_uint8 NoNEXT (w o))). apply (writes_comp w); [exact Hw|apply writes_uint8]. }
  unfold enc_items. rewrite (response_of_items p_blob enc_blob (fun c => c)).
  - rewrite map_id. reflexivity.
  - intros x Hx. apply parses_blob. rewrite Forall_forall in Hc. specialize (Hc x Hx). unfold zlen. lia.
Qed.

(** ** C57: dump downloads are complete *)

(** OBJECT_DOWNLOAD_HEAP_DUMP: for every file of every size, the response is a sequence of HasNEXT-flagged
    blobs, closed by NoNEXT, whose concatenation is the file. *)
Theorem C57_binary_download_complete home cwd d fileName full f :
  download_name home cwd fileName = Some full -> fs_open full d = Some f ->
  exists chunks, response_items p_blob (closed_response (download_binary_dump home cwd d None fileName new_dout)) = Some chunks /\
    concat chunks = f_data f /\ Forall (fun c => (length c <= 300)%nat) chunks.
Proof.
  intros Hn Ho. unfold download_binary_dump. rewrite Hn, Ho.
  exists (cut300 (S (length (f_data f))) (f_data f)). split; [|split].
  - apply (closed_writes (download_loop (S (length (f_data f))) (f_data f) None 0)).
    + apply (download_loop_chunks (f_data f) (S (length (f_data f))) 0); lia.
    + apply Forall_forall. intros c Hc. apply cut300_len in Hc. lia.
  - apply cut300_concat. lia.
  - apply Forall_forall. intros c Hc. eapply cut300_len; exact Hc.
Qed.

(** If the device fails while the file is read, what was streamed is a prefix of the file. *)
Theorem C57_binary_download_failing_device home cwd d bad fileName full f :
  download_name home cwd fileName = Some full -> fs_open full d = Some f ->
  exists chunks rest, response_items p_blob (closed_response (download_binary_dump home cwd d bad fileName new_dout)) = Some chunks /\
    concat chunks ++ rest = f_data f.
Proof.
  intros Hn Ho. unfold download_binary_dump. rewrite Hn, Ho.
  destruct (download_loop_any (f_data f) bad (S (length (f_data f))) 0) as (chunks & rest & Hw & Hc & Hl); [lia|].
  exists chunks, rest. split; [|exact Hc].
  apply (closed_writes (download_loop (S (length (f_data f))) (f_data f) bad 0)); [exact Hw|].
  eapply Forall_impl; [|exact Hl]. cbn beta. intros; lia.
Qed.

(** OBJECT_DUMP_FILE_DETAIL: the same, however the operating system cuts the file into reads. *)
Theorem C57_text_download_complete home cwd d split param f :
  (forall data, concat (split data) = data) ->
  fs_open (stream_name home cwd (get_string (of_string "name") param)) d = Some f ->
  exists chunks, response_items p_blob (closed_response (stream_dump_file home cwd d split param new_dout)) = Some chunks /\
    concat chunks = f_data f /\ Forall (fun c => (0 < length c <= 4096)%nat) chunks.
Proof.
  intros Hs Ho. unfold stream_dump_file. rewrite Ho.
  set (r := split (f_data f)).
  destruct (stream_loop_chunks (S (length (concat r))) r) as (chunks & Hw & Hc & Hl); [lia|].
  exists chunks. split; [|split; [rewrite Hc; subst r; apply Hs|exact Hl]].
  apply (closed_writes (stream_loop (S (length (concat r))) r)); [exact Hw|].
  eapply Forall_impl; [|exact Hl]. cbn beta. intros; lia.
Qed.

(** A file that does not exist (or a name that is refused) gives an empty, correctly closed response. *)
Theorem C57_missing_file home cwd d bad fileName :
  (forall full, download_name home cwd fileName = Some full -> fs_open full d = None) ->
  response_items p_blob (closed_response (download_binary_dump home cwd d bad fileName new_dout)) = Some [].
Proof.
  intro H. unfold download_binary_dump. destruct (download_name home cwd fileName) as [full|] eqn:E; [|reflexivity].
  rewrite (H full eq_refl). reflexivity.
Qed.

(** The hypotheses are met by a 600-byte and an empty file; the exact multiple of 300 ends with an empty blob. *)
Definition ex_home := of_string "/opt/scouter".
Definition ex_fs : fs :=
  [ ((true, [of_string "opt"; of_string "scouter"; of_string "binary_dump"; of_string "a.pprof"]), mk_file (repeat 7 600) 5);
    ((true, [of_string "opt"; of_string "scouter"; of_string "binary_dump"; of_string "e.pprof"]), mk_file [] 6);
    ((true, [of_string "opt"; of_string "scouter"; of_string "dump"; of_string "t.log"]), mk_file (repeat 8 20) 7);
    ((true, [of_string "opt"; of_string "scouter"; of_string "dump"; of_string "old"; of_string "n.log"]), mk_file (repeat 9 2) 8);
    ((true, [of_string "etc"; of_string "passwd"]), mk_file (repeat 10 3) 9) ].
Example C57_example :
  response_items p_blob (closed_response (download_binary_dump ex_home [] ex_fs None (of_string "a.pprof") new_dout))
    = Some [repeat 7 300; repeat 7 300; []] /\
  response_items p_blob (closed_response (download_binary_dump ex_home [] ex_fs None (of_string "e.pprof") new_dout)) = Some [[]] /\
  response_items p_blob (closed_response (stream_dump_file ex_home [] ex_fs (fun bs => [firstn 5 bs; skipn 5 bs])
    [(of_string "name", VText (of_string "t.log"))] new_dout)) = Some [repeat 8 5; repeat 8 15].
Proof. vm_compute. auto. Qed.

(** ** C58: dump commands stay inside the dump directory *)

(** With a name that has no ".." step, the path opened for a download or a detail request lies inside the
    directory, whatever else (slashes, ".", empty steps, leading slash) the name contains. *)
Theorem C58_names_without_parent_step_partial home cwd name :
  no_parent_step name ->
  inside (clean (get_dump_path home cwd)) (clean (stream_name home cwd name)) /\
  (forall full, download_name home cwd name = Some full -> inside (clean (get_binary_dump_path home cwd)) (clean full)).
Proof.
  intro H. split.
  - unfold stream_name. destruct (dump_path_render home cwd) as [E Hn]. rewrite E at 2. apply joined_inside; assumption.
  - intros full. unfold download_name. destruct (beqb name [] || negb (has_suffix name suffix)); [discriminate|].
    intro Eq. inversion Eq; subst full. destruct (binary_path_render home cwd) as [E Hn]. rewrite E at 2.
    apply joined_inside; assumption.
Qed.

(** ... and deletion removes at most one file, inside the directory, whose name ends in "pprof"; it reports
    success exactly when that file existed. *)
Theorem C58_delete_partial home cwd d err name :
  no_parent_step name ->
  let '(t, d') := delete_binary_dump home cwd d err name in
  (forall p, ~ inside (clean (get_binary_dump_path home cwd)) p -> fs_get p d' = fs_get p d) /\
  (forall p q, fs_get p d' <> fs_get p d -> fs_get q d' <> fs_get q d -> p = q) /\
  (get_boolean (of_string "success") t = true <-> exists p, fs_get p d <> None /\ fs_get p d' = None).
Proof.
  intro H. unfold delete_binary_dump.
  destruct (beqb name [] || negb (has_suffix name suffix)).
  { split; [reflexivity|]. split; [congruence|]. split; [discriminate|]. intros [p [A B]]; congruence. }
  destruct (binary_path_render home cwd) as [E Hn].
  set (p0 := clean (filepath_join (get_binary_dump_path home cwd) name)).
  assert (inside (binary_dir home cwd) p0) as Hi by (subst p0; rewrite E; apply joined_inside; assumption).
  destruct (fs_get p0 d) as [f|] eqn:Eg.
  - split; [|split].
    + intros p Hp. rewrite fs_get_remove. destruct (path_eqb p p0) eqn:F; [|reflexivity].
      apply path_eqb_eq in F as ->. contradiction.
    + intros p q. rewrite !fs_get_remove.
      destruct (path_eqb p p0) eqn:F; [|congruence]. destruct (path_eqb q p0) eqn:G; [|congruence].
      apply path_eqb_eq in F, G. congruence.
    + split; [|reflexivity]. intros _. exists p0. rewrite fs_get_remove, (proj2 (path_eqb_eq p0 p0) eq_refl).
      split; congruence.
  - split; [reflexivity|]. split; [congruence|]. split; [discriminate|]. intros [p [A B]]; congruence.
Qed.

(** What the collector is told is the truth about any name, ".." or not. *)
Theorem C58_delete_reports home cwd d err name :
  let '(t, d') := delete_binary_dump home cwd d err name in
  (get_boolean (of_string "success") t = true <-> exists p, fs_get p d <> None /\ fs_get p d' = None).
Proof.
  unfold delete_binary_dump.
  destruct (beqb name [] || negb (has_suffix name suffix)).
  { split; [discriminate|]. intros [p [A B]]; congruence. }
  set (p0 := clean (filepath_join (get_binary_dump_path home cwd) name)).
  destruct (fs_get p0 d) as [f|] eqn:Eg.
  - split; [|reflexivity]. intros _. exists p0. rewrite fs_get_remove, (proj2 (path_eqb_eq p0 p0) eq_refl).
    split; congruence.
  - split; [discriminate|]. intros [p [A B]]; congruence.
Qed.

(** Refutation of the unrestricted claim, for every absolute agent directory: ANY file of the machine can be
    read by OBJECT_DUMP_FILE_DETAIL, and any file whose name ends in "pprof" can be downloaded or deleted. *)
(** Only profiles are downloaded or deleted: whatever name is given, every other file is left alone. *)
Theorem C58_only_profiles home cwd d err name :
  (forall full, download_name home cwd name = Some full -> profile_name (base_name (clean full))) /\
  (forall p, fs_get p (snd (delete_binary_dump home cwd d err name)) <> fs_get p d -> profile_name (base_name p)).
Proof.
  unfold download_name, delete_binary_dump. destruct (beqb name [] || negb (has_suffix name suffix)) eqn:G.
  { split; [discriminate|]. cbn [snd]. congruence. }
  apply orb_false_iff in G as (_ & G). apply negb_false_iff, profile_suffix in G.
  destruct (binary_path_render home cwd) as [E Hn]. split.
  - intros full [= <-]. rewrite E. apply joined_profile; assumption.
  - intros p. rewrite E. pose proof (joined_profile _ _ Hn G) as J. set (q := clean _) in *. destruct (fs_get q d); cbn [snd]; [|congruence].
    rewrite fs_get_remove. destruct (path_eqb p q) eqn:X; [|congruence]. apply path_eqb_eq in X. subst p. intros _. exact J.
Qed.
Example C58_only_profiles_case : exists p, fs_get p (snd (delete_binary_dump ex_home [] ex_fs [] (of_string "a.pprof"))) <> fs_get p ex_fs.
Proof. exists (true, [of_string "opt"; of_string "scouter"; of_string "binary_dump"; of_string "a.pprof"]). vm_compute. discriminate. Qed.

Theorem C58_refuted_any_file_readable home cwd t :
  absolute (get_scouter_path home cwd) -> t <> [] -> Forall plain_name t ->
  exists name, clean (stream_name home cwd name) = (true, t).
Proof.
  intros [s' Hs] Nt Ht. destruct (dump_path_render home cwd) as [E Hn].
  exists (climb (length (snd (dump_dir home cwd))) t). unfold stream_name. rewrite E.
  apply joined_climb; auto.
  unfold dump_dir, get_dump_path. rewrite Hs. reflexivity.
Qed.

Theorem C58_refuted_pprof_files home cwd t :
  absolute (get_scouter_path home cwd) -> t <> [] -> Forall plain_name t -> profile_name (last t []) ->
  exists name full, download_name home cwd name = Some full /\ clean full = (true, t) /\
    forall d err f, fs_get (true, t) d = Some f -> fs_get (true, t) (snd (delete_binary_dump home cwd d err name)) = None.
Proof.
  intros [s' Hs] Nt Ht Hsuf. apply profile_suffix in Hsuf. destruct (binary_path_render home cwd) as [E Hn].
  set (name := climb (length (snd (binary_dir home cwd))) t).
  assert (clean (filepath_join (get_binary_dump_path home cwd) name) = (true, t)) as Hc.
  { rewrite E. apply joined_climb; auto. unfold binary_dir, get_binary_dump_path. rewrite Hs. reflexivity. }
  assert (beqb name [] || negb (has_suffix name suffix) = false) as Hg.
  { destruct (join_last (length (snd (binary_dir home cwd))) t Nt) as [pre Ep].
    apply has_suffix_iff in Hsuf as [u Hu].
    apply orb_false_iff. split.
    - apply beqb_neq. intro F. unfold name in F. rewrite Ep, Hu in F. apply app_eq_nil in F as [_ F].
      apply app_eq_nil in F as [_ F]. discriminate.
    - apply negb_false_iff. apply has_suffix_iff. exists (pre ++ u). unfold name. rewrite Ep, Hu. apply app_assoc. }
  exists name, (filepath_join (get_binary_dump_path home cwd) name). split; [|split].
  - unfold download_name. rewrite Hg. reflexivity.
  - exact Hc.
  - intros d err f Hf. unfold delete_binary_dump. rewrite Hg. rewrite Hc, Hf. cbn [snd].
    rewrite fs_get_remove, (proj2 (path_eqb_eq _ _) eq_refl). reflexivity.
Qed.

Example C58_example :
  response_items p_blob (closed_response (stream_dump_file ex_home [] ex_fs (fun bs => [bs])
    [(of_string "name", VText (of_string "../../../etc/passwd"))] new_dout)) = Some [repeat 10 3] /\
  absolute (get_scouter_path ex_home []) /\
  clean (stream_name ex_home [] (of_string "/x/./y..log")) =
    (true, [of_string "opt"; of_string "scouter"; of_string "dump"; of_string "x"; of_string "y..log"]) /\
  no_parent_step (of_string "/x/./y..log").
Proof.
  split; [vm_compute; reflexivity|]. split; [eexists; reflexivity|]. split; [vm_compute; reflexivity|].
  intros a b E Ha Hb.
  assert (length (of_string "/x/./y..log") = length (a ++ of_string ".." ++ b)) as L by (rewrite E; reflexivity).
  rewrite !app_length in L. cbn in L.
  do 12 (destruct a as [|? a]; [cbn in E; try discriminate;
     inversion E; subst; destruct Ha as [Ha|[a' Ha]]; destruct Hb as [Hb|[b' Hb]];
     try discriminate; repeat (destruct a' as [|? a']; try discriminate)|cbn in E; inversion E; subst; try (cbn in L; lia)]).
Qed.

(** ** C65: dump files are complete *)

(** Block and mutex profiles: the file holds exactly what the profiler wrote. *)
Theorem C65_profiles_complete_partial writes : profile_dump_file writes = concat writes.
Proof.
  unfold profile_dump_file, bufw_flush. destruct (bufw_writes_inv writes new_bufw) as [E _]; [cbn; lia|].
  cbn [w_file]. exact E.
Qed.

(** Thread dumps: the buffer is never flushed; the file is a prefix that lacks at most the last 4096 bytes. *)
Theorem C65_thread_dump_prefix_partial writes : exists lost, concat writes = heavy_dump_file writes ++ lost /\ (length lost <= 4096)%nat.
Proof.
  destruct (bufw_writes_inv writes new_bufw) as [E L]; [cbn; lia|].
  exists (w_pending (fold_left (fun w p => bufw_write p w) writes new_bufw)). split; [symmetry; exact E|exact L].
Qed.

(** runtime/pprof writes the goroutine dump (debug=2) in a single Write: then the file is complete exactly when
    the dump is empty or longer than 4096 bytes, and EMPTY otherwise. *)
Theorem C65_thread_dump_single_write_partial dump :
  (4096 < length dump -> heavy_dump_file [dump] = dump)%nat /\
  (length dump <= 4096 -> heavy_dump_file [dump] = [])%nat.
Proof.
  unfold heavy_dump_file. cbn [fold_left]. unfold bufw_write. cbn [new_bufw w_pending w_file length].
  change (bufw_size - 0)%nat with bufw_size. unfold bufw_size. split; intro H.
  - rewrite (proj2 (Nat.leb_gt _ _)) by lia. reflexivity.
  - rewrite (proj2 (Nat.leb_le _ _)) by lia. reflexivity.
Qed.

Theorem C65_refuted : exists writes, concat writes <> [] /\ heavy_dump_file writes = [].
Proof. exists [[65; 66; 67]]. split; [discriminate|reflexivity]. Qed.

(** ** C66: listed dumps can be fetched by their listed names *)

(** name, size, and milliseconds since 1970 of the last change *)
Definition row_of (p : path) (f : file) : gostring * Z * Z := (base_name p, zlen (f_data f), Z.quot (f_mtime f) 1000000).

(** The three columns describe exactly the files below the dump directory, one row each. *)
Theorem C66_listing_rows home cwd d :
  let t := list_dump_files home cwd d in
  let dir := clean (get_dump_path home cwd) in
  exists rows,
    get (of_string "name") t = Some (VList (map (fun r => VText (fst (fst r))) rows)) /\
    get (of_string "size") t = Some (VList (map (fun r => VDec (snd (fst r))) rows)) /\
    get (of_string "last_modified") t = Some (VList (map (fun r => VDec (snd r)) rows)) /\
    (forall r, In r rows <-> exists p f, In (p, f) d /\ fst p = fst dir /\ (exists rest, snd p = snd dir ++ rest) /\ r = row_of p f) /\
    length rows = length (filter (fun e => below dir (fst e)) d).
Proof.
  cbv zeta. unfold list_dump_files. rewrite list_rows. cbn [app].
  set (dir := clean (get_dump_path home cwd)).
  exists (map (fun e => row_of (fst e) (snd e)) (walk dir d)).
  rewrite !map_map. split; [reflexivity|]. split; [reflexivity|]. split; [reflexivity|].
  split; [|rewrite map_length; reflexivity].
  intro r. rewrite in_map_iff. unfold walk. split.
  - intros ([p f] & <- & Hi). apply filter_In in Hi as [Hi Hb]. cbn [fst snd] in *.
    unfold below in Hb. apply andb_true_iff in Hb as [B1 B2]. apply eqb_prop in B1. apply comps_prefix_iff in B2.
    exists p, f. auto.
  - intros (p & f & Hi & H1 & H2 & ->). exists (p, f). split; [reflexivity|]. apply filter_In. split; [exact Hi|].
    cbn [fst]. unfold below. rewrite <- H1, eqb_reflx. apply comps_prefix_iff. exact H2.
Qed.

Theorem C66_binary_listing_rows home cwd d :
  let t := list_binary_dump_files home cwd d in
  let dir := clean (get_binary_dump_path home cwd) in
  exists rows,
    get (of_string "name") t = Some (VList (map (fun r => VText (fst r)) rows)) /\
    get (of_string "size") t = Some (VList (map (fun r => VDec (snd r)) rows)) /\
    (forall r, In r rows <-> exists p f, In (p, f) d /\ fst p = fst dir /\ (exists rest, snd p = snd dir ++ rest) /\
        (exists pre, base_name p = pre ++ of_string "pprof") /\ r = (base_name p, zlen (f_data f))).
Proof.
  cbv zeta. unfold list_binary_dump_files. rewrite list_rows2. cbn [app].
  set (dir := clean (get_binary_dump_path home cwd)).
  exists (map (fun e => (base_name (fst e), zlen (f_data (snd e)))) (filter (fun e => has_suffix (base_name (fst e)) suffix) (walk dir d))).
  rewrite !map_map. split; [reflexivity|]. split; [reflexivity|].
  intro r. rewrite in_map_iff. unfold walk. split.
  - intros ([p f] & <- & Hi). apply filter_In in Hi as [Hi Hs]. apply filter_In in Hi as [Hi Hb]. cbn [fst snd] in *.
    unfold below in Hb. apply andb_true_iff in Hb as [B1 B2]. apply eqb_prop in B1. apply comps_prefix_iff in B2.
    apply has_suffix_iff in Hs. exists p, f. auto.
  - intros (p & f & Hi & H1 & H2 & H3 & ->). exists (p, f). split; [reflexivity|]. apply filter_In. split.
    + apply filter_In. split; [exact Hi|]. cbn [fst]. unfold below. rewrite <- H1, eqb_reflx. apply comps_prefix_iff. exact H2.
    + apply has_suffix_iff. exact H3.
Qed.

(** A listed text dump lying directly in the directory is fetched, whole, by its listed name. *)
Theorem C66_fetch_by_listed_name_partial home cwd d split p f :
  (forall data, concat (split data) = data) ->
  fs_get p d = Some f -> plain_name (base_name p) -> directly_in (clean (get_dump_path home cwd)) p (base_name p) ->
  exists chunks,
    response_items p_blob (closed_response
      (stream_dump_file home cwd d split [(of_string "name", VText (base_name p))] new_dout)) = Some chunks /\
    concat chunks = f_data f.
Proof.
  intros Hs Hg Hp [D1 D2].
  destruct (C57_text_download_complete home cwd d split [(of_string "name", VText (base_name p))] f Hs) as (chunks & A & B & _).
  - change (get_string (of_string "name") [(of_string "name", VText (base_name p))]) with (base_name p).
    unfold fs_open, stream_name. destruct (dump_path_render home cwd) as [E Hn]. rewrite E, joined_plain by assumption.
    fold (dump_dir home cwd) in D1, D2. rewrite <- D1, <- D2. rewrite <- surjective_pairing. exact Hg.
  - exists chunks. auto.
Qed.

(** ... and a listed profile is downloaded, whole, by its listed name. *)
Theorem C66_download_by_listed_name_partial home cwd d p f :
  fs_get p d = Some f -> plain_name (base_name p) -> profile_name (base_name p) ->
  directly_in (clean (get_binary_dump_path home cwd)) p (base_name p) ->
  exists chunks,
    response_items p_blob (closed_response (download_binary_dump home cwd d None (base_name p) new_dout)) = Some chunks /\
    concat chunks = f_data f.
Proof.
  intros Hg Hp Hsuf [D1 D2]. apply profile_suffix in Hsuf.
  destruct (C57_binary_download_complete home cwd d (base_name p) (filepath_join (get_binary_dump_path home cwd) (base_name p)) f)
    as (chunks & A & B & _).
  - unfold download_name. rewrite Hsuf. destruct (beqb_spec (base_name p) []) as [F|_]; [destruct Hp as [Hp _]; contradiction|]. reflexivity.
  - unfold fs_open. destruct (binary_path_render home cwd) as [E Hn]. rewrite E, joined_plain by assumption.
    fold (binary_dir home cwd) in D1, D2. rewrite <- D1, <- D2. rewrite <- surjective_pairing. exact Hg.
  - exists chunks. auto.
Qed.

(** A file in a subdirectory is listed under a name that does not fetch it. *)
Theorem C66_refuted_nested : exists d name,
  (exists names, get (of_string "name") (list_dump_files ex_home [] d) = Some (VList names) /\ In (VText name) names) /\
  response_items p_blob (closed_response (stream_dump_file ex_home [] d (fun bs => [bs]) [(of_string "name", VText name)] new_dout)) = Some [].
Proof.
  exists ex_fs, (of_string "n.log"). split; [|vm_compute; reflexivity].
  eexists. split; [vm_compute; reflexivity|]. right. left. reflexivity.
Qed.

(** The full path name returned by TRIGGER_THREAD_DUMP never names the dump just written. *)
Theorem C66_refuted_trigger_name home cwd stamp ok writes now d name :
  absolute (get_scouter_path home cwd) -> ~ In 47 stamp ->
  get (of_string "name") (fst (heavy_all_stack_trace home cwd stamp ok writes now d)) = Some (VText name) ->
  fs_get (clean name) (snd (heavy_all_stack_trace home cwd stamp ok writes now d)) = Some (mk_file (heavy_dump_file writes) now) /\
  clean (stream_name home cwd name) <> clean name.
Proof.
  intros [s' Hs] Hst. unfold heavy_all_stack_trace. destruct ok; [|discriminate].
  cbn [fst snd]. set (nm := heavy_dump_name home cwd stamp).
  change (get (of_string "name") (mappack_put (of_string "name") (AString nm) [])) with (Some (VText nm)).
  intro E. inversion E; subst name. clear E. split.
  - rewrite fs_get_write, (proj2 (path_eqb_eq _ _) eq_refl). reflexivity.
  - destruct (dump_path_render home cwd) as [E Hn].
    set (base := of_string "go_dump_" ++ stamp ++ of_string ".log") in *.
    assert (plain_name base) as Hb.
    { subst base. repeat split; try discriminate. rewrite !in_app_iff. intros [F|[F|F]]; [|contradiction|];
        cbn in F; decompose [or] F; try discriminate; contradiction. }
    assert (clean nm = (fst (dump_dir home cwd), snd (dump_dir home cwd) ++ [base])) as Hc.
    { subst nm. unfold heavy_dump_name. rewrite E. apply joined_plain; assumption. }
    assert (fst (dump_dir home cwd) = true) as Hr by (unfold dump_dir, get_dump_path; rewrite Hs; reflexivity).
    assert (normal (clean nm)) as Hnn by apply clean_normal.
    assert (nm = render (clean nm)) as Hrn.
    { destruct (filepath_join_clean (get_dump_path home cwd) base) as (p & Hp & Ep); [right; apply Hb|].
      unfold nm, heavy_dump_name. fold base. rewrite Ep, clean_render by exact Hp. reflexivity. }
    unfold stream_name. rewrite E, clean_join_dir by exact Hn. rewrite Hc. intro F. apply (f_equal (fun q => length (snd q))) in F.
    cbn [snd] in F. revert F.
    rewrite Hrn, Hc, Hr. cbn [render]. change (slash :: join_slash (snd (dump_dir home cwd) ++ [base])) with ([] ++ slash :: join_slash (snd (dump_dir home cwd) ++ [base])).
    rewrite split_app, fold_left_app. rewrite split_join.
    2:{ destruct (snd (dump_dir home cwd)); discriminate. }
    2:{ apply proper_noslash. pose proof (normal_proper _ Hnn) as P. rewrite Hc in P. exact P. }
    change (fold_left (clean_step true) (split_byte slash []) (rev (snd (dump_dir home cwd)))) with (rev (snd (dump_dir home cwd))).
    rewrite push_proper.
    + rewrite rev_length, !app_length, !rev_length, !app_length. cbn [length].
      assert (snd (dump_dir home cwd) <> []); [|destruct (snd (dump_dir home cwd)); [congruence|cbn [length]; intro Hlen; lia]].
      unfold dump_dir, get_dump_path.
      intro Hnil. revert Hnil. rewrite Hs. unfold filepath_join.
      change (of_string "dump") with (100 :: of_string "ump") at 1. cbv iota.
      change (100 :: of_string "ump") with (of_string "dump").
      rewrite clean_render by apply clean_normal.
      unfold clean. cbn [snd]. rewrite split_app, fold_left_app.
      change (split_byte slash (of_string "dump")) with [of_string "dump"]. cbn [fold_left].
      generalize (fold_left (clean_step (is_rooted ((47 :: s') ++ slash :: of_string "dump"))) (split_byte slash (47 :: s')) []).
      intros st. change (clean_step (is_rooted ((47 :: s') ++ slash :: of_string "dump")) st (of_string "dump")) with (of_string "dump" :: st).
      cbn [rev]. intro G. destruct (rev st); discriminate.
    + pose proof (normal_proper _ Hnn) as P. rewrite Hc in P. exact P.
    + destruct Hnn as (a & k & Ea & Na & _ & Hk). rewrite Hc in *. cbn [fst snd] in *. rewrite (Hk Hr) in Ea.
      cbn [repeat] in Ea. rewrite app_nil_r in Ea. rewrite <- Ea in Na. rewrite <- in_rev in Na. exact Na.
Qed.

Example C66_example :
  fs_get (true, [of_string "opt"; of_string "scouter"; of_string "dump"; of_string "t.log"]) ex_fs = Some (mk_file (repeat 8 20) 7) /\
  plain_name (of_string "t.log") /\
  directly_in (clean (get_dump_path ex_home [])) (true, [of_string "opt"; of_string "scouter"; of_string "dump"; of_string "t.log"]) (of_string "t.log").
Proof.
  split; [reflexivity|]. split.
  - repeat split; try discriminate. cbn. intuition discriminate.
  - split; vm_compute; reflexivity.
Qed.

Print Assumptions C57_binary_download_complete.
Print Assumptions C57_binary_download_failing_device.
Print Assumptions C57_text_download_complete.
Print Assumptions C57_missing_file.
Print Assumptions C58_names_without_parent_step_partial.
Print Assumptions C58_delete_partial.
Print Assumptions C58_delete_reports.
Print Assumptions C58_only_profiles.
Print Assumptions C58_refuted_any_file_readable.
Print Assumptions C58_refuted_pprof_files.
Print Assumptions C65_profiles_complete_partial.
Print Assumptions C65_thread_dump_prefix_partial.
Print Assumptions C65_thread_dump_single_write_partial.
Print Assumptions C65_refuted.
Print Assumptions C66_listing_rows.
Print Assumptions C66_binary_listing_rows.
Print Assumptions C66_fetch_by_listed_name_partial.
Print Assumptions C66_download_by_listed_name_partial.
Print Assumptions C66_refuted_nested.
Print Assumptions C66_refuted_trigger_name.
