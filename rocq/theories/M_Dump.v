(** Model of scouterx/dump/dump.go (download, listing, deletion and thread-dump writing) and of
    scouterx/common/util/osutil.go (the agent's directories).

    Not modelled: CPU/block/mutex sampling itself (runtime/pprof), symbolic links, permissions,
    a file that changes while it is being read.  Files are named by cleaned paths. *)
From Verif Require Import GoInt M_OutX M_InX M_Value M_Access M_Util M_StrMatch.

(** * path/filepath (Unix) *)

(** used by dump.go:192-204 and the other filepath calls of dump.go *)
Definition slash : Z := 47.
(** path/filepath, used by dump.go:192-204 *)
Definition dot : gostring := of_string ".".
(** path/filepath, used by dump.go:192-204 *)
Definition dotdot : gostring := of_string "..".

(** A cleaned path: absolute?, components. filepath.Join in dump.go:192-204, 249-336 *)
Definition path := (bool * list gostring)%type.

(** one component of filepath.Clean; [st] is the output so far, innermost component first; filepath.Join in dump.go:192-204, 249-336 *)
Definition clean_step (rooted : bool) (st : list gostring) (c : gostring) : list gostring :=
  if beqb c [] || beqb c dot then st
  else if beqb c dotdot then
    match st with
    | top :: rest => if beqb top dotdot then dotdot :: st else rest
    | [] => if rooted then [] else [dotdot]
    end
  else c :: st.

(** filepath.IsAbs on Unix, part of filepath.Clean: dump.go:192-204 *)
Definition is_rooted (s : gostring) : bool := match s with c :: _ => c =? slash | [] => false end.

(** filepath.Clean, as a path; filepath.Join in dump.go:192-204, 249-336 *)
Definition clean (s : gostring) : path :=
  (is_rooted s, rev (fold_left (clean_step (is_rooted s)) (split_byte slash s) [])).

(** strings.Join(elems, "/") inside filepath.Join: dump.go:192-204 *)
Fixpoint join_slash (cs : list gostring) : gostring :=
  match cs with
  | [] => []
  | [c] => c
  | c :: cs' => c ++ slash :: join_slash cs'
  end.

(** the string filepath.Clean returns; filepath.Join in dump.go:192-204, 249-336 *)
Definition render (p : path) : gostring :=
  match p with
  | (true, cs) => slash :: join_slash cs
  | (false, []) => dot
  | (false, cs) => join_slash cs
  end.

(** filepath.Join(a, b): empty elements are ignored, the rest is joined with a slash and cleaned; dump.go:192-204, 249-336 *)
Definition filepath_join (a b : gostring) : gostring :=
  match a, b with
  | [], [] => []
  | [], _ => render (clean b)
  | _, [] => render (clean a)
  | _, _ => render (clean (a ++ slash :: b))
  end.

(** * Directories *)

(** osutil.go:22-33 (and 10-20): [home] is os.Getenv("SCOUTER_AGENT_HOME"), [cwd] the result of
    os.Getwd(), or os.TempDir() when that failed.  MakeDir's effect is not modelled. *)
Definition get_scouter_path (home cwd : gostring) : gostring :=
  match home with
  | [] => filepath_join cwd (of_string "scouter")
  | _ => home
  end.

(** dump.go:192-197 *)
Definition get_dump_path (home cwd : gostring) : gostring :=
  filepath_join (get_scouter_path home cwd) (of_string "dump").
(** dump.go:199-204 *)
Definition get_binary_dump_path (home cwd : gostring) : gostring :=
  filepath_join (get_scouter_path home cwd) (of_string "binary_dump").

(** * The file system: cleaned path -> contents and modification time (nanoseconds since 1970) *)

(** the disk that dump.go:62-336 works on *)
Record file := mk_file { f_data : bytes; f_mtime : Z }.
(** the disk that dump.go:62-336 works on *)
Definition fs := list (path * file).

(** which file a path names: dump.go:62-336 *)
Fixpoint comps_eqb (a b : list gostring) : bool :=
  match a, b with
  | [], [] => true
  | x :: a', y :: b' => beqb x y && comps_eqb a' b'
  | _, _ => false
  end.
(** which file a path names: dump.go:62-336 *)
Definition path_eqb (p q : path) : bool := Bool.eqb (fst p) (fst q) && comps_eqb (snd p) (snd q).

(** os.Open, os.Stat: dump.go:249-336 *)
Fixpoint fs_get (p : path) (d : fs) : option file :=
  match d with
  | [] => None
  | (q, f) :: d' => if path_eqb p q then Some f else fs_get p d'
  end.
(** os.Remove: dump.go:285-304 *)
Fixpoint fs_remove (p : path) (d : fs) : fs :=
  match d with
  | [] => []
  | (q, f) :: d' => if path_eqb p q then fs_remove p d' else (q, f) :: fs_remove p d'
  end.
(** os.Create + writes + Close; dump.go:62-190 *)
Definition fs_write (p : path) (f : file) (d : fs) : fs := (p, f) :: fs_remove p d.

(** os.Open(name); dump.go:249-336 *)
Definition fs_open (name : gostring) (d : fs) : option file := fs_get (clean name) d.

(** * Downloads *)

(** dump.go:21 *)
Definition suffix : gostring := of_string "pprof".

(** tcpflag.go:6-7 *)
Definition HasNEXT : Z := 3.
(** tcpflag.go:10 *)
Definition NoNEXT : Z := 4.

(** What os.File.ReadAt reported: the bytes read and how the call ended. dump.go:249-283, 306-336 *)
Inductive read_end := ReadOk | ReadEOF | ReadErr.

(** os.File.ReadAt(b, offset), len(b) = n.  [bad] is the offset from which the device fails, if any:
    a read that would need a byte at or beyond it returns an error other than io.EOF. dump.go:249-283, 306-336 *)
Definition read_at (data : bytes) (bad : option Z) (n offset : Z) : bytes * read_end :=
  let got := firstn (Z.to_nat n) (skipn (Z.to_nat offset) data) in
  let upto := offset + zlen got in
  match bad with
  | Some b => if b <? upto then (firstn (Z.to_nat (b - offset)) got, ReadErr)
              else if zlen got <? n then (got, ReadEOF) else (got, ReadOk)
  | None => if zlen got <? n then (got, ReadEOF) else (got, ReadOk)
  end.

(** dump.go:263-281, the loop; every iteration but the last advances by 300 bytes, so
    [length data + 1] iterations always suffice ([fuel]) *)
Fixpoint download_loop (fuel : nat) (data : bytes) (bad : option Z) (offset : Z) (out : dout) : dout :=
  match fuel with
  | O => out
  | S k =>
      match read_at data bad 300 offset with
      | (b, ReadErr) => out
      | (b, ReadEOF) => write_blob b (write_uint8 HasNEXT out)
      | (b, ReadOk) => download_loop k data bad (offset + zlen b) (write_blob b (write_uint8 HasNEXT out))
      end
  end.

(** dump.go:250-254 *)
Definition download_name (home cwd : gostring) (fileName : gostring) : option gostring :=
  if beqb fileName [] || negb (has_suffix fileName suffix) then None
  else Some (filepath_join (get_binary_dump_path home cwd) fileName).

(** dump.go:249-283 *)
Definition download_binary_dump (home cwd : gostring) (d : fs) (bad : option Z) (fileName : gostring) (out : dout) : dout :=
  match download_name home cwd fileName with
  | None => out
  | Some fullName =>
      match fs_open fullName d with
      | None => out
      | Some f => download_loop (S (length (f_data f))) (f_data f) bad 0 out
      end
  end.

(** dump.go:320-334: the read loop.  The bufio.Reader has the same size (4096) as [part], so each Read goes
    straight to the file (bufio.Reader.Read, "Large read, empty buffer"), which hands out its bytes in
    pieces of the operating system's choice; the loop ends at io.EOF or any other error. *)
Fixpoint stream_loop (fuel : nat) (r : reader) (out : dout) : dout :=
  match fuel with
  | O => out
  | S k =>
      match rd_read 4096 r with
      | (part, None, r') => stream_loop k r' (write_blob part (write_uint8 HasNEXT out))
      | (_, Some _, _) => out
      end
  end.

(** dump.go:311-312 *)
Definition stream_name (home cwd name : gostring) : gostring := filepath_join (get_dump_path home cwd) name.

(** dump.go:306-336 for a map pack parameter; [split] is how the operating system cuts the file into reads *)
Definition stream_dump_file (home cwd : gostring) (d : fs) (split : bytes -> list bytes)
    (param : table) (out : dout) : dout :=
  match fs_open (stream_name home cwd (get_string (of_string "name") param)) d with
  | None => out
  | Some f => stream_loop (S (length (concat (split (f_data f))))) (split (f_data f)) out
  end.

(** * Deletion: dump.go:285-304.  [err_text] is the text of os.Remove's error *)
Definition put_result (ok : bool) (msg : gostring) : table :=
  mappack_put (of_string "msg") (AString msg) (mappack_put (of_string "success") (AValue (VBool ok)) []).

(** handlers.go:155-161, dump.go:285-304 *)
Definition delete_binary_dump (home cwd : gostring) (d : fs) (err_text : gostring) (fileName : gostring) : table * fs :=
  if beqb fileName [] || negb (has_suffix fileName suffix) then (put_result false (of_string "no fileName"), d)
  else
    let p := clean (filepath_join (get_binary_dump_path home cwd) fileName) in
    match fs_get p d with
    | None => (put_result false err_text, d)
    | Some _ => (put_result true (of_string "success"), fs_remove p d)
    end.

(** * Listing *)

(** filepath.Walk(root, ...): the regular files below [root] (the order, lexical in Go, is that of [d] here;
    directories are skipped by both callbacks).  The callback's info is never nil because MakeDir has just
    created the root (a failing MakeDir is not modelled). dump.go:206-247 *)
Fixpoint comps_prefix (a b : list gostring) : bool :=
  match a, b with
  | [], _ => true
  | x :: a', y :: b' => beqb x y && comps_prefix a' b'
  | _, [] => false
  end.
(** filepath.Walk in dump.go:206-247: the files below [root] *)
Definition below (root p : path) : bool := Bool.eqb (fst root) (fst p) && comps_prefix (snd root) (snd p).
(** filepath.Walk in dump.go:206-247 *)
Definition walk (root : path) (d : fs) : list (path * file) := filter (fun e => below root (fst e)) d.
(** info.Name(): the last component; dump.go:206-247 *)
Definition base_name (p : path) : gostring := last (snd p) [].

(** dump.go:206-227; the three list values are appended to row by row *)
Definition list_dump_files (home cwd : gostring) (d : fs) : table :=
  let files := walk (clean (get_dump_path home cwd)) d in
  let row := fun (acc : list value * list value * list value) (e : path * file) =>
    let '(nameLv, sizeLv, modifiedLv) := acc in
    (list_add_string (base_name (fst e)) nameLv, list_add_int64 (zlen (f_data (snd e))) sizeLv,
     list_add_int64 (time_to_millis (f_mtime (snd e))) modifiedLv) in
  let '(nameLv, sizeLv, modifiedLv) := fold_left row files ([], [], []) in
  mappack_put (of_string "last_modified") (AValue (VList modifiedLv))
    (mappack_put (of_string "size") (AValue (VList sizeLv)) (mappack_put (of_string "name") (AValue (VList nameLv)) [])).

(** dump.go:229-247 *)
Definition list_binary_dump_files (home cwd : gostring) (d : fs) : table :=
  let files := walk (clean (get_binary_dump_path home cwd)) d in
  let row := fun (acc : list value * list value) (e : path * file) =>
    let '(nameLv, sizeLv) := acc in
    if has_suffix (base_name (fst e)) suffix
    then (list_add_string (base_name (fst e)) nameLv, list_add_int64 (zlen (f_data (snd e))) sizeLv)
    else acc in
  let '(nameLv, sizeLv) := fold_left row files ([], []) in
  mappack_put (of_string "size") (AValue (VList sizeLv)) (mappack_put (of_string "name") (AValue (VList nameLv)) []).

(** * Writing a dump file *)

(** bufio.Writer of size 4096 over a file: what has reached the file, what is still buffered; dump.go:64-83, 126-190 *)
Record bufw := mk_bufw { w_file : bytes; w_pending : bytes }.
(** bufio.NewWriter: dump.go:64-83, 126-190 *)
Definition new_bufw : bufw := mk_bufw [] [].
(** bufio.NewWriter's default size: dump.go:64-83, 126-190 *)
Definition bufw_size : nat := 4096.

(** bufio.Writer.Write: while p does not fit, an empty buffer writes p straight to the file, a partly
    filled one is topped up and flushed (so the Go loop runs at most twice); the rest is buffered; dump.go:64-83, 126-190 *)
Definition bufw_write (p : bytes) (w : bufw) : bufw :=
  if (length p <=? bufw_size - length (w_pending w))%nat then mk_bufw (w_file w) (w_pending w ++ p)
  else match w_pending w with
       | [] => mk_bufw (w_file w ++ p) []
       | pend =>
           let n := (bufw_size - length pend)%nat in
           let f := w_file w ++ pend ++ firstn n p in
           let p' := skipn n p in
           if (length p' <=? bufw_size)%nat then mk_bufw f p' else mk_bufw (f ++ p') []
       end.
(** bufio.Writer.Flush; dump.go:126-190 *)
Definition bufw_flush (w : bufw) : bufw := mk_bufw (w_file w ++ w_pending w) [].

(** dump.go:64-83: the goroutine profile is written through a bufio.Writer that is never flushed before the
    file is closed.  [writes] are the successive Write calls of profile.WriteTo; the result is the file. *)
Definition heavy_dump_file (writes : list bytes) : bytes :=
  w_file (fold_left (fun w p => bufw_write p w) writes new_bufw).

(** dump.go:126-149 and 167-190 (block and mutex profiles): the same, with a Flush *)
Definition profile_dump_file (writes : list bytes) : bytes :=
  w_file (bufw_flush (fold_left (fun w p => bufw_write p w) writes new_bufw)).

(** dump.go:65: the file name; [stamp] is time.Now().Format("20060102_150405") *)
Definition heavy_dump_name (home cwd stamp : gostring) : gostring :=
  filepath_join (get_dump_path home cwd) (of_string "go_dump_" ++ stamp ++ of_string ".log").

(** dump.go:54-83; [creatable]: os.Create succeeded *)
Definition heavy_all_stack_trace (home cwd stamp : gostring) (creatable : bool) (writes : list bytes) (now : Z) (d : fs)
  : table * fs :=
  let name := heavy_dump_name home cwd stamp in
  if creatable
  then (mappack_put (of_string "name") (AString name) [], fs_write (clean name) (mk_file (heavy_dump_file writes) now) d)
  else ([], d).
