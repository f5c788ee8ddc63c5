(** The agent's own directory, its log file and its configuration file: scouterx/common/util/osutil.go, scouterx/common/logger/logger.go:13-26,
    scouterx/conf/configure.go:128-226 (getConfFilePath, Refresh's use of the file), scouterx/conf/exthandler.go, handlers.go:300-313 (saveConfig).

    The operating system: a tree of directories and regular files, no links; which entries the process may write and read is an input. Left out: modes
    other than permission, disk space, a directory that other programs change while a call runs, the text of log lines. *)
From Verif Require Import GoInt M_Util M_StrMatch M_Dump M_Conf.

(** what the process finds outside itself at one moment: os.Environ(); the working directory, by its components from the root; whether os.Getwd() works (it
    does not when the directory has been removed); permission to write (or create) and to read what is at a path; the clock; the host's name; what osutil.go:10-41, logger.go:12-26, configure.go:168-181, 210-260 find outside *)
Record place := mkPlace { pl_env : list gostring; pl_wd : list gostring; pl_getwd : bool; pl_write : list gostring -> bool; pl_read : list gostring -> bool; pl_now : Z; pl_host : gostring }.

(** os.Getenv: the value of the first entry for the name, "" if there is none; osutil.go:22-33, configure.go:168-181 *)
Fixpoint getenv (name : gostring) (env : list gostring) : gostring :=
  match env with
  | [] => []
  | e :: env' =>
      if beqb (firstn (length name + 1) e) (name ++ [61]) then skipn (length name + 1) e else getenv name env'
  end.

(** os.TempDir; osutil.go:22-33 *)
Definition temp_dir (env : list gostring) : gostring := match getenv (of_string "TMPDIR") env with [] => of_string "/tmp" | d => d end.

(** osutil.go:10-20 GetAppPath; [None]: error. os.Getwd gives the working directory's path. *)
Definition get_app_path (pl : place) : option gostring :=
  match getenv (of_string "SCOUTER_AGENT_HOME") (pl_env pl) with
  | [] => if pl_getwd pl then Some (render (true, pl_wd pl)) else None
  | c => Some c
  end.

(** osutil.go:22-31, the path *)
Definition scouter_path (pl : place) : gostring :=
  match getenv (of_string "SCOUTER_AGENT_HOME") (pl_env pl) with
  | [] => filepath_join (match get_app_path pl with Some p => p | None => temp_dir (pl_env pl) end) (of_string "scouter")
  | c => c
  end.

(** * The operating system *)

(** directories and files, by their components from the root; the root is a directory; what osutil.go:36-41, logger.go:12-26, exthandler.go:7-24, configure.go:210-260 work on *)
Record disk := mkDisk { k_dirs : list (list gostring); k_files : list (list gostring * file) }.
(** os.MkdirAll's and open(2)'s test: osutil.go:36-41, logger.go:12-26 *)
Definition is_dir (p : list gostring) (d : disk) : bool := match p with [] => true | _ => existsb (comps_eqb p) (k_dirs d) end.
(** open(2): logger.go:12-26, exthandler.go:7-24 *)
Fixpoint file_in (p : list gostring) (l : list (list gostring * file)) : option file :=
  match l with [] => None | (q, f) :: l' => if comps_eqb p q then Some f else file_in p l' end.
(** open(2): logger.go:12-26, exthandler.go:7-24 *)
Definition file_at (p : list gostring) (d : disk) : option file := file_in p (k_files d).
(** os.MkdirAll: osutil.go:36-41 *)
Definition with_dir (p : list gostring) (d : disk) : disk := mkDisk (p :: k_dirs d) (k_files d).
(** os.OpenFile, ioutil.WriteFile: logger.go:12-26, exthandler.go:17-24 *)
Definition with_file (p : list gostring) (f : file) (d : disk) : disk := mkDisk (k_dirs d) ((p, f) :: k_files d).

(** where a path leads: one component after the other; a relative path starts at the working directory; the file names of osutil.go:10-33, logger.go:12-26, configure.go:168-181 *)
Fixpoint walk_from (at_ : list gostring) (cs : list gostring) : list gostring :=
  match cs with
  | [] => at_
  | c :: cs' => walk_from (if beqb c [] || beqb c dot then at_ else if beqb c dotdot then removelast at_ else at_ ++ [c]) cs'
  end.
(** where the name leads, for the file names of osutil.go:10-33, logger.go:12-26, configure.go:168-181 *)
Definition locate (pl : place) (name : gostring) : list gostring :=
  walk_from (if is_rooted name then [] else pl_wd pl) (split_byte slash name).

(** os.MkdirAll below the directory [at_]: stops at the first component that is a file or cannot be created; osutil.go:36-41 *)
Fixpoint mkdirs (pl : place) (at_ : list gostring) (cs : list gostring) (d : disk) : disk :=
  match cs with
  | [] => d
  | c :: cs' =>
      let p := at_ ++ [c] in
      if is_dir p d then mkdirs pl p cs' d
      else match file_at p d with
           | Some _ => d
           | None => if pl_write pl p then mkdirs pl p cs' (with_dir p d) else d
           end
  end.
(** osutil.go:36-41 MakeDir: an error is only printed *)
Definition make_dir (pl : place) (name : gostring) (d : disk) : disk := mkdirs pl [] (locate pl name) d.

(** open(2) for writing with O_CREATE: the file as it is found ([None] inside: it has to be created), or [None] for an error; logger.go:12-26, exthandler.go:17-24 *)
Definition open_write (pl : place) (p : list gostring) (d : disk) : option (option file) :=
  if is_dir p d then None
  else match file_at p d with
       | Some f => if pl_write pl p then Some (Some f) else None
       | None => if is_dir (removelast p) d && pl_write pl p then Some None else None
       end.

(** * The agent *)

(** osutil.go:22-33 GetScouterPath: the path is also made *)
Definition get_scouter_dir (pl : place) (d : disk) : gostring * disk := (scouter_path pl, make_dir pl (scouter_path pl) d).

(** logger.go:13-20: the log file's name, and the effect of opening it with O_APPEND; [None]: log.Fatalln ends the process *)
Definition log_name (pl : place) : gostring := filepath_join (filepath_join (scouter_path pl) (of_string "logs")) (of_string "scouter.log").
(** logger.go:12-26 Init; [None]: log.Fatalln ends the process *)
Definition logger_init (pl : place) (d : disk) : option disk :=
  let '(p, d) := get_scouter_dir pl d in
  let d := make_dir pl (filepath_join p (of_string "logs")) d in
  match open_write pl (locate pl (log_name pl)) d with
  | None => None
  | Some (Some _) => Some d
  | Some None => Some (with_file (locate pl (log_name pl)) (mk_file [] (pl_now pl)) d)
  end.
(** a line logged later: appended to what was opened at [p]; nothing if it is no longer there; the log.Println calls after logger.go:12-26 *)
Definition log_line (p : list gostring) (now : Z) (line : bytes) (d : disk) : disk :=
  match file_at p d with Some f => with_file p (mk_file (f_data f ++ line) now) d | None => d end.

(** configure.go:168-181 getConfFilePath. filepath.Join of three parts joins and cleans them at once, like two joins of two. *)
Definition conf_file_path (pl : place) (d : disk) : gostring * disk :=
  match getenv (of_string "SCOUTER_CONFIG") (pl_env pl) with
  | [] => match getenv (of_string "scouter.config") (pl_env pl) with
          | [] => let '(p, d) := get_scouter_dir pl d in
                  (filepath_join (filepath_join p (of_string "conf")) (of_string "scouter.conf"), make_dir pl (filepath_join p (of_string "conf")) d)
          | s => (s, d)
          end
  | s => (s, d)
  end.

(** os.Stat: a component that is a file, or a directory that may not be read, gives an error other than ENOENT; configure.go:210-260 *)
Fixpoint passable (pl : place) (at_ : list gostring) (cs : list gostring) (d : disk) : bool :=
  match cs with
  | [] | [_] => true
  | c :: cs' => let p := at_ ++ [c] in
      match file_at p d with Some _ => false | None => if is_dir p d then pl_read pl p && passable pl p cs' d else true end
  end.
(** os.Stat in configure.go:210-260 *)
Definition stat (pl : place) (p : list gostring) (d : disk) : stat_result :=
  if passable pl [] p d then match file_at p d with Some f => StatTime (f_mtime f) | None => if is_dir p d then StatTime 0 else StatAbsent end
  else StatError.
(** properties.LoadFile and ioutil.ReadFile; [parse] is the properties library's reader. A directory cannot be read. configure.go:210-260, exthandler.go:7-15 *)
Definition read_file (pl : place) (p : list gostring) (d : disk) : option bytes :=
  if passable pl [] p d && pl_read pl p then option_map f_data (file_at p d) else None.
(** properties.LoadFile in configure.go:210-260 *)
Definition load (parse : bytes -> option props) (pl : place) (p : list gostring) (d : disk) : load_result :=
  if passable pl [] p d then
    match file_at p d with
    | Some f => if pl_read pl p then match parse (f_data f) with Some t => Loaded t | None => LoadError end else LoadError
    | None => if is_dir p d then LoadError else LoadAbsent
    end
  else LoadError.

(** the disk and the configuration in force; configure.go:126 and the files of logger.go:12-26, configure.go:168-181 *)
Record fstate := mkF { fd_disk : disk; fd_conf : cstate }.

(** configure.go:210-260 Refresh; [None]: it panics *)
Definition refresh_files (parse : bytes -> option props) (pl : place) (s : fstate) : option fstate :=
  let '(name, d) := conf_file_path pl (fd_disk s) in
  let p := locate pl name in
  option_map (fun r => mkF d (fst r)) (refresh_conf (mk_world (pl_env pl) (stat pl p d) (load parse pl p d) (pl_host pl)) (fd_conf s)).
(** configure.go:128-159 GetInstance, first call *)
Definition start_files (parse : bytes -> option props) (pl : place) (d : disk) : option fstate :=
  match logger_init pl d with Some d => refresh_files parse pl (mkF d initial_cstate) | None => None end.
(** exthandler.go:7-15 LoadConfigText *)
Definition load_text (pl : place) (s : fstate) : gostring * fstate :=
  let '(name, d) := conf_file_path pl (fd_disk s) in
  (match read_file pl (locate pl name) d with Some t => t | None => [] end, mkF d (fd_conf s)).
(** exthandler.go:17-24 SaveConfigText: ioutil.WriteFile truncates and writes; then handlers.go:307-310 *)
Definition save_text (pl : place) (text : gostring) (s : fstate) : bool * fstate :=
  let '(name, d) := conf_file_path pl (fd_disk s) in
  let p := locate pl name in
  match open_write pl p d with
  | None => (false, mkF d (fd_conf s))
  | Some _ => (true, mkF (with_file p (mk_file text (pl_now pl)) d) (fd_conf s))
  end.
(** exthandler.go:17-24 SaveConfigText, then Refresh (configure.go:210-260) *)
Definition save_config (parse : bytes -> option props) (pl : place) (text : gostring) (s : fstate) : option (bool * fstate) :=
  let '(ok, s) := save_text pl text s in
  if ok then option_map (fun s => (true, s)) (refresh_files parse pl s) else Some (false, s).

(** what happens to the disk: the agent's moves - the log file is the one opened at the start ([log]) - and a change made by other programs; configure.go:161-166, exthandler.go:7-24, logger.go:12-26, osutil.go:36-41 *)
Inductive fmove := FRefresh (pl : place) | FLoadText (pl : place) | FSave (pl : place) (text : gostring) | FLog (now : Z) (line : bytes) | FOther (d : disk).
(** one such move: configure.go:210-260, exthandler.go:7-24, logger.go:12-26, osutil.go:36-41 *)
Definition file_step (parse : bytes -> option props) (log : list gostring) (m : fmove) (s : fstate) : option fstate :=
  match m with
  | FRefresh pl => refresh_files parse pl s
  | FLoadText pl => Some (snd (load_text pl s))
  | FSave pl text => option_map snd (save_config parse pl text s)
  | FLog now line => Some (mkF (log_line log now line (fd_disk s)) (fd_conf s))
  | FOther d => Some (mkF d (fd_conf s))
  end.
(** moves one after the other: configure.go:161-166, exthandler.go:7-24 *)
Fixpoint file_run (parse : bytes -> option props) (log : list gostring) (ms : list fmove) (s : fstate) : option fstate :=
  match ms with [] => Some s | m :: ms' => match file_step parse log m s with Some s' => file_run parse log ms' s' | None => None end end.
