(** Where the agent's files are, said without the agent's own path functions. *)
From Verif Require Import GoInt M_Dump M_Conf M_Files S_Conf S_Dump.

(** * The environment *)

(** the first entry for the name gives it this value *)
Definition var_is (env : list gostring) (name v : gostring) : Prop :=
  exists before e after, env = before ++ e :: after /\ env_entry e name v /\ forall e' t, In e' before -> ~ env_entry e' name t.
(** a value that counts: not the empty one *)
Definition var_set (env : list gostring) (name v : gostring) : Prop := var_is env name v /\ v <> [].
Definition var_unset (env : list gostring) (name : gostring) : Prop := forall v, ~ var_set env name v.

(** * Paths *)

(** the names between the slashes of a path *)
Fixpoint slashed (cs : list gostring) : gostring := match cs with [] => [] | [c] => c | c :: cs' => c ++ 47 :: slashed cs' end.
(** following them from a directory *)
Inductive follow : list gostring -> list gostring -> list gostring -> Prop :=
| follow_end at_ : follow at_ [] at_
| follow_stay at_ c cs to : c = [] \/ c = of_string "." -> follow at_ cs to -> follow at_ (c :: cs) to
| follow_up dir last cs to : follow dir cs to -> follow (dir ++ [last]) (of_string ".." :: cs) to
| follow_top cs to : follow [] cs to -> follow [] (of_string ".." :: cs) to
| follow_down at_ c cs to : plain_name c -> follow (at_ ++ [c]) cs to -> follow at_ (c :: cs) to.
Definition leads_to (pl : place) (name : gostring) (to : list gostring) : Prop :=
  exists cs, cs <> [] /\ Forall (fun c => ~ In 47 c) cs /\ name = slashed cs /\
    ((absolute name /\ follow [] cs to) \/ (~ absolute name /\ follow (pl_wd pl) cs to)).

(** * The agent's places *)

(** its directory: as SCOUTER_AGENT_HOME says, or "scouter" in the working directory, or in the directory for temporary files when the working directory has
    gone *)
Inductive home (pl : place) : list gostring -> Prop :=
| home_given v h : var_set (pl_env pl) (of_string "SCOUTER_AGENT_HOME") v -> leads_to pl v h -> home pl h
| home_working : var_unset (pl_env pl) (of_string "SCOUTER_AGENT_HOME") -> pl_getwd pl = true -> home pl (pl_wd pl ++ [of_string "scouter"])
| home_temporary v t : var_unset (pl_env pl) (of_string "SCOUTER_AGENT_HOME") -> pl_getwd pl = false ->
    var_set (pl_env pl) (of_string "TMPDIR") v \/ var_unset (pl_env pl) (of_string "TMPDIR") /\ v = of_string "/tmp" ->
    leads_to pl v t -> home pl (t ++ [of_string "scouter"]).
(** its log file *)
Definition log_file (pl : place) (p : list gostring) : Prop := exists h, home pl h /\ p = h ++ [of_string "logs"; of_string "scouter.log"].
(** its configuration file: the first of SCOUTER_CONFIG and scouter.config that says something, or conf/scouter.conf in its directory *)
Inductive configuration (pl : place) : list gostring -> Prop :=
| conf_first v p : var_set (pl_env pl) (of_string "SCOUTER_CONFIG") v -> leads_to pl v p -> configuration pl p
| conf_second v p : var_unset (pl_env pl) (of_string "SCOUTER_CONFIG") -> var_set (pl_env pl) (of_string "scouter.config") v -> leads_to pl v p -> configuration pl p
| conf_default h : var_unset (pl_env pl) (of_string "SCOUTER_CONFIG") -> var_unset (pl_env pl) (of_string "scouter.config") -> home pl h ->
    configuration pl (h ++ [of_string "conf"; of_string "scouter.conf"]).

(** the working directory is given by proper names *)
Definition proper_place (pl : place) : Prop := Forall plain_name (pl_wd pl).

(** * Disks *)

(** everything lies in a directory, and nothing is both a file and a directory *)
Definition tree (d : disk) : Prop :=
  (forall p, is_dir p d = true \/ file_at p d <> None -> is_dir (removelast p) d = true) /\
  (forall p, is_dir p d = true -> file_at p d = None).

(** a file at [p] cannot be opened for writing: it is a directory or not permitted, or a directory on the way is missing and cannot be made *)
Definition blocked (pl : place) (d : disk) (p : list gostring) : Prop :=
  is_dir p d = true \/ pl_write pl p = false \/
  exists a b, p = a ++ b /\ b <> [] /\ is_dir a d = false /\ (file_at a d <> None \/ pl_write pl a = false).

(** [d'] is [d] with, at most, directories on the way to [p] added *)
Definition ways_added (p : list gostring) (d d' : disk) : Prop :=
  (forall q, file_at q d' = file_at q d) /\ (forall q, is_dir q d = true -> is_dir q d' = true) /\
  (forall q, is_dir q d' = true -> is_dir q d = true \/ exists rest, p = q ++ rest).

(** everything may be read *)
Definition readable (pl : place) : Prop := forall q, pl_read pl q = true.
(** the file at [p] may be read: it and the directories on the way *)
Definition may_read (pl : place) (p : list gostring) : Prop := pl_read pl p = true /\ forall a b, p = a ++ b -> a <> [] -> b <> [] -> pl_read pl a = true.
(** nothing is at [p], and nothing on the way is a file *)
Definition nothing_at (d : disk) (p : list gostring) : Prop := is_dir p d = false /\ forall a b, p = a ++ b -> file_at a d = None.
(** what a refresh is told when the configuration file is at [p]: the file's time and its contents as they are read; that there is none *)
Definition sees (parse : bytes -> option props) (pl : place) (d : disk) (p : list gostring) (w : world) : Prop :=
  w_env w = pl_env pl /\ w_host w = pl_host pl /\
  (forall f, readable pl -> file_at p d = Some f ->
    w_stat w = StatTime (f_mtime f) /\ (forall t, parse (f_data f) = Some t -> w_load w = Loaded t) /\ (parse (f_data f) = None -> w_load w = LoadError)) /\
  (readable pl -> nothing_at d p -> w_stat w = StatAbsent /\ w_load w = LoadAbsent).

(** * Histories *)

(** the places the agent found itself in; what it saved; what it logged *)
Definition place_of (m : fmove) (pl : place) : Prop := m = FRefresh pl \/ m = FLoadText pl \/ exists t, m = FSave pl t.
Definition agent_only (ms : list fmove) : Prop := forall d, ~ In (FOther d) ms.
Definition lines_of (ms : list fmove) : bytes := concat (map (fun m => match m with FLog _ l => l | _ => [] end) ms).
