(** Model of the profiling jobs of scouterx/dump/dump.go:85-190 and of the commands that start them
    (scouterx/netio/tcpclient/handlers.go:69-80, 96-110, 176-214): the run-time settings they change and the files they
    write.  Each command starts one goroutine; the jobs run concurrently with each other.

    Not modelled: what is sampled (the profile is an arbitrary list of writes, chosen by the environment of the
    step; that the bufio.Writer in between passes on every byte is C65); the length of the sleep (a job may wake at any
    time); pprof.Lookup returning nil (it does not for "block" and "mutex"). *)
From Verif Require Import GoInt M_Value M_Dump M_Tcp.

(** time.Now().Format("20060102_150405"): the fields of the local time, years 0..9999; dump.go:64-190 *)
Record civil := mk_civil { c_year : Z; c_month : Z; c_day : Z; c_hour : Z; c_minute : Z; c_second : Z }.
(** time.Format: dump.go:64-190 *)
Definition digit (n : Z) : Z := 48 + n.
(** time.Format, two digits: dump.go:64-190 *)
Definition two (n : Z) : gostring := [digit (n / 10); digit (n mod 10)].
(** time.Now().Format("20060102_150405"): dump.go:64-190 *)
Definition stamp (t : civil) : gostring :=
  two (c_year t / 100) ++ two (c_year t mod 100) ++ two (c_month t) ++ two (c_day t) ++ of_string "_" ++
  two (c_hour t) ++ two (c_minute t) ++ two (c_second t).

(** the three kinds of profile: dump.go:85-190 *)
Inductive pkind := KBlock | KMutex | KCpu.
(** a job: what it profiles, the file it writes, the rate it sets; dump.go:85-190 *)
Record pjob := mk_pjob { pj_kind : pkind; pj_file : gostring; pj_rate : Z }.

(** The job a command starts.  handlers.go:184-186 and dump.go:110-111, handlers.go:192-194 and dump.go:152-153,
    handlers.go:176-178 and dump.go:86, handlers.go:200-202 and dump.go:119, handlers.go:208-210 and dump.go:160 *)
Definition job_of (home cwd : gostring) (t : civil) (c : command) : option pjob :=
  match c with
  | TriggerBlockProfile =>
      Some (mk_pjob KBlock (filepath_join (get_dump_path home cwd) (of_string "go_block_" ++ stamp t ++ of_string ".log")) 1000000)
  | TriggerMutexProfile =>
      Some (mk_pjob KMutex (filepath_join (get_dump_path home cwd) (of_string "go_mutex_" ++ stamp t ++ of_string ".log")) 10)
  | CallCpuProfile =>
      Some (mk_pjob KCpu (filepath_join (get_binary_dump_path home cwd) (of_string "go_cpu_" ++ stamp t ++ of_string "." ++ suffix)) 0)
  | CallBlockProfile =>
      Some (mk_pjob KBlock (filepath_join (get_binary_dump_path home cwd) (of_string "go_block_" ++ stamp t ++ of_string "." ++ suffix)) 1000000)
  | CallMutexProfile =>
      Some (mk_pjob KMutex (filepath_join (get_binary_dump_path home cwd) (of_string "go_mutex_" ++ stamp t ++ of_string "." ++ suffix)) 5)
  | _ => None
  end.

(** where a job is; dump.go:93-108, 126-149, 167-190 *)
Inductive phase :=
| Ready                                        (* not yet scheduled *)
| Opened                                       (* CPU: file created, StartCPUProfile not yet called *)
| Sleeping (old : Z)                           (* rate set; [old]: the argument of the deferred call *)
| Writing (old : Z) (todo done : list bytes)   (* file created: writes to come, writes done *)
| Finished (wrote : option bytes).             (* returned; what it wrote, None if it gave up *)

(** who runs the CPU profiler; runtime/pprof: dump.go:93-108 *)
Inductive cpu_user := CpuFree | CpuJob (i : nat) | CpuApp.

(** runtime.SetBlockProfileRate: zero and negative rates switch it off; dump.go:126-149 *)
Definition set_block_rate (r : Z) : Z := if r <=? 0 then 0 else r.
(** runtime.SetMutexProfileFraction: negative rates leave it as it is; dump.go:167-190 *)
Definition set_mutex_fraction (r cur : Z) : Z := if r <? 0 then cur else r.

(** the process that dump.go:85-190 works on: rates, CPU profiler, disk, jobs *)
Record pstate := mkP { p_block : Z; p_mutex : Z; p_cpu : cpu_user; p_fs : fs; p_jobs : list (pjob * phase) }.

(** the position of one job in dump.go:85-190 *)
Definition job_set (l : list (pjob * phase)) (i : nat) (x : pjob * phase) : list (pjob * phase) :=
  firstn i l ++ x :: skipn (S i) l.

(** os.Create; dump.go:93-108, 126-190 *)
Definition fs_create (name : gostring) (d : fs) : fs := fs_write (clean name) (mk_file [] 0) d.
(** write(2) at the descriptor's own offset: a gap left by a truncation reads as zeros; dump.go:93-108, 126-190 *)
Definition pwrite (off : nat) (data old : bytes) : bytes :=
  firstn off old ++ repeat 0 (off - length old) ++ data ++ skipn (off + length data) old.
(** write(2) to a named file: dump.go:93-108, 126-190 *)
Definition fs_pwrite (name : gostring) (off : nat) (data : bytes) (d : fs) : fs :=
  match fs_get (clean name) d with
  | Some f => fs_write (clean name) (mk_file (pwrite off data (f_data f)) 0) d
  | None => d
  end.

(** the deferred calls: dump.go:128, 169, 107 *)
Definition restore (k : pkind) (old : Z) (s : pstate) : pstate :=
  match k with
  | KBlock => mkP (set_block_rate (-1)) (p_mutex s) (p_cpu s) (p_fs s) (p_jobs s)
  | KMutex => mkP (p_block s) (set_mutex_fraction old (p_mutex s)) (p_cpu s) (p_fs s) (p_jobs s)
  | KCpu => mkP (p_block s) (p_mutex s) CpuFree (p_fs s) (p_jobs s)
  end.

(** what the step finds outside the program: does os.Create succeed, the writes of the profile; dump.go:93-108, 126-190 *)
Record penv := mk_penv { pe_creatable : bool; pe_profile : list bytes }.

(** the next step of job [i]: dump.go:93-109 (CPU), 126-149 (block), 167-190 (mutex).  StopCPUProfile writes the profile and
    only then lets another StartCPUProfile go on. *)
Definition pstep (e : penv) (i : nat) (s : pstate) : pstate :=
  let go j ph s := mkP (p_block s) (p_mutex s) (p_cpu s) (p_fs s) (job_set (p_jobs s) i (j, ph)) in
  match nth_error (p_jobs s) i with
  | Some (j, Ready) =>
      match pj_kind j with
      | KBlock => go j (Sleeping (-1)) (mkP (set_block_rate (pj_rate j)) (p_mutex s) (p_cpu s) (p_fs s) (p_jobs s))
      | KMutex => go j (Sleeping (p_mutex s)) (mkP (p_block s) (set_mutex_fraction (pj_rate j) (p_mutex s)) (p_cpu s) (p_fs s) (p_jobs s))
      | KCpu =>
          if pe_creatable e then go j Opened (mkP (p_block s) (p_mutex s) (p_cpu s) (fs_create (pj_file j) (p_fs s)) (p_jobs s))
          else go j (Finished None) s
      end
  | Some (j, Opened) =>
      match p_cpu s with
      | CpuFree => go j (Sleeping 0) (mkP (p_block s) (p_mutex s) (CpuJob i) (p_fs s) (p_jobs s))
      | _ => go j (Finished None) s
      end
  | Some (j, Sleeping old) =>
      match pj_kind j with
      | KCpu => go j (Writing old (pe_profile e) []) s
      | _ =>
          if pe_creatable e
          then go j (Writing old (pe_profile e) []) (mkP (p_block s) (p_mutex s) (p_cpu s) (fs_create (pj_file j) (p_fs s)) (p_jobs s))
          else go j (Finished None) (restore (pj_kind j) old s)
      end
  | Some (j, Writing old (c :: todo) done) =>
      go j (Writing old todo (done ++ [c]))
         (mkP (p_block s) (p_mutex s) (p_cpu s) (fs_pwrite (pj_file j) (length (concat done)) c (p_fs s)) (p_jobs s))
  | Some (j, Writing old [] done) => go j (Finished (Some (concat done))) (restore (pj_kind j) old s)
  | _ => s
  end.

(** the jobs of dump.go:85-190 in the order of the schedule *)
Fixpoint prun (sched : list (penv * nat)) (s : pstate) : pstate :=
  match sched with [] => s | (e, i) :: l => prun l (pstep e i s) end.

(** the process before any of the jobs runs; dump.go:85-190 *)
Definition pinit (block mutex : Z) (cpu : cpu_user) (d : fs) (jobs : list pjob) : pstate :=
  mkP block mutex cpu d (map (fun j => (j, Ready)) jobs).
