(** The agent as a whole, as far as it can end the process it lives in: the refreshing of the settings and the announcement of the object (M_Agent.v), the sender
    and its goroutine reloadUdpSender (M_NetLimit.v, M_Redirect.v), the counter loops beside the tracing API (M_Tasks.v). Every goroutine's next step is a move,
    in any order; [None]: a panic that no recover stops, so the process ends.

    Simplified: a refresh assigns all settings at once (M_Redirect.v has them one by one); the packs that tracing calls, the guards and the command connection give
    to the sender are moves of their own, with any contents; so are the texts. Not here: the command connection's own goroutine, all of whose work is done under
    a recover (tcpmanager.go:17-36, M_Tcp.v), and profiling jobs. *)
From Verif Require Import GoInt M_OutX M_Packs M_Text M_Conf M_Udp M_Net M_NetLimit M_Redirect M_Agent M_Trace M_Tasks.

(** [h_qcap]: the capacity of the channel (channelfactory.go:12-17, made once); [h_vars], [h_addr], [h_max], [h_pc]: reloadUdpSender, as in M_Redirect.v *)
Record whole := mkWhole { h_proc : process; h_qcap : Z; h_vars : target; h_addr : list (gostring * Z); h_max : list Z; h_pc : rpc; h_tasks : M_Tasks.world }.

(** the settings now; configure.go:126 *)
Definition settings_of (s : whole) : configure := c_conf (g_conf (h_proc s)).
(** the settings udpsender.go:48-67 reads *)
Definition target_of (c : configure) : target := mkTarget (cf_NetCollectorIP c) (cf_NetCollectorUDPPort c) (cf_UDPMaxBytes c).
(** the part of the agent that M_Redirect.v models: udpsender.go:18-67, configure.go:126 *)
Definition view (s : whole) : redir := mkRd (target_of (settings_of s)) (h_vars s) (h_addr s) (mkL (g_net (h_proc s)) (h_max s)) (h_pc s).
(** the same part put back: udpsender.go:18-67 *)
Definition put_view (r : redir) (s : whole) : whole :=
  mkWhole (proc_net (l_net (rd_net r)) (h_proc s)) (h_qcap s) (rd_vars r) (rd_addr r) (l_max (rd_net r)) (rd_pc r) (h_tasks s).
(** the process (M_Agent.v) put back: agent.go:18-37 *)
Definition with_proc (p : process) (s : whole) : whole := mkWhole p (h_qcap s) (h_vars s) (h_addr s) (h_max s) (h_pc s) (h_tasks s).

(** udpclient.go:16: the client in use has a socket *)
Definition has_socket (s : whole) : bool :=
  match nth_error (x_clients (g_net (h_proc s))) (current (g_net (h_proc s))) with Some cl => cl_conn cl | None => false end.
(** the limit by which WriteBuffer and WriteBufferList divide; without a socket they return first (udpclient.go:107-109, 122-124), and M_Net.v then counts
    the datagrams, whatever they are, as lost *)
Definition limit_in_use (s : whole) : Z := if has_socket s then cur_max (rd_net (view s)) else 60000.

(** dataproxy.go SendPackDirect of several packs; dataproxy.go:250-252, agenttask.go:22-37 *)
Fixpoint send_all (max pkid : Z) (ps : list pack) (p : process) : option process :=
  match ps with
  | [] => Some p
  | q :: ps' => match proc_direct max pkid q p with Some p' => send_all max pkid ps' p' | None => None end
  end.

(** a turn of a counter loop or a call of the tracing API: also the process ends if a panic leaves the call (M_Trace.v); countertask.go:22-36, tracemain.go:29-605 *)
Definition task_step (t : task) (w : M_Tasks.world) : option (list pack * M_Tasks.world) :=
  match t with
  | TCall n k => match snd (do_call n k (w_agent w)) with Some _ => do_task t w | None => None end
  | _ => do_task t w
  end.

(** the moves of the goroutines started by agent.go:18-37, udpsender.go:31-46, configure.go:128-154, and the application's calls *)
Inductive hmove :=
| HRefresh (w : M_Conf.world)              (* configure.go:210-260; [w]: environment and file at this moment *)
| HReload (conn : bool)                    (* reloadUdpSender's next step *)
| HObserve                                 (* agent.go:34 *)
| HBegin | HEnd (pkid : Z)                 (* SendObjPack, agenttask.go:22-36 *)
| HText (k : kind) (name : gostring)       (* the registration of a text *)
| HReset                                   (* OBJECT_RESET_CACHE *)
| HQueue (p : pack)                        (* AddPack *)
| HDirect (pkid : Z) (p : pack)            (* SendPackDirect *)
| HSender (pkids : nat -> Z)               (* the sender goroutine *)
| HWriteSender | HWriteJob (i : nat)       (* datagrams are written *)
| HTask (pkid : Z) (t : task).             (* a call of the tracing API or a turn of a counter loop, whose pack is sent directly *)

(** agent.go:18-37, countertask.go:22-36, agenttask.go:15-37, configure.go:161-166, udpsender.go:48-152, tracemain.go:29-605 *)
Definition whole_step (m : hmove) (s : whole) : option whole :=
  let p := h_proc s in let keep := option_map (fun p' => with_proc p' s) in
  match m with
  | HRefresh w => keep (proc_refresh (h_qcap s) w p)
  | HReload conn => Some (put_view (reload_step conn (view s)) s)
  | HObserve => Some (with_proc (proc_observe p) s)
  | HBegin => keep (proc_begin (h_qcap s) p)
  | HEnd pkid => keep (proc_end (limit_in_use s) pkid p)
  | HText k name => keep (option_map fst (proc_text_send (h_qcap s) k name p))
  | HReset => Some (with_proc (proc_reset p) s)
  | HQueue q => Some (with_proc (proc_net (net_add_pack (h_qcap s) q (g_net p)) p) s)
  | HDirect pkid q => keep (proc_direct (limit_in_use s) pkid q p)
  | HSender pkids =>
      option_map (fun l => with_proc (proc_net (l_net l) p) s)
        (l_sender (cf_UDPMaxBytes (settings_of s)) pkids (mkL (g_net p) (map (fun _ => limit_in_use s) (x_clients (g_net p)))))
  | HWriteSender => Some (with_proc (proc_net (net_write_sender (g_net p)) p) s)
  | HWriteJob i => Some (with_proc (proc_net (net_write_job i (g_net p)) p) s)
  | HTask pkid t =>
      match task_step t (h_tasks s) with
      | Some (ps, w) => match send_all (limit_in_use s) pkid ps p with
                        | Some p' => Some (mkWhole p' (h_qcap s) (h_vars s) (h_addr s) (h_max s) (h_pc s) w)
                        | None => None
                        end
      | None => None
      end
  end.
(** such moves in any order: agent.go:18-37 *)
Fixpoint whole_run (ms : list hmove) (s : whole) : option whole :=
  match ms with [] => Some s | m :: ms' => match whole_step m s with Some s' => whole_run ms' s' | None => None end end.

(** the start: configure.go GetInstance with its first refresh; udpsender.go:31-46 with the channel, whose make panics for a negative size (a size too large for the
    memory is not modelled); the meters are made when the clock reads [t0] and [t1]. [conn]: whether the socket can be opened. *)
Definition whole_start (w : M_Conf.world) (conn : bool) (c : M_Sampler.sconf) (t0 t1 : Z) : option whole :=
  match proc_refresh 0 w (proc0 conn) with
  | None => None
  | Some p =>
      let t := target_of (c_conf (g_conf p)) in
      if cf_SendQueueSize (c_conf (g_conf p)) <? 0 then None
      else Some (mkWhole p (cf_SendQueueSize (c_conf (g_conf p))) t [(to_ip t, to_port t)] [to_max t] Compare1 (world0 c t0 t1))
  end.
