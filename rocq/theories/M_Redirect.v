(** Where the agent sends to: the settings net_collector_ip, net_collector_udp_port and udp_max_bytes as they are assigned by the refreshing
    goroutine, the goroutine reloadUdpSender that follows them (scouterx/netio/udpsender/udpsender.go), and the sender of M_NetLimit.v.
    The goroutines share these variables without a lock: every read and every assignment is a move of its own.

    Not modelled: that reloadUdpSender wakes up once a second (it may be scheduled at any time), and that a read may see neither the old nor
    the new text while a string variable is being assigned (a data race outside Go's memory model). *)
From Verif Require Import GoInt M_OutX M_Packs M_Udp M_Net M_NetLimit.

(** configure.go:53-58: the three settings; udpsender.go:19-21: serverAddr, udpServerPort and udpMaxBytes *)
Record target := mkTarget { to_ip : gostring; to_port : Z; to_max : Z }.

(** configure.go:343, 344, 348: the assignments of a refresh, one at a time *)
Inductive assignment := SetIp (ip : gostring) | SetPort (port : Z) | SetMax (max : Z).
(** one assignment of configure.go:334-413 to a setting the sender reads *)
Definition assign (w : assignment) (t : target) : target :=
  match w with
  | SetIp ip => mkTarget ip (to_port t) (to_max t)
  | SetPort port => mkTarget (to_ip t) port (to_max t)
  | SetMax max => mkTarget (to_ip t) (to_port t) max
  end.

(** the place of reloadUdpSender in its loop, udpsender.go:49-66: before the first, second and third comparison of line 51; before lines 52, 53,
    54; before 58 and 59, with prevClient known; before 60; before 62 *)
Inductive rpc := Compare1 | Compare2 | Compare3 | Take1 | Take2 | Take3 | Make | Publish (conn : bool) | ClosePrev (prev : nat).

(** [rd_set]: the settings; [rd_vars]: the package variables of udpsender; [rd_addr]: address and port of each client of [x_clients]
    (udpclient.go:17-18) *)
Record redir := mkRd { rd_set : target; rd_vars : target; rd_addr : list (gostring * Z); rd_net : lnet; rd_pc : rpc }.

(** udpsender.go:31-46 GetInstance; its three reads are taken together *)
Definition redir0 (conn : bool) (t : target) : redir := mkRd t t [(to_ip t, to_port t)] (lnet0 conn (to_max t)) Compare1.

(** udpsender.go:48-67: the next move of reloadUdpSender; [conn]: whether the address can be resolved and a socket opened at this moment
    (udpclient.go:35-53) *)
Definition reload_step (conn : bool) (s : redir) : redir :=
  let t := rd_set s in let v := rd_vars s in
  let at_pc p := mkRd t v (rd_addr s) (rd_net s) p in
  match rd_pc s with
  | Compare1 => at_pc (if beqb (to_ip v) (to_ip t) then Compare2 else Take1)
  | Compare2 => at_pc (if to_port v =? to_port t then Compare3 else Take1)
  | Compare3 => at_pc (if to_max v =? to_max t then Compare1 else Take1)
  | Take1 => mkRd t (mkTarget (to_ip t) (to_port v) (to_max v)) (rd_addr s) (rd_net s) Take2
  | Take2 => mkRd t (mkTarget (to_ip v) (to_port t) (to_max v)) (rd_addr s) (rd_net s) Take3
  | Take3 => mkRd t (mkTarget (to_ip v) (to_port v) (to_max t)) (rd_addr s) (rd_net s) Make
  | Make => at_pc (Publish conn)
  | Publish made => mkRd t v (rd_addr s ++ [(to_ip v, to_port v)]) (l_reload made (to_max v) (rd_net s)) (ClosePrev (current (l_net (rd_net s))))
  | ClosePrev prev =>
      mkRd t v (rd_addr s)
        (match nth_error (x_clients (l_net (rd_net s))) prev with
         | Some cl => if cl_conn cl then l_move (net_close prev) (rd_net s) else rd_net s
         | None => rd_net s
         end) Compare1
  end.

(** the moves: an assignment of a refresh; reloadUdpSender; AddPack; SendPackDirect; the sender goroutine, which reads the setting itself when
    it fills a datagram (udpsender.go:132); the writing of datagrams *)
Inductive rmove :=
| Assign (w : assignment)
| Reload (conn : bool)
| Queue (p : pack)
| Direct (pkid : Z) (p : pack)
| Sender (pkids : nat -> Z)
| WriteSender
| WriteJob (i : nat).
(** the sockets of udpsender.go:23-27 *)
Definition with_net (n : lnet) (s : redir) : redir := mkRd (rd_set s) (rd_vars s) (rd_addr s) n (rd_pc s).
(** udpsender.go:48-67 (reloadUdpSender, one read or assignment at a time), 87-152, configure.go:334-413 *)
Definition redir_move (qcap : Z) (m : rmove) (s : redir) : option redir :=
  match m with
  | Assign w => Some (mkRd (assign w (rd_set s)) (rd_vars s) (rd_addr s) (rd_net s) (rd_pc s))
  | Reload conn => Some (reload_step conn s)
  | Queue p => Some (with_net (l_add_pack qcap p (rd_net s)) s)
  | Direct pkid p => option_map (fun n => with_net n s) (l_direct pkid p (rd_net s))
  | Sender pkids => option_map (fun n => with_net n s) (l_sender (to_max (rd_set s)) pkids (rd_net s))
  | WriteSender => Some (with_net (l_move net_write_sender (rd_net s)) s)
  | WriteJob i => Some (with_net (l_move (net_write_job i) (rd_net s)) s)
  end.
(** udpsender.go:48-152 and configure.go:334-413, in any order of their moves *)
Fixpoint redir_run (qcap : Z) (ms : list rmove) (s : redir) : option redir :=
  match ms with
  | [] => Some s
  | m :: ms' => match redir_move qcap m s with Some s' => redir_run qcap ms' s' | None => None end
  end.
