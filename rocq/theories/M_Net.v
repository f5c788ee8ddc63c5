(** The UDP sender with both of its paths: the queue (texts) and SendPackDirect (everything else), and the sockets under them. *)
From Verif Require Import GoInt M_OutX M_Packs M_Udp.

(** udpclient.go:15-28 UDPClient. [cl_conn]: Conn is not nil, that is, address and socket were fine when the client was made (open, 35-53);
    [cl_open]: Conn.Close was not called. *)
Record client := mkClient { cl_conn : bool; cl_open : bool }.

(** udpsender.go:16-29 and the goroutines. [x_clients]: the clients made so far, the last one is udpSender.udpClient. [x_u]: queue, sender goroutine
    and what AddPack did (M_Udp.v). [x_uout]: the datagrams the sender goroutine still has to write in the call it is in, each with the
    number of its client. [x_jobs]: one entry for each goroutine started by SendPackDirect (line 95), its datagrams still to be written.
    [x_sent]: datagrams given to the network, [x_lost]: those for which there was no socket, or a closed one; oldest first. [x_made]: all
    datagrams made so far (not program state). *)
Record netsys := mkNet {
  x_clients : list client; x_u : usys; x_uout : list (nat * bytes); x_jobs : list (list (nat * bytes));
  x_sent : list (nat * bytes); x_lost : list (nat * bytes); x_made : list bytes }.

(** udpsender.go:31-46 GetInstance: [conn] tells whether the socket could be opened *)
Definition net0 (conn : bool) : netsys := mkNet [mkClient conn true] usys0 [] [] [] [] [].

(** the client that udpsender.go:48-67 installed last *)
Definition current (s : netsys) : nat := pred (length (x_clients s)).

(** the pack on its way, dataoutputx.go WritePack and Bytes, udpsender.go:70-71, 93-94 *)
Definition bytes_of (p : pack) : bytes := buf (write_pack p new_dout).

(** udpsender.go:69-77 AddPack *)
Definition net_add_pack (qcap : Z) (p : pack) (s : netsys) : netsys :=
  mkNet (x_clients s) (add_buffer qcap (bytes_of p) (x_u s)) (x_uout s) (x_jobs s) (x_sent s) (x_lost s) (x_made s).

(** udpsender.go:87-96 SendPackDirect: a goroutine that runs WriteBuffer (udpclient.go:106-119) on the client of this moment. The message for
    trace_obj_send is in M_Agent.v. The key of a fragmented buffer is drawn here instead of at the start of the goroutine. *)
Definition net_direct (max pkid : Z) (p : pack) (s : netsys) : option netsys :=
  match write_buffer max pkid (bytes_of p) with
  | Some ds => Some (mkNet (x_clients s) (x_u s) (x_uout s) (x_jobs s ++ [map (pair (current s)) ds]) (x_sent s) (x_lost s) (x_made s ++ ds))
  | None => None
  end.

(** One move of the sender goroutine (M_Udp.v), once it has written the datagrams of the previous one; udpsender.go:105-152 *)
Definition net_sender (max : Z) (pkids : nat -> Z) (s : netsys) : option netsys :=
  match x_uout s with
  | [] => match sender_step max pkids (x_u s) with
          | Some u => let ds := skipn (length (wire (x_u s))) (wire u) in
                      Some (mkNet (x_clients s) u (map (pair (current s)) ds) (x_jobs s) (x_sent s) (x_lost s) (x_made s ++ ds))
          | None => None
          end
  | _ => Some s
  end.

(** Conn.Write, or no Conn (udpclient.go:62-64, 91, 101, 107-109, 117, 122-124) *)
Definition usable (s : netsys) (c : nat) : bool := match nth_error (x_clients s) c with Some cl => cl_conn cl && cl_open cl | None => false end.
(** a UDP datagram written by udpclient.go:82-119 *)
Definition put_datagram (cd : nat * bytes) (s : netsys) : netsys :=
  if usable s (fst cd)
  then mkNet (x_clients s) (x_u s) (x_uout s) (x_jobs s) (x_sent s ++ [cd]) (x_lost s) (x_made s)
  else mkNet (x_clients s) (x_u s) (x_uout s) (x_jobs s) (x_sent s) (x_lost s ++ [cd]) (x_made s).

(** the sender goroutine writes its next datagram; udpclient.go:82-119 *)
Definition net_write_sender (s : netsys) : netsys :=
  match x_uout s with
  | [] => s
  | cd :: more => put_datagram cd (mkNet (x_clients s) (x_u s) more (x_jobs s) (x_sent s) (x_lost s) (x_made s))
  end.
(** goroutine number [i] of SendPackDirect writes its next datagram; udpclient.go:82-119, udpsender.go:87-96 *)
Definition net_write_job (i : nat) (s : netsys) : netsys :=
  match nth_error (x_jobs s) i with
  | Some (cd :: more) => put_datagram cd (mkNet (x_clients s) (x_u s) (x_uout s) (firstn i (x_jobs s) ++ more :: skipn (S i) (x_jobs s)) (x_sent s) (x_lost s) (x_made s))
  | _ => s
  end.
(** udpsender.go:48-67 reloadUdpSender: a new client becomes current, then the socket of an older one is closed. The datagram size limit is taken to
    stay the same. *)
Definition net_reload (conn : bool) (s : netsys) : netsys :=
  mkNet (x_clients s ++ [mkClient conn true]) (x_u s) (x_uout s) (x_jobs s) (x_sent s) (x_lost s) (x_made s).
(** udpclient.go:55-59, called in udpsender.go:48-67 *)
Definition net_close (c : nat) (s : netsys) : netsys :=
  if (c <? current s)%nat then
    match nth_error (x_clients s) c with
    | Some cl => mkNet (firstn c (x_clients s) ++ mkClient (cl_conn cl) false :: skipn (S c) (x_clients s)) (x_u s) (x_uout s) (x_jobs s) (x_sent s) (x_lost s) (x_made s)
    | None => s
    end
  else s.
