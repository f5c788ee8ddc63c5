(** The UDP sender of M_Net.v with a datagram size limit (udp_max_bytes) that is changed while packs are being sent: every client has the
    limit it was made with (udpsender.go:41, 54-60: SetUDPMaxBytes before the client is published), while the batching in send reads the
    setting itself (udpsender.go:132), which changes first: the client is exchanged up to a second later (udpsender.go:48-51). *)
From Verif Require Import GoInt M_OutX M_Packs M_Udp M_Net.

(** udpsender.go:105-142 as in M_Udp.v, with the setting [thr] of line 132 and the limit [max] of the client in use (udpclient.go:19) kept apart *)
Definition sender_step2 (thr max : Z) (pkids : nat -> Z) (s : usys) : option usys :=
  match snd_state s with
  | Idle =>
      match queue s with
      | [] => Some s
      | [b] => match write_buffer max (pkids O) b with
               | Some ds => Some (mkUsys [] Idle (wire s ++ ds) (accepted s) (dropped s))
               | None => None
               end
      | q => Some (mkUsys q (Sending (length q) [] 0) (wire s) (accepted s) (dropped s))
      end
  | Sending O held _ =>
      match write_buffer_list max pkids held with
      | Some ds => Some (mkUsys (queue s) Idle (wire s ++ ds) (accepted s) (dropped s))
      | None => None
      end
  | Sending (S n) held size =>
      match queue s with
      | [] => Some s
      | b :: q =>
          if thr <=? size + zlen b then
            match send_list max pkids held with
            | Some ds => Some (mkUsys q (Sending n [b] (zlen b)) (wire s ++ ds) (accepted s) (dropped s))
            | None => None
            end
          else Some (mkUsys q (Sending n (held ++ [b]) (size + zlen b)) (wire s) (accepted s) (dropped s))
      end
  end.

(** udpclient.go:15-20: [l_max] has the limit of each client of [x_clients] *)
Record lnet := mkL { l_net : netsys; l_max : list Z }.
(** udpclient.go:30-32: the limit of the current client *)
Definition cur_max (s : lnet) : Z := nth (current (l_net s)) (l_max s) 0.

(** udpsender.go:31-46 GetInstance *)
Definition lnet0 (conn : bool) (max : Z) : lnet := mkL (net0 conn) [max].
(** udpsender.go:69-77 AddPack *)
Definition l_add_pack (qcap : Z) (p : pack) (s : lnet) : lnet := mkL (net_add_pack qcap p (l_net s)) (l_max s).
(** udpsender.go:87-96 SendPackDirect, on the client of this moment *)
Definition l_direct (pkid : Z) (p : pack) (s : lnet) : option lnet := option_map (fun n => mkL n (l_max s)) (net_direct (cur_max s) pkid p (l_net s)).
(** udpsender.go:105-142, one move; [thr]: ac.UDPMaxBytes at this moment *)
Definition l_sender (thr : Z) (pkids : nat -> Z) (s : lnet) : option lnet :=
  let n := l_net s in
  match x_uout n with
  | [] => match sender_step2 thr (cur_max s) pkids (x_u n) with
          | Some u => let ds := skipn (length (wire (x_u n))) (wire u) in
                      Some (mkL (mkNet (x_clients n) u (map (pair (current n)) ds) (x_jobs n) (x_sent n) (x_lost n) (x_made n ++ ds)) (l_max s))
          | None => None
          end
  | _ => Some s
  end.
(** udpsender.go:48-67 reloadUdpSender: the new client with the new limit *)
Definition l_reload (conn : bool) (max : Z) (s : lnet) : lnet := mkL (net_reload conn (l_net s)) (l_max s ++ [max]).
(** the writing goroutines and the closing of old sockets: as in M_Net.v; udpclient.go:55-59, 82-119 *)
Definition l_move (f : netsys -> netsys) (s : lnet) : lnet := mkL (f (l_net s)) (l_max s).
