(** Specification for C90: where datagrams go, and reading an execution. *)
From Verif Require Import GoInt M_Packs M_Net M_NetLimit M_Redirect.

(** no setting is assigned during the execution *)
Definition unchanged (ms : list rmove) : Prop := Forall (fun m => match m with Assign _ => False | _ => True end) ms.
(** the number of moves the following goroutine is given *)
Fixpoint reloads (ms : list rmove) : nat :=
  match ms with [] => 0 | Reload _ :: ms' => S (reloads ms') | _ :: ms' => reloads ms' end.
(** the values each setting had during the execution, the first being those at its start *)
Definition ips (t : target) (ms : list rmove) : list gostring := to_ip t :: flat_map (fun m => match m with Assign (SetIp x) => [x] | _ => [] end) ms.
Definition ports (t : target) (ms : list rmove) : list Z := to_port t :: flat_map (fun m => match m with Assign (SetPort x) => [x] | _ => [] end) ms.
Definition limits (t : target) (ms : list rmove) : list Z := to_max t :: flat_map (fun m => match m with Assign (SetMax x) => [x] | _ => [] end) ms.

(** the values last assigned: what is configured after the execution *)
Definition configured (t : target) (ms : list rmove) : target := mkTarget (last (ips t ms) []) (last (ports t ms) 0) (last (limits t ms) 0).

(** the client that is used for what is sent from now on is number [current]; this is where its datagrams go, and their limit *)
Definition points_to (s : redir) (t : target) : Prop :=
  let n := l_net (rd_net s) in
  nth_error (rd_addr s) (pred (length (x_clients n))) = Some (to_ip t, to_port t) /\ nth_error (l_max (rd_net s)) (pred (length (x_clients n))) = Some (to_max t).
(** datagram [d] was given to the network for [ip] and [port] *)
Definition sent_to (s : redir) (ip : gostring) (port : Z) (d : bytes) : Prop :=
  exists c, In (c, d) (x_sent (l_net (rd_net s))) /\ nth_error (rd_addr s) c = Some (ip, port).
