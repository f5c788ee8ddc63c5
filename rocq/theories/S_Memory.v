(** How much an agent keeps: readings of the state of the whole agent (M_Whole.v). *)
From Verif Require Import GoInt M_Cache M_Text M_Udp M_Net M_Agent M_Redirect M_Trace M_Meter M_Tasks M_Whole.

(** serialised packs: in the channel, and in the list the sender goroutine is filling *)
Definition in_channel (s : whole) : Z := zlen (queue (x_u (g_net (h_proc s)))).
Definition in_hand (s : whole) : Z := match snd_state (x_u (g_net (h_proc s))) with Idle => 0 | Sending _ held _ => zlen held end.
(** entries of a cache: the list and the table over it *)
Definition entries_at_most (n : Z) (c : lra) : Prop := zlen (lst c) <= n /\ zlen (table c) <= n.
(** UDP sockets that are open: those of clients in use or once in use, and one that is made and not yet in use *)
Definition open_sockets (s : whole) : nat :=
  length (filter (fun cl => cl_conn cl && cl_open cl) (x_clients (g_net (h_proc s)))) + match h_pc s with Publish true => 1 | _ => 0 end.
(** buckets of the meters *)
Definition buckets (s : whole) : Z * Z := (zlen (m_table (ct_service (w_ct (h_tasks s)))), zlen (m_table (ct_active (w_ct (h_tasks s))))).
