(** The ways in which the agent can end the process it lives in. *)
From Verif Require Import GoInt M_Packs M_Conf M_Udp M_Net M_Agent M_Trace M_Access M_Cache M_Tasks M_Whole S_Conf S_Tasks.
From Coq Require Import Permutation.

(** the UDP client that is used now: the newest; it has a socket *)
Definition connected (s : whole) : Prop :=
  exists k cl, S k = length (x_clients (g_net (h_proc s))) /\ nth_error (x_clients (g_net (h_proc s))) k = Some cl /\ cl_conn cl = true.
(** it has a socket, and was made with a datagram size of 0 *)
Definition cannot_divide (s : whole) : Prop :=
  exists k cl, S k = length (x_clients (g_net (h_proc s))) /\ nth_error (x_clients (g_net (h_proc s))) k = Some cl /\ cl_conn cl = true /\ nth_error (h_max s) k = Some 0.

(** the process can end at move [m] for a reason other than the clock: a refresh of the settings that meets an environment entry without '='; the
    announcement of the object with trace_obj_send and no socket; a pack to be cut into datagrams of size 0 *)
Definition fatal (m : hmove) (s : whole) : Prop :=
  match m with
  | HRefresh w => exists e, In e (w_env w) /\ ~ In 61 e
  | HEnd _ => (cf_TraceObjSend (settings_of s) = true /\ ~ connected s) \/ cannot_divide s
  | HDirect _ _ | HSender _ => cannot_divide s
  | HTask _ t => cannot_divide s /\ due t <> []
  | _ => False
  end.

(** the clock has read a time before 1970 *)
Definition early (m : hmove) : Prop := match m with HTask _ t => second (task_env t) < 0 | _ => False end.

(** what the Go runtime guarantees of a call: a range over the table visits each entry once, and the goroutine of GoWithTrace begins with the context it was
    given. Nothing is assumed of the application's arguments. *)
Definition possible (s : whole) (m : hmove) : Prop :=
  match m with
  | HTask _ (TCall n KActiveCount) | HTask _ (TReal n _ _) => Permutation (n_order n) (table (a_active (w_agent (h_tasks s))))
  | HTask _ (TCall _ (KGoBegin (CTrace h))) => (h < length (a_ctx (w_agent (h_tasks s))))%nat
  | _ => True
  end.
Definition all_possible (ms : list hmove) (s0 : whole) : Prop :=
  forall before m after s, ms = before ++ m :: after -> whole_run before s0 = Some s -> possible s m.

(** settings with which nothing of the kind happens: a datagram size other than 0, and no trace_obj_send (or a socket) *)
Definition calm (s : whole) : Prop := cf_UDPMaxBytes (settings_of s) <> 0 /\ (cf_TraceObjSend (settings_of s) = true -> connected s).
Definition calm_world (w : M_Conf.world) : Prop := forall e, In e (w_env w) -> In 61 e.

(** a configuration that says nothing about the three settings that matter: every environment entry is KEY=VALUE, and neither an entry nor the file is for
    one of their keys *)
Definition keys_that_matter : list gostring := [of_string "udp_max_bytes"; of_string "trace_obj_send"; of_string "send_queue_size"].
Definition silent_world (w : M_Conf.world) : Prop :=
  Forall (fun e => exists k v, env_entry e k v) (w_env w) /\
  (forall fp, w_load w = Loaded fp -> NoDup (map fst fp)) /\
  forall key, In key keys_that_matter -> env_gives (w_env w) key None /\ forall fp, w_load w = Loaded fp -> ~ In key (map fst fp).
Definition silent (m : hmove) : Prop := match m with HRefresh w => silent_world w | _ => True end.
