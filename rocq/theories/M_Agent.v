(** The agent's announcement of itself: scouterx/agent.go, scouterx/task/agenttask/agenttask.go, the object-changed observer of
    scouterx/conf/opserver.go, over the configuration (M_Conf.v), the text registration (M_Text.v) and the UDP sender (M_Net.v).

    Not modelled: logging, the goroutines of countertask and of the TCP client. *)
From Verif Require Import GoInt M_Packs M_Hash M_Cache M_Text M_Conf M_Udp M_Net.

(** What is observed (not program state), newest first: texts offered and caches cleared; the object name and type in force after a refresh; the reading of the name for
    an announcement; the announcement; any other pack sent directly. observed at dataproxy.go:52-154,170-207 (texts), 28-40 (caches cleared), configure.go:191-208 (announcements), udpsender.go:69-96 (packs) *)
Inductive gevent :=
| GText (e : tevent)
| GSettings (name type : gostring)
| GBegan
| GAnnounced (o : object_pack)
| GDirect (p : pack).

(** [g_observer]: conf.objChangeObserver is set (opserver.go:7, 21-23). [g_half]: some goroutine is in SendObjPack after line 26 (agenttask.go), with the values of
    objName and objHash; there is never more than one (agent.go:31-32: the call, then the goroutine). *)
Record process := mkProc { g_conf : cstate; g_text : tstate; g_net : netsys; g_observer : bool; g_half : option (gostring * Z); g_log : list gevent }.

(** dataproxy.go:78-89 SendObjName and its ten copies, as in M_Text.v, with the queue of the sender (udpsender.go:69-77) *)
Definition proc_text_send (qcap : Z) (k : kind) (name : gostring) (p : process) : option (process * Z) :=
  match name with
  | [] => Some (p, 0)
  | _ =>
    match hash_string name with
    | None => None
    | Some h =>
        if lra_contains (t_cache (g_text p) k) h then Some (p, h)
        else
          let room := zlen (queue (x_u (g_net p))) <? qcap in
          let pack := mk_text_pack (text_type k) h name in
          Some (mkProc (g_conf p) (t_add_pack k h name room (t_add_key k h (g_text p))) (net_add_pack qcap (PText pack) (g_net p)) (g_observer p) (g_half p)
                  (GText (EvOffer k pack room) :: g_log p), h)
    end
  end.

(** configure.go:210-260 Refresh: resetObjNameAndType (188-208) calls objChangeNotify (opserver.go:34-40) when the name is new; the observer is
    agent.go:18-21. The other settings, which are assigned after that, do not matter to it. *)
Definition proc_refresh (qcap : Z) (w : world) (p : process) : option process :=
  match refresh_conf w (g_conf p) with
  | None => None
  | Some (c, changed) =>
      let p1 := mkProc c (g_text p) (g_net p) (g_observer p) (g_half p) (GSettings (cf_ObjName (c_conf c)) (cf_ObjType (c_conf c)) :: g_log p) in
      if changed && g_observer p then option_map fst (proc_text_send qcap KObject (cf_ObjName (c_conf c)) p1) else Some p1
  end.

(** opserver.go:21-23 AddObjChangedObserver *)
Definition proc_observe (p : process) : process := mkProc (g_conf p) (g_text p) (g_net p) true (g_half p) (g_log p).

(** agenttask.go:22-26 *)
Definition proc_begin (qcap : Z) (p : process) : option process :=
  match g_half p with
  | Some _ => Some p
  | None =>
      let objName := cf_ObjName (c_conf (g_conf p)) in
      match proc_text_send qcap KObject objName p with
      | None => None
      | Some (p1, objHash) => Some (mkProc (g_conf p1) (g_text p1) (g_net p1) (g_observer p1) (Some (objName, objHash)) (GBegan :: g_log p1))
      end
  end.

(** agenttask.go:28-36 and objectpack.go:35-41. With trace_obj_send, udpsender.go:88-92 calls udpClient.Conn.RemoteAddr(), a method of the embedded net.conn, and
    without a socket Conn is a nil pointer: run-time panic. *)
Definition proc_end (max pkid : Z) (p : process) : option process :=
  match g_half p with
  | None => Some p
  | Some (objName, objHash) =>
      let c := c_conf (g_conf p) in
      let no_conn := match nth_error (x_clients (g_net p)) (current (g_net p)) with Some cl => negb (cl_conn cl) | None => true end in
      if cf_TraceObjSend c && no_conn then None
      else
        let o := mk_object_pack (cf_ObjType c) objHash objName [] (of_string "0.0.0") true 0 [] in
        match net_direct max pkid (PObject o) (g_net p) with
        | None => None
        | Some n => Some (mkProc (g_conf p) (g_text p) n (g_observer p) None (GAnnounced o :: g_log p))
        end
  end.

(** any other pack through SendPackDirect (dataproxy.go); dataproxy.go:250-252 *)
Definition proc_direct (max pkid : Z) (q : pack) (p : process) : option process :=
  match net_direct max pkid q (g_net p) with
  | None => None
  | Some n => Some (mkProc (g_conf p) (g_text p) n (g_observer p) (g_half p) (GDirect q :: g_log p))
  end.

(** dataproxy.go:28-40 ResetTextSent *)
Definition proc_reset (p : process) : process :=
  mkProc (g_conf p) (reset_text_sent (g_text p)) (g_net p) (g_observer p) (g_half p) (map (fun k => GText (EvClear k)) (rev reset_order) ++ g_log p).

(** a move of the sender's goroutines; udpsender.go:105-152, udpclient.go:61-147 *)
Definition proc_net (n : netsys) (p : process) : process := mkProc (g_conf p) (g_text p) n (g_observer p) (g_half p) (g_log p).

(** before the first use of the configuration; [conn]: whether the socket can be opened; configure.go:128-154, udpsender.go:31-46 *)
Definition proc0 (conn : bool) : process := mkProc initial_cstate t_init (net0 conn) false None [].

(** agent.go:27-37 Init, up to the goroutines: GetInstance with its first refresh, which sees [w]; SendObjPack; AddObjChangedObserver. *)
Definition start_up (qcap max pkid : Z) (w : world) (conn : bool) : option process :=
  match proc_refresh qcap w (proc0 conn) with
  | None => None
  | Some p => match proc_begin qcap p with
              | None => None
              | Some p => option_map proc_observe (proc_end max pkid p)
              end
  end.
