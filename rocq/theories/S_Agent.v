(** Specification: the lives of an agent process as far as its announcements go, and how to read what was observed. *)
From Verif Require Import GoInt M_Packs M_Text S_Text M_Conf M_Udp M_Net S_Net M_Agent.

(** [life qcap max p]: the process started, and then, in any order and any number of times: the configuration was refreshed, an announcement was begun or
    completed, texts were registered, the caches were cleared on the collector's command, packs were sent, the observer was registered, and the
    sender's goroutines and the exchange of sockets went on. No step panicked. *)
Inductive life (qcap max : Z) : process -> Prop :=
| li_start w conn p : proc_refresh qcap w (proc0 conn) = Some p -> life qcap max p
| li_refresh w p p' : life qcap max p -> proc_refresh qcap w p = Some p' -> life qcap max p'
| li_observe p : life qcap max p -> life qcap max (proc_observe p)
| li_begin p p' : life qcap max p -> proc_begin qcap p = Some p' -> life qcap max p'
| li_end pkid p p' : life qcap max p -> proc_end max pkid p = Some p' -> in_int64 pkid -> new_keys (g_net p) (g_net p') -> life qcap max p'
| li_text k name p p' h : life qcap max p -> proc_text_send qcap k name p = Some (p', h) -> life qcap max p'
| li_reset p : life qcap max p -> life qcap max (proc_reset p)
| li_direct pkid q p p' : life qcap max p -> proper max q -> proc_direct max pkid q p = Some p' -> in_int64 pkid -> new_keys (g_net p) (g_net p') -> life qcap max p'
| li_sender pkids n p : life qcap max p -> net_sender max pkids (g_net p) = Some n -> (forall i, in_int64 (pkids i)) -> new_keys (g_net p) n -> life qcap max (proc_net n p)
| li_write_sender p : life qcap max p -> life qcap max (proc_net (net_write_sender (g_net p)) p)
| li_write_job i p : life qcap max p -> life qcap max (proc_net (net_write_job i (g_net p)) p)
| li_reload conn p : life qcap max p -> life qcap max (proc_net (net_reload conn (g_net p)) p)
| li_close c p : life qcap max p -> life qcap max (proc_net (net_close c (g_net p)) p).

(** Reading the observations (newest first). *)
(** the object name and type in force at the end of [log] *)
Fixpoint in_force (log : list gevent) : gostring * gostring :=
  match log with
  | [] => ([], [])
  | GSettings name type :: _ => (name, type)
  | _ :: older => in_force older
  end.
(** everything up to the last time an announcement was begun *)
Fixpoint when_begun (log : list gevent) : list gevent :=
  match log with
  | [] => []
  | GBegan :: older => older
  | _ :: older => when_begun older
  end.
(** there was no refresh since the announcement was begun *)
Fixpoint undisturbed (log : list gevent) : bool :=
  match log with
  | [] => false
  | GBegan :: _ => true
  | GSettings _ _ :: _ => false
  | _ :: older => undisturbed older
  end.
(** the texts *)
Definition texts (log : list gevent) : list tevent := flat_map (fun e => match e with GText t => [t] | _ => [] end) log.
(** the packs given to the queue, and those sent directly, oldest first *)
Definition queued_packs (log : list gevent) : list pack := flat_map (fun e => match e with GText (EvOffer _ p _) => [PText p] | _ => [] end) (rev log).
Definition direct_packs (log : list gevent) : list pack := flat_map (fun e => match e with GAnnounced o => [PObject o] | GDirect p => [p] | _ => [] end) (rev log).
