(** Model of scouterx/netio/tcpclient (tcpclient.go, tcpmanager.go, handlers.go) and of
    scouterx/conf/exthandler.go.

    Not modelled: dialling and socket errors other than the end of the stream, trace logging, the profiling
    goroutines that the profile commands start (their files: M_Dump.v; their settings: M_Profiling.v), stack
    exhaustion by a very deeply nested value in a frame. *)
From Verif Require Import GoInt M_Trace M_Cache M_Text M_OutX M_InX M_Value M_Packs M_Access M_Util M_Conf M_Dump.

(** * What a handler sees and changes *)

(** The environment of one command: the agent's directories, how the operating system cuts a file into reads,
    the offset from which the device fails, the text of os.Remove's error, time.Now() formatted and as a number
    (one reading per command), whether os.Create succeeds, the writes of the goroutine profile, whether
    filepath.Walk can stat what it visits (otherwise the callbacks get a nil info and panic), the order of a
    range over the table of active services, whether ioutil.WriteFile succeeds (if not, what it leaves), and
    the world that the refresh after a save sees. handlers.go:39-364 *)
Record henv := mk_henv {
  h_home : gostring; h_cwd : gostring; h_split : bytes -> list bytes; h_bad : option Z; h_remove_err : gostring;
  h_stamp : gostring; h_now : Z; h_creatable : bool; h_goroutines : list bytes; h_walk_ok : bool;
  h_order : list (key * Z); h_save_ok : bool; h_save_left : option gostring; h_world : world }.

(** the files below the dump directories, tracing, configuration, contents of the configuration file (None: it
    cannot be read); handlers.go:39-364 *)
Record hstate := mk_hstate { hs_fs : fs; hs_agent : agent; hs_conf : cstate; hs_file : option gostring }.

(** the effect of a handler on the files: handlers.go:155-214 *)
Definition set_fs d (s : hstate) := mk_hstate d (hs_agent s) (hs_conf s) (hs_file s).
(** the effect of a handler on the tracing state: handlers.go:316-319 *)
Definition set_agent a (s : hstate) := mk_hstate (hs_fs s) a (hs_conf s) (hs_file s).
(** the effect of a handler on the configuration: handlers.go:301-314 *)
Definition set_conf c (s : hstate) := mk_hstate (hs_fs s) (hs_agent s) c (hs_file s).
(** the effect of a handler on the configuration file: handlers.go:301-314 *)
Definition set_file f (s : hstate) := mk_hstate (hs_fs s) (hs_agent s) (hs_conf s) f.

(** * The handlers *)

(** handlers.go:177-181, 185-189, 193-197, 201-205, 209-213 *)
Definition profile_reply : table :=
  mappack_put (of_string "msg") (AString (of_string "Success. it take about 30 seconds."))
    (mappack_put (of_string "success") (AValue (VBool true)) []).

(** handlers.go:238, 270: "[goroutine] " + strconv.Itoa(goid) *)
Definition goroutine_name (goid : Z) : gostring := of_string "[goroutine] " ++ format_int 10 goid.

(** handlers.go:216-243 GetGoroutineDetail; the trace context is found by transaction id *)
Definition get_goroutine_detail (h : henv) (param : option pack) (a : agent) : table :=
  let p := mappack_put (of_string "State") (AString (of_string "end"))
             (mappack_put (of_string "Thread Name") (AString (of_string "[No Goroutine] End")) []) in
  match param with
  | Some (PMap paramPack) =>
      let txid := get_int64 (of_string "txid") paramPack in
      match match find_by_txid txid a with Some i => nth_error (a_ctx a) i | None => None end with
      | None => mappack_put (of_string "Stack Trace") (AString (of_string "[info] no traceContext. txid:" ++ int_to_xlog_string32 txid)) p
      | Some x =>
          let p := mappack_put (of_string "Service Txid") (AString (int_to_xlog_string32 (x_Txid x))) p in
          let p := mappack_put (of_string "Service Name") (AString (x_ServiceName x)) p in
          let p := mappack_put (of_string "Service Elapsed") (AInt32 (millis_between (x_StartTime x) (h_now h))) p in
          let p := mappack_put (of_string "Thread Id") (AInt (-1)) p in
          let p := mappack_put (of_string "State") (AString (of_string "n/a")) p in
          let p := mappack_put (of_string "Thread Name") (AString (goroutine_name (x_Goid x))) p in
          let p := mappack_put (of_string "Stack Trace") (AString (of_string "stacktrace for goroutine is not yet supported")) p in
          mappack_put (of_string "Last trace method") (AString (x_LastMethod x)) p
      end
  | _ => mappack_put (of_string "Stack Trace") (AString (of_string "[info] scouter request param error.")) p
  end.

(** handlers.go:248-278: the ten list values, appended to row by row *)
Record columns := mk_columns { c_id : list value; c_elapsed : list value; c_service : list value; c_name : list value;
  c_txid : list value; c_ip : list value; c_state : list value; c_cpu : list value; c_sql : list value; c_subcall : list value }.
(** handlers.go:245-282, the body of the loop *)
Definition add_row (h : henv) (x : tctx) (c : columns) : columns :=
  mk_columns (list_add_int64 (x_Goid x) (c_id c)) (list_add_int32 (millis_between (x_StartTime x) (h_now h)) (c_elapsed c))
    (list_add_string (x_ServiceName x) (c_service c)) (list_add_string (goroutine_name (x_Goid x)) (c_name c))
    (list_add_string (int_to_xlog_string32 (x_Txid x)) (c_txid c)) (list_add_string (x_RemoteIp x) (c_ip c))
    (list_add_string (of_string "n/a") (c_state c)) (list_add_int64 (-1) (c_cpu c))
    (list_add_string (of_string "n/a") (c_sql c)) (list_add_string (of_string "n/a") (c_subcall c)).

(** handlers.go:245-282 GetActiveList.  GetAllTctx (tctxmanager.go:70-72) never returns nil entries, so the early
    return of lines 262-264 is not taken; the entries point to trace contexts. *)
Definition active_contexts (h : henv) (a : agent) : list tctx :=
  flat_map (fun i => match nth_error (a_ctx a) i with Some x => [x] | None => [] end)
    (handles (lra_values (a_active a) (h_order h))).
(** handlers.go:245-282 GetActiveList *)
Definition get_active_list (h : henv) (a : agent) : table :=
  let c := fold_left (fun c x => add_row h x c) (active_contexts h a) (mk_columns [] [] [] [] [] [] [] [] [] []) in
  let put_list (k : gostring) l t := mappack_put k (AValue (VList l)) t in
  mappack_put (of_string "complete") (AValue (VBool true))
    (put_list (of_string "subcall") (c_subcall c) (put_list (of_string "sql") (c_sql c) (put_list (of_string "cpu") (c_cpu c) (put_list (of_string "stat") (c_state c)
      (put_list (of_string "ip") (c_ip c) (put_list (of_string "txid") (c_txid c) (put_list (of_string "name") (c_name c) (put_list (of_string "service") (c_service c)
        (put_list (of_string "elapsed") (c_elapsed c) (put_list (of_string "id") (c_id c) [])))))))))).

(** handlers.go:284-299 loadConfig, exthandler.go:7-15 LoadConfigText *)
Definition load_config (s : hstate) : table :=
  let configText := match hs_file s with Some t => t | None => [] end in
  let keys := fold_left (fun l (e : gostring * cdesc) => list_add_string (cd_Key (snd e)) l) (c_descs (hs_conf s)) [] in
  mappack_put (of_string "configKey") (AValue (VList keys)) (mappack_put (of_string "agentConfig") (AString configText) []).

(** handlers.go:301-314 saveConfig, exthandler.go:17-24 SaveConfigText.  [None]: the refresh panicked. *)
Definition save_config (h : henv) (param : option pack) (s : hstate) : hstate * option table :=
  let result := mappack_put (of_string "result") (ABool false) [] in
  match param with
  | Some (PMap p) =>
      let text := get_string (of_string "setConfig") p in
      if h_save_ok h then
        let s := set_file (Some text) s in
        match refresh_conf (h_world h) (hs_conf s) with
        | Some (c, _) => (set_conf c s, Some (mappack_put (of_string "result") (AString (of_string "true")) result))
        | None => (s, None)
        end
      else (set_file (h_save_left h) s, Some result)
  | _ => (s, Some result)
  end.

(** handlers.go:321-338 listConfig *)
Definition list_config (d : descs) : table :=
  let row := fun (acc : list value * list value * list value) (e : gostring * cdesc) =>
    let '(k, v, df) := acc in
    (list_add_string (cd_Key (snd e)) k, list_add_string (cd_Value (snd e)) v, list_add_string (cd_Default (snd e)) df) in
  let '(keyList, valueList, defaultsList) := fold_left row d ([], [], []) in
  mappack_put (of_string "default") (AValue (VList defaultsList))
    (mappack_put (of_string "value") (AValue (VList valueList)) (mappack_put (of_string "key") (AValue (VList keyList)) [])).

(** handlers.go:340-351 *)
Definition list_config_description (d : descs) : table :=
  fold_left (fun t (e : gostring * cdesc) => mappack_put (cd_Key (snd e)) (AString (cd_Desc (snd e))) t) d [].
(** handlers.go:353-364 *)
Definition list_config_value_type (d : descs) : table :=
  fold_left (fun t (e : gostring * cdesc) => mappack_put (cd_Key (snd e)) (AInt32 (int32 (cd_Type (snd e)))) t) d [].

(** handlers.go:15-37, 43 *)
Inductive command :=
| KeepAlive | ResetCache | TriggerThreadDump | DumpFileList | DumpFileDetail | TriggerBlockProfile | TriggerMutexProfile
| ListHeapDump | DownloadHeapDump | DeleteHeapDump | CallCpuProfile | CallBlockProfile | CallMutexProfile
| GetConfigureWas | SetConfigureWas | ListConfigureWas | ConfigureValueType | ConfigureDesc
| ActiveServiceList | ThreadDetail.
(** the case labels of handlers.go:39-153 with the constants of handlers.go:15-37 *)
Definition commands : list (gostring * command) :=
  [ (of_string "KEEP_ALIVE", KeepAlive); (of_string "OBJECT_RESET_CACHE", ResetCache); (of_string "TRIGGER_THREAD_DUMP", TriggerThreadDump);
    (of_string "OBJECT_DUMP_FILE_LIST", DumpFileList); (of_string "OBJECT_DUMP_FILE_DETAIL", DumpFileDetail);
    (of_string "TRIGGER_BLOCK_PROFILE", TriggerBlockProfile); (of_string "TRIGGER_MUTEX_PROFILE", TriggerMutexProfile);
    (of_string "OBJECT_LIST_HEAP_DUMP", ListHeapDump); (of_string "OBJECT_DOWNLOAD_HEAP_DUMP", DownloadHeapDump);
    (of_string "OBJECT_DELETE_HEAP_DUMP", DeleteHeapDump); (of_string "OBJECT_CALL_CPU_PROFILE", CallCpuProfile);
    (of_string "OBJECT_CALL_BLOCK_PROFILE", CallBlockProfile); (of_string "OBJECT_CALL_MUTEX_PROFILE", CallMutexProfile);
    (of_string "GET_CONFIGURE_WAS", GetConfigureWas); (of_string "SET_CONFIGURE_WAS", SetConfigureWas);
    (of_string "LIST_CONFIGURE_WAS", ListConfigureWas); (of_string "CONFIGURE_VALUE_TYPE", ConfigureValueType);
    (of_string "CONFIGURE_DESC", ConfigureDesc); (of_string "OBJECT_ACTIVE_SERVICE_LIST", ActiveServiceList);
    (of_string "OBJECT_THREAD_DETAIL", ThreadDetail) ].

(** handlers.go:39-153 handle: the new state, what was written to [out], and the returned pack.  A panic is
    recovered (line 40) and gives a nil pack.  [param] is None for a nil pack. *)
Definition handle (h : henv) (cmd : gostring) (param : option pack) (s : hstate) (out : dout) : hstate * dout * option pack :=
  let home := h_home h in let cwd := h_cwd h in
  let reply (t : table) := (s, out, Some (PMap t)) in
  match get cmd commands with
  | Some KeepAlive | None => (s, out, None)
  | Some ResetCache => (set_agent (set_text (reset_text_sent (a_text (hs_agent s))) (hs_agent s)) s, out, param)
  | Some TriggerThreadDump =>
      let '(t, d) := heavy_all_stack_trace home cwd (h_stamp h) (h_creatable h) (h_goroutines h) (h_now h) (hs_fs s) in
      (set_fs d s, out, Some (PMap t))
  | Some DumpFileList => if h_walk_ok h then reply (list_dump_files home cwd (hs_fs s)) else (s, out, None)
  | Some DumpFileDetail =>
      match param with
      | Some (PMap p) => (s, stream_dump_file home cwd (hs_fs s) (h_split h) p out, None)
      | _ => (s, out, None)
      end
  | Some TriggerBlockProfile | Some TriggerMutexProfile => (s, out, None)
  | Some ListHeapDump => if h_walk_ok h then reply (list_binary_dump_files home cwd (hs_fs s)) else (s, out, None)
  | Some DownloadHeapDump =>
      match param with
      | Some (PMap p) => (s, download_binary_dump home cwd (hs_fs s) (h_bad h) (get_string (of_string "fileName") p) out, None)
      | _ => (s, out, None)
      end
  | Some DeleteHeapDump =>
      match param with
      | Some (PMap p) =>
          let '(t, d) := delete_binary_dump home cwd (hs_fs s) (h_remove_err h) (get_string (of_string "delfileName") p) in
          (set_fs d s, out, Some (PMap t))
      | _ => (s, out, None)
      end
  | Some CallCpuProfile | Some CallBlockProfile | Some CallMutexProfile => reply profile_reply
  | Some GetConfigureWas => reply (load_config s)
  | Some SetConfigureWas =>
      match save_config h param s with
      | (s', Some t) => (s', out, Some (PMap t))
      | (s', None) => (s', out, None)
      end
  | Some ListConfigureWas => reply (list_config (c_descs (hs_conf s)))
  | Some ConfigureValueType => reply (list_config_value_type (c_descs (hs_conf s)))
  | Some ConfigureDesc => reply (list_config_description (c_descs (hs_conf s)))
  | Some ActiveServiceList => reply (get_active_list h (hs_agent s))
  | Some ThreadDetail => reply (get_goroutine_detail h param (hs_agent s))
  end.

(** * One session: tcpclient.go:67-120 Process *)

(** tcpclient.go:103-114: the bytes sent for one command *)
Definition response (out : dout) (result : option pack) : bytes :=
  let out := match result with
             | Some p => write_int_bytes (buf (write_pack p new_dout)) (write_uint8 HasNEXT out)
             | None => out
             end in
  buf (write_uint8 NoNEXT out).

(** tcpclient.go:94-114: what a frame leads to: the new state and a response, the end of the session with an
    error, or a panic (recovered in startTcp) *)
Inductive frame_result := FReply (s : hstate) (bs : bytes) | FError | FPanic.
(** tcpclient.go:67-120, the loop body once the frame is read; handlers.go:39-153 *)
Definition handle_frame (h : henv) (frame : bytes) (s : hstate) : frame_result :=
  match read_string (buffer frame) with
  | Ret cmd _ r =>
      match read_pack r with
      | Ret param None _ => let '(s', out, res) := handle h cmd param s new_dout in FReply s' (response out res)
      | Ret _ (Some _) _ => FError
      | Panic | NoFuel => FPanic
      end
  | Panic | NoFuel => FPanic
  end.

(** netcafeconstants.go:9 *)
Definition TCP_AGENT_V2 : Z := 3405647874.

(** tcpclient.go:77-78 *)
Definition handshake (objHash : Z) : bytes := buf (write_int32 objHash (write_int32 (int32 TCP_AGENT_V2) new_dout)).

(** what identifies the session: object hash, collector address and port; tcpclient.go:67-120 *)
Definition identity (c : configure) : Z * gostring * Z := (cf_ObjHash c, cf_NetCollectorIP c, cf_NetCollectorTCPPort c).
(** tcpclient.go:67-120, the loop condition *)
Definition identity_eqb (a b : Z * gostring * Z) : bool :=
  let '(h1, i1, p1) := a in let '(h2, i2, p2) := b in (h1 =? h2) && beqb i1 i2 && (p1 =? p2).

(** how a session ends: the loop condition failed, an error was returned, a panic; tcpclient.go:67-120 *)
Inductive session_end := EndChanged | EndError | EndPanic.

(** tcpclient.go:83-118: the loop.  Each element of [its] is one iteration: what the configuration goroutine
    did before the loop condition was evaluated, and the command's environment.  When [its] runs out the session
    is still going on ([None]).  Result: final state, response bytes in order, and how it ended. *)
Fixpoint process_loop (me : Z * gostring * Z) (its : list (list cop * henv)) (conn : reader) (s : hstate)
  : hstate * list bytes * option session_end :=
  match its with
  | [] => (s, [], None)
  | (ops, h) :: its' =>
      match conf_run ops (hs_conf s) with
      | None => (s, [], Some EndPanic)
      | Some c =>
          let s := set_conf c s in
          if identity_eqb me (identity (c_conf c)) then
            match read_int_bytes conn with
            | Ret frame None conn' =>
                match handle_frame h frame s with
                | FReply s' bs => let '(s'', out, e) := process_loop me its' conn' s' in (s'', bs :: out, e)
                | FError => (s, [], Some EndError)
                | FPanic => (s, [], Some EndPanic)
                end
            | Ret _ (Some _) _ => (s, [], Some EndError)
            | Panic | NoFuel => (s, [], Some EndPanic)
            end
          else (s, [], Some EndChanged)
      end
  end.

(** tcpclient.go:40-65 Prepare and 67-120 Process: the address dialled and the object hash are those at
    Prepare, the address and port watched those at the start of Process ([between]: what the configuration
    goroutine does meanwhile).  Result: the address and port dialled, and the session. *)
Definition session (s : hstate) (between : list cop) (its : list (list cop * henv)) (conn : reader)
  : option (gostring * Z * bytes * (hstate * list bytes * option session_end)) :=
  let dialled := (cf_NetCollectorIP (c_conf (hs_conf s)), cf_NetCollectorTCPPort (c_conf (hs_conf s))) in
  let objHash := cf_ObjHash (c_conf (hs_conf s)) in
  match conf_run between (hs_conf s) with
  | None => None
  | Some c =>
      let s := set_conf c s in
      let me := (objHash, cf_NetCollectorIP (c_conf c), cf_NetCollectorTCPPort (c_conf c)) in
      Some (fst dialled, snd dialled, handshake objHash, process_loop me its conn s)
  end.

(** * Reconnecting: tcpmanager.go:15-44 *)

(** one attempt: Prepare failed, Process returned an error, returned nil, or panicked; tcpmanager.go:15-44 *)
Inductive attempt := DialFailed | SessionError | SessionDone | SessionPanic.

(** what tcpmanager.go:15-44 does: sleep, or try *)
Inductive tcp_event := Pause (ms : Z) | Try (o : attempt).

(** tcpmanager.go:16-43, one iteration: the variables are declared inside the loop body *)
Definition tcp_iteration (o : attempt) : list tcp_event :=
  let minSleep := 3000 in
  let sleep := minSleep in
  let maxSleep := 60000 in
  [Pause 1000; Try o] ++
  match o with
  | SessionError | DialFailed => [Pause (if sleep <? maxSleep then sleep else maxSleep)]
  | SessionDone | SessionPanic => []
  end.
(** tcpmanager.go:15-44 startTcp *)
Definition start_tcp (os : list attempt) : list tcp_event := flat_map tcp_iteration os.
