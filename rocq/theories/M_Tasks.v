(** Model of the two background loops that send the counters (scouterx/task/countertask/countertask.go) running beside the tracing API: the
    API calls give a sample per ended service to the service meter, the loops read the meters and send a pack each time they wake up. *)
From Verif Require Import GoInt M_Float M_Value M_Packs M_Access M_Cache M_Trace M_Meter.

(** metering.go:8-10 getTimestamp: time.Now().Unix() *)
Definition unix (n : env) : Z := n_now n / 1000000000.

(** tracemain.go:389 GetServiceMeter().Add for every service that ended, in their order. [None]: Add panics (only for a clock before 1970,
    see L_Tasks.v); what the recovery in the API call does then is not modelled. *)
Fixpoint add_samples (now : Z) (es : list aevent) (m : metering sbucket) : option (metering sbucket) :=
  match es with
  | [] => Some m
  | EvMeter _ elapsed err :: es' => match service_add now elapsed err m with Some m' => add_samples now es' m' | None => None end
  | _ :: es' => add_samples now es' m
  end.

(** countertask.go:14-15, serviceMetering.go:7-10: the package variables, and those of the tracing API *)
Record world := mkW { w_agent : agent; w_ct : ct_state }.
(** the program start: the meters are created when the clock reads [t0] and [t1]; countertask.go:14-20 *)
Definition world0 (c : M_Sampler.sconf) (t0 t1 : Z) : world :=
  mkW (a_init c) {| ct_prev := gocounter0; ct_service := new_metering sbucket0 t0; ct_active := new_metering vbucket0 t1 |}.

(** the service meter of serviceMetering.go:12-15 *)
Definition with_service (m : metering sbucket) (s : ct_state) : ct_state := {| ct_prev := ct_prev s; ct_service := m; ct_active := ct_active s |}.
(** the events that a call appended to the log; the calls of serviceMetering.go:49-59 made by tracemain.go:373-398 *)
Definition new_events (a b : agent) : list aevent := skipn (length (a_log a)) (a_log b).

(** a call of the tracing API; calls and loop turns are taken one at a time, with one clock reading each; tracemain.go:29-605 *)
Definition w_call (n : env) (k : call) (w : world) : option world :=
  let b := fst (do_call n k (w_agent w)) in
  match add_samples (unix n) (new_events (w_agent w) b) (ct_service (w_ct w)) with
  | Some m => Some (mkW b (with_service m (w_ct w)))
  | None => None
  end.

(** countertask.go:22-28, 38-74: a turn of the loop that wakes up every two seconds. [r]: what the Go runtime tells; [obj]: the configured
    object name. The service meter is read before GetActiveCount ends stuck services. [None]: getAllCounterOnPack panicked and was
    recovered, it returned nil, and SendPackDirect(nil) panics outside any recover: the process dies. *)
Definition real_tick (n : env) (r : rtstats) (obj : gostring) (w : world) : option (pack * world) :=
  match get_active_count n (w_agent w) with
  | (b, Some act) =>
      match all_counters (unix n) r act (w_ct w) with
      | Some (t, s) =>
          match add_samples (unix n) (new_events (w_agent w) b) (ct_service s) with
          | Some m => Some (PPerf (mk_perf_pack 0 obj 1 t), mkW b (with_service m s))
          | None => None
          end
      | None => None
      end
  | (_, None) => None
  end.

(** countertask.go:30-36, 76-91: a turn of the loop that wakes up every ten seconds; a panic is not recovered at all *)
Definition five_tick (n : env) (obj : gostring) (w : world) : option (pack * world) :=
  match five_min_counters (unix n) (w_ct w) with
  | Some (t, s) => Some (PPerf (mk_perf_pack 0 obj 3 t), mkW (w_agent w) s)
  | None => None
  end.

(** an execution: API calls and turns of the two loops, in any order; countertask.go:22-36 *)
Inductive task := TCall (n : env) (k : call) | TReal (n : env) (r : rtstats) (obj : gostring) | TFive (n : env) (obj : gostring).
(** one turn of countertask.go:22-28 or 30-36, or one call of tracemain.go *)
Definition do_task (t : task) (w : world) : option (list pack * world) :=
  match t with
  | TCall n k => match w_call n k w with Some w' => Some ([], w') | None => None end
  | TReal n r obj => match real_tick n r obj w with Some (p, w') => Some ([p], w') | None => None end
  | TFive n obj => match five_tick n obj w with Some (p, w') => Some ([p], w') | None => None end
  end.
(** the packs sent by the loops and the state reached; [None]: the process died; countertask.go:17-91 with tracemain.go *)
Fixpoint tasks (ts : list task) (w : world) : option (list pack * world) :=
  match ts with
  | [] => Some ([], w)
  | t :: ts' =>
      match do_task t w with
      | Some (ps, w1) => match tasks ts' w1 with Some (qs, w2) => Some (ps ++ qs, w2) | None => None end
      | None => None
      end
  end.
