(** Model of scouterx/counter: metering.go, serviceMetering.go, valueMetering.go, const.go,
    collector.go, gocounter/gocounter.go and of scouterx/task/countertask/countertask.go.
    The clock (getTimestamp, metering.go:8-10) is an argument of every operation. *)
From Coq Require Import Floats.SpecFloat.
From Verif Require Import GoInt M_Float M_Value M_Packs M_Access.

(** ** metering.go *)

(** metering.go:12-21. The [clear] function resets a bucket to the value [create] returns, so both
    are represented by one initial bucket [b0]; bucketSize is the constant 301. *)
Record metering (B : Type) := { m_time : Z; m_pos : Z; m_table : list B }.
Arguments m_time {B}. Arguments m_pos {B}. Arguments m_table {B}.
Arguments Build_metering {B}.

(** metering.go:28 *)
Definition bucket_size : Z := 301.

(** table[i] and table[i] = b; [None] is the index-out-of-range panic; metering.go:42-45, 93-102 *)
Definition tab_get {B} (t : list B) (i : Z) : option B :=
  if (0 <=? i) && (i <? zlen t) then nth_error t (Z.to_nat i) else None.
(** table[i] = b: metering.go:47-71 *)
Definition tab_set {B} (t : list B) (i : Z) (b : B) : option (list B) :=
  if (0 <=? i) && (i <? zlen t) then Some (firstn (Z.to_nat i) t ++ b :: skipn (S (Z.to_nat i)) t) else None.

(** metering.go:27-40 NewMetering *)
Definition new_metering {B} (b0 : B) (now : Z) : metering B :=
  {| m_time := now; m_pos := Z.rem now bucket_size; m_table := repeat b0 (Z.to_nat bucket_size) |}.

(** metering.go:52-59: the loop that advances the position and clears, [n] iterations left *)
Fixpoint advance {B} (b0 : B) (n : nat) (pos : Z) (t : list B) : option (Z * list B) :=
  match n with
  | O => Some (pos, t)
  | S n' =>
      let pos := if bucket_size - 1 <? pos + 1 then 0 else pos + 1 in
      match tab_set t pos b0 with
      | Some t' => advance b0 n' pos t'
      | None => None
      end
  end.

(** metering.go:47-64 getPosition, at clock reading [cur] *)
Definition get_position {B} (b0 : B) (cur : Z) (m : metering B) : option (Z * metering B) :=
  if cur =? m_time m then Some (m_pos m, m)
  else
    match advance b0 (Z.to_nat (Z.min (cur - m_time m) bucket_size)) (m_pos m) (m_table m) with
    | Some (_, t) =>
        let m' := {| m_time := cur; m_pos := Z.rem cur bucket_size; m_table := t |} in
        Some (m_pos m', m')
    | None => None
    end.

(** metering.go:66-71 *)
Definition check_period (period : Z) : Z := if bucket_size <=? period then bucket_size - 1 else period.

(** metering.go:73-80 *)
Definition step_back (pos : Z) : Z := if pos =? 0 then bucket_size - 1 else pos - 1.

(** metering.go:86-89: the buckets handed to the handler, in call order *)
Fixpoint walk {B} (n : nat) (pos : Z) (t : list B) : option (list B) :=
  match n with
  | O => Some []
  | S n' =>
      match tab_get t pos, walk n' (step_back pos) t with
      | Some b, Some bs => Some (b :: bs)
      | _, _ => None
      end
  end.

(** metering.go:82-91 SearchOnHandler: returned period, buckets visited, new state *)
Definition search {B} (b0 : B) (cur period : Z) (m : metering B) : option (Z * list B * metering B) :=
  let period := check_period period in
  match get_position b0 cur m with
  | Some (pos, m') =>
      match walk (Z.to_nat period) pos (m_table m') with
      | Some bs => Some (period, bs, m')
      | None => None
      end
  | None => None
  end.

(** metering.go:42-45 GetCurrentBucket followed by an in-place update of the bucket *)
Definition on_current {B} (b0 : B) (cur : Z) (upd : B -> B) (m : metering B) : option (metering B) :=
  match get_position b0 cur m with
  | Some (pos, m') =>
      match tab_get (m_table m') pos with
      | Some b =>
          match tab_set (m_table m') pos (upd b) with
          | Some t => Some {| m_time := m_time m'; m_pos := m_pos m'; m_table := t |}
          | None => None
          end
      | None => None
      end
  | None => None
  end.

(** ** serviceMetering.go *)

(** serviceMetering.go:23-27 *)
Record sbucket := { sb_count : Z; sb_elapsed : Z; sb_error : Z }.
(** serviceMetering.go:33-42, the created and the cleared bucket *)
Definition sbucket0 := {| sb_count := 0; sb_elapsed := 0; sb_error := 0 |}.

(** serviceMetering.go:49-59, the effect on the bucket. Go's int is 64 bits. *)
Definition sb_add (elapsed : Z) (err : bool) (b : sbucket) : sbucket :=
  let elapsed := if elapsed <? 0 then 0 else elapsed in
  {| sb_count := int64 (sb_count b + 1);
     sb_elapsed := int64 (sb_elapsed b + elapsed);
     sb_error := if err then int64 (sb_error b + 1) else sb_error b |}.

(** serviceMetering.go:49-59 Add *)
Definition service_add (cur elapsed : Z) (err : bool) (m : metering sbucket) : option (metering sbucket) :=
  on_current sbucket0 cur (sb_add elapsed err) m.

(** serviceMetering.go:62-71: the closure's accumulators *)
Definition sb_sum (bs : list sbucket) : sbucket :=
  fold_left (fun a b => {| sb_count := int64 (sb_count a + sb_count b);
                           sb_elapsed := int64 (sb_elapsed a + sb_elapsed b);
                           sb_error := int64 (sb_error a + sb_error b) |}) bs sbucket0.

(** serviceMetering.go:17-21 *)
Record service_counter := { sc_tps : spec_float; sc_elapsed : Z; sc_error_rate : spec_float }.

(** serviceMetering.go:73-86. Go's integer division truncates. *)
Definition counter_of (period : Z) (s : sbucket) : service_counter :=
  {| sc_tps := f32_div (f32_of_int (sb_count s)) (f32_of_int period);
     sc_elapsed := if sb_count s =? 0 then 0 else int64 (Z.quot (sb_elapsed s) (sb_count s));
     sc_error_rate :=
       if sb_count s =? 0 then S754_zero false
       else f32_mul (f32_div (f32_of_int (sb_error s)) (f32_of_int (sb_count s))) (f32_of_int 100) |}.

(** serviceMetering.go:61-87 GetAllCounter *)
Definition service_counters (cur period : Z) (m : metering sbucket) : option (service_counter * metering sbucket) :=
  match search sbucket0 cur period m with
  | Some (p, bs, m') => Some (counter_of p (sb_sum bs), m')
  | None => None
  end.

(** ** valueMetering.go *)

(** valueMetering.go:17-20 *)
Record vbucket := { vb_value : spec_float; vb_count : Z }.
(** valueMetering.go:24-33 *)
Definition vbucket0 := {| vb_value := S754_zero false; vb_count := 0 |}.
(** valueMetering.go:37-43, the effect on the bucket *)
Definition vb_add (v : spec_float) (b : vbucket) : vbucket :=
  {| vb_value := f64_add (vb_value b) v; vb_count := int32 (vb_count b + 1) |}.
(** valueMetering.go:37-43 Add *)
Definition value_add (cur : Z) (v : spec_float) (m : metering vbucket) : option (metering vbucket) :=
  on_current vbucket0 cur (vb_add v) m.
(** valueMetering.go:50-54 *)
Definition vb_sum (bs : list vbucket) : vbucket :=
  fold_left (fun a b => {| vb_value := f64_add (vb_value a) (vb_value b);
                           vb_count := int32 (vb_count a + vb_count b) |}) bs vbucket0.
(** valueMetering.go:12-15 *)
Record value_metric := { vm_sum : spec_float; vm_avg : spec_float }.
(** valueMetering.go:45-65 GetAllCounter *)
Definition value_counters (cur period : Z) (m : metering vbucket) : option (value_metric * metering vbucket) :=
  match search vbucket0 cur period m with
  | Some (_, bs, m') =>
      let s := vb_sum bs in
      Some ({| vm_sum := vb_value s;
               vm_avg := if vb_count s =? 0 then S754_zero false
                         else f64_div (vb_value s) (f64_of_int (vb_count s)) |}, m')
  | None => None
  end.

(** ** Runs *)

(** Calls on the service meter; serviceMetering.go:49-87 *)
Inductive sm_op := SmAdd (elapsed : Z) (err : bool) | SmGet (period : Z).
(** one call of serviceMetering.go:49-87, with its clock reading *)
Definition sm_step (m : metering sbucket) (e : Z * sm_op) : option (metering sbucket) :=
  match e with
  | (cur, SmAdd elapsed err) => service_add cur elapsed err m
  | (cur, SmGet period) => match service_counters cur period m with Some (_, m') => Some m' | None => None end
  end.
(** calls of serviceMetering.go:49-87 one after the other *)
Fixpoint sm_run (es : list (Z * sm_op)) (m : metering sbucket) : option (metering sbucket) :=
  match es with
  | [] => Some m
  | e :: es' => match sm_step m e with Some m' => sm_run es' m' | None => None end
  end.

(** The additions of a run, with their clock readings; the calls of serviceMetering.go:49-59 *)
Fixpoint adds (es : list (Z * sm_op)) : list (Z * (Z * bool)) :=
  match es with
  | [] => []
  | (t, SmAdd e r) :: es' => (t, (e, r)) :: adds es'
  | (_, SmGet _) :: es' => adds es'
  end.

(** Calls on a value meter; valueMetering.go:37-65 *)
Inductive vm_op := VmAdd (v : spec_float) | VmGet (period : Z).
(** one call of valueMetering.go:37-65, with its clock reading *)
Definition vm_step (m : metering vbucket) (e : Z * vm_op) : option (metering vbucket) :=
  match e with
  | (cur, VmAdd v) => value_add cur v m
  | (cur, VmGet period) => match value_counters cur period m with Some (_, m') => Some m' | None => None end
  end.
(** calls of valueMetering.go:37-65 one after the other *)
Fixpoint vm_run (es : list (Z * vm_op)) (m : metering vbucket) : option (metering vbucket) :=
  match es with
  | [] => Some m
  | e :: es' => match vm_step m e with Some m' => vm_run es' m' | None => None end
  end.

(** The additions of a run, with their clock readings; the calls of valueMetering.go:37-43 *)
Fixpoint vadds (es : list (Z * vm_op)) : list (Z * spec_float) :=
  match es with
  | [] => []
  | (t, VmAdd v) :: es' => (t, v) :: vadds es'
  | (_, VmGet _) :: es' => vadds es'
  end.

(** ** gocounter.go *)

(** gocounter.go:11-24 (rates as float64) *)
Record gocounter := { gc_timestamp : Z; gc_goroutines : Z; gc_cgocalls : Z; gc_heap : Z;
                      gc_per_sec : spec_float; gc_pause_per_sec : spec_float;
                      gc_pause_total : Z; gc_num : Z }.
(** gocounter.go:26, countertask.go:15: the zero value *)
Definition gocounter0 : gocounter :=
  {| gc_timestamp := 0; gc_goroutines := 0; gc_cgocalls := 0; gc_heap := 0;
     gc_per_sec := S754_zero false; gc_pause_per_sec := S754_zero false; gc_pause_total := 0; gc_num := 0 |}.

(** What the runtime reports: time.Now().UnixNano(), runtime.NumGoroutine, NumCgoCall and the
    MemStats fields HeapAlloc, PauseTotalNs (uint64), NumGC (uint32); gocounter.go:26-50 *)
Record rtstats := { rt_now : Z; rt_goroutines : Z; rt_cgo : Z; rt_heap : Z; rt_pause : Z; rt_gcs : Z }.

(** gocounter.go:26-50 GetGoCounter; time.Second is 10^9 *)
Definition get_gocounter (prev : gocounter) (r : rtstats) : gocounter :=
  let dt := f64_of_int (int64 (rt_now r - gc_timestamp prev)) in
  {| gc_timestamp := rt_now r; gc_goroutines := rt_goroutines r; gc_cgocalls := rt_cgo r;
     gc_heap := int64 (rt_heap r);
     gc_per_sec :=
       if gc_timestamp prev =? 0 then S754_zero false
       else f64_mul (f64_div (f64_of_int (int32 (int32 (rt_gcs r) - gc_num prev))) dt) (f64_of_int 1000000000);
     gc_pause_per_sec :=
       if gc_timestamp prev =? 0 then S754_zero false
       else f64_mul (f64_div (f64_of_int (int64 (int64 (rt_pause r) - gc_pause_total prev))) dt) (f64_of_int 1000);
     gc_pause_total := int64 (rt_pause r); gc_num := int32 (rt_gcs r) |}.

(** ** const.go:3-14 *)
Definition K_GOROUTINE := of_string "Goroutine".
(** const.go:4 *)
Definition K_CGO_CALL := of_string "GoCgoCall".
(** const.go:6 *)
Definition K_GC_COUNT := of_string "GoGcCount".
(** const.go:7 *)
Definition K_GC_PAUSE := of_string "GoGcPause".
(** const.go:8 *)
Definition K_HEAP_USED := of_string "GoHeapUsed".
(** const.go:10 *)
Definition K_TPS := of_string "GoTPS".
(** const.go:11 *)
Definition K_ELAPSED := of_string "GoElapsedTime".
(** const.go:12 *)
Definition K_ERROR_RATE := of_string "GoErrorRate".
(** const.go:13 *)
Definition K_ACTIVE := of_string "GoActiveService".
(** const.go:14 *)
Definition K_SPEED := of_string "ActiveSpeed".

(** PerfCounterPack.Put of floats: the float64 conversion of perfcounterpack.go:58-59 is done here
    on the number, so that the [f32] argument of [perfpack_put] is not used. *)
Definition put_f32 (k : gostring) (x : spec_float) := perfpack_put (fun z => z) k (AFloat32 (f32_bits x)).
(** a Put of a float64 counter made a float32: perfcounterpack.go:46-69, countertask.go:38-91 *)
Definition put_f64 (k : gostring) (x : spec_float) := perfpack_put (fun z => z) k (AFloat32 (f32_bits (f32_of_f64 x))).
(** a Put of an int counter: perfcounterpack.go:46-69, countertask.go:38-91 *)
Definition put_int (k : gostring) (z : Z) := perfpack_put (fun z => z) k (AInt z).

(** countertask.go:49-53, collector.go:33-37 *)
Definition put_go (c : gocounter) (t : table) : table :=
  put_int K_HEAP_USED (gc_heap c)
    (put_f64 K_GC_PAUSE (gc_pause_per_sec c)
      (put_f64 K_GC_COUNT (gc_per_sec c)
        (put_int K_CGO_CALL (gc_cgocalls c)
          (put_int K_GOROUTINE (gc_goroutines c) t)))).

(** countertask.go:56-58, 83-85 *)
Definition put_service (sc : service_counter) (t : table) : table :=
  put_f32 K_ERROR_RATE (sc_error_rate sc) (put_int K_ELAPSED (sc_elapsed sc) (put_f32 K_TPS (sc_tps sc) t)).

(** collector.go:52-54 *)
Definition put_service_collector (sc : service_counter) (t : table) : table :=
  put_f32 K_ERROR_RATE (sc_tps sc) (put_int K_ELAPSED (sc_elapsed sc) (put_f32 K_TPS (sc_error_rate sc) t)).

(** countertask.go:38-74 getAllCounterOnPack: the Data table of the pack and the new state; [act]
    is the result of GetActiveCount, [now] the clock in seconds *)
Record ct_state := { ct_prev : gocounter; ct_service : metering sbucket; ct_active : metering vbucket }.
(** countertask.go:38-74 getAllCounterOnPack *)
Definition all_counters (now : Z) (r : rtstats) (act : Z * Z * Z) (s : ct_state) : option (table * ct_state) :=
  let '(a0, a1, a2) := act in
  let c := get_gocounter (ct_prev s) r in
  match service_counters now 30 (ct_service s) with
  | Some (sc, ms) =>
      let active_sum := int64 (a0 + a1 + a2) in
      match value_add now (f64_of_int active_sum) (ct_active s) with
      | Some mv =>
          match value_counters now 30 mv with
          | Some (vm, mv') =>
              let speed := list_add_int64 a2 (list_add_int64 a1 (list_add_int64 a0 [])) in
              Some (perfpack_put (fun z => z) K_SPEED (AValue (VList speed))
                      (put_f64 K_ACTIVE (vm_avg vm) (put_service sc (put_go c []))),
                    {| ct_prev := c; ct_service := ms; ct_active := mv' |})
          | None => None
          end
      | None => None
      end
  | None => None
  end.

(** countertask.go:76-91 getAll5MinCounterOnPack *)
Definition five_min_counters (now : Z) (s : ct_state) : option (table * ct_state) :=
  match service_counters now 300 (ct_service s) with
  | Some (sc, ms) =>
      match value_counters now 300 (ct_active s) with
      | Some (vm, mv) =>
          Some (put_f64 K_ACTIVE (vm_avg vm) (put_service sc []),
                {| ct_prev := ct_prev s; ct_service := ms; ct_active := mv |})
      | None => None
      end
  | None => None
  end.

(** collector.go:42-57 SendServiceCounter: the Data table of the pack *)
Definition collector_service_pack (now : Z) (m : metering sbucket) : option (table * metering sbucket) :=
  match service_counters now 30 m with
  | Some (sc, m') => Some (put_service_collector sc [], m')
  | None => None
  end.
