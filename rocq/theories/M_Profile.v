(** Models scouterx/netio/profilecollector.go and SendProfile/sendProfile0 of scouterx/netio/dataproxy.go.

    Steps are heap objects that the caller keeps a pointer to (a method step is filled in again when the method
    ends), so the collector's buffer holds pointers: a pointer is the number of the step in creation order.
    checkDumpStep is empty (profilecollector.go:67-85) and omitted. *)
From Verif Require Import GoInt M_OutX M_Steps M_Packs.

(** what a call reads from the configuration, the trace context and the clock.
    [e_keep]: ProfileStepMaxKeepInMemoryCount, [e_bulk]: ProfileStepMaxCount; [e_elapsed]: milliseconds since the
    start (one reading per call: the packs of one SendProfile call get the same value; Elapsed is not written
    to the wire anyway, xlogprofilepack.go:22-29) *)
Record penv := mkEnv { e_keep : Z; e_bulk : Z; e_txid : Z; e_obj : Z; e_service : Z; e_elapsed : Z }.

(** step.go:54-60 SetIndex, SetParent *)
Definition set_links (parent index : Z) (st : step) : step :=
  let s' := mk_single parent index (ss_StartTime (step_single st)) in
  match st with
  | SMethod _ h e c => SMethod s' h e c
  | SApiCall _ t h e c er o a => SApiCall s' t h e c er o a
  | SDump _ st ti tn ts li ln lo => SDump s' st ti tn ts li ln lo
  | SHashed _ h t v => SHashed s' h t v
  | SMessage _ m => SMessage s' m
  | SPMessage _ h e l p => SPMessage s' h e l p
  | SAsync _ t h e => SAsync s' t h e
  end.
(** step.go:62-64 GetParent *)
Definition get_parent (st : step) : Z := ss_Parent (step_single st).
(** step.go:39-47 *)
Definition get_index (st : step) : Z := ss_Index (step_single st).

(** the step objects created so far; the first [pos] elements of the slice [steps] and its length; currentLevel,
    parentLevel; ProfileCount and ProfileSize of the trace context; profile packs sent, oldest first; profilecollector.go:10-24 *)
Record prof := mkProf {
  p_heap : list step;
  p_len : Z;
  p_buf : list nat;
  p_cur : Z;
  p_par : Z;
  p_count : Z;
  p_size : Z;
  p_sent : list profile_pack }.

(** profilecollector.go:19-24; [None]: make with a negative length panics *)
Definition new_prof (keep : Z) : option prof := if keep <? 0 then None else Some (mkProf [] keep [] 0 0 0 0 []).

(** Go slice expression l[a:b], 0 <= a <= b <= len(l); profilecollector.go:48-65 *)
Definition slice {A} (a b : Z) (l : list A) : list A := firstn (Z.to_nat (b - a)) (skipn (Z.to_nat a) l).

(** dataproxy.go:225-227 *)
Fixpoint bulk_loop {A} (bulk : Z) (l : list A) (i : Z) (n : nat) : list (list A) :=
  match n with
  | O => []
  | S m => slice (i * bulk) (i * bulk + bulk) l :: bulk_loop bulk l (i + 1) m
  end.

(** dataproxy.go:214-231 SendProfile: the slices passed to sendProfile0; [None]: division by zero panics *)
Definition send_groups {A} (bulk : Z) (l : list A) : option (list (list A)) :=
  match l with
  | [] => Some []
  | _ =>
      if bulk =? 0 then None
      else
        let count := Z.quot (zlen l) bulk in
        if count =? 0 then Some [l]
        else
          let remainder := Z.rem (zlen l) bulk in
          Some (bulk_loop bulk l 0 (Z.to_nat count) ++
                (if 0 <? remainder then [slice (count * bulk) (count * bulk + remainder) l] else []))
  end.

(** the step a pointer points to; profilecollector.go:34-38 *)
Definition deref (heap : list step) (a : nat) : option step := nth_error heap a.

(** dataproxy.go:233-248 sendProfile0 *)
Definition send_profile0 (e : penv) (g : list nat) (p : prof) : prof :=
  match g with
  | [] => p
  | _ =>
      let data := steps_to_bytes (map (deref (p_heap p)) g) in
      mkProf (p_heap p) (p_len p) (p_buf p) (p_cur p) (p_par p)
             (p_count p + zlen g) (p_size p + zlen data)
             (p_sent p ++ [mk_profile_pack 0 (e_obj e) (e_service e) (e_txid e) data (int32 (e_elapsed e))])
  end.

(** dataproxy.go:214-231 *)
Definition send_profile (e : penv) (l : list nat) (p : prof) : option prof :=
  match send_groups (e_bulk e) l with
  | None => None
  | Some gs => Some (fold_left (fun p g => send_profile0 e g p) gs p)
  end.

(** profilecollector.go:48-58 Process; [None]: index out of range, or make with a negative length *)
Definition process (e : penv) (a : nat) (p : prof) : option prof :=
  if p_len p <=? zlen (p_buf p) then None
  else
    let o := p_buf p ++ [a] in
    if p_len p <=? zlen o then
      if e_keep e <? 0 then None
      else send_profile e o (mkProf (p_heap p) (e_keep e) [] (p_cur p) (p_par p) (p_count p) (p_size p) (p_sent p))
    else Some (mkProf (p_heap p) (p_len p) o (p_cur p) (p_par p) (p_count p) (p_size p) (p_sent p)).

(** profilecollector.go:26-32 Push of a newly created step *)
Definition push (st : step) (p : prof) : prof :=
  mkProf (p_heap p ++ [set_links (p_par p) (p_cur p) st]) (p_len p) (p_buf p)
         (int32 (p_cur p + 1)) (p_cur p) (p_count p) (p_size p) (p_sent p).

(** profilecollector.go:40-46 Add of a newly created step *)
Definition add (e : penv) (st : step) (p : prof) : option prof :=
  process e (length (p_heap p))
    (mkProf (p_heap p ++ [set_links (p_par p) (p_cur p) st]) (p_len p) (p_buf p)
            (int32 (p_cur p + 1)) (p_par p) (p_count p) (p_size p) (p_sent p)).

(** step.go:54-60: assignment to the fields of the step a pointer points to *)
Fixpoint heap_set (heap : list step) (a : nat) (st : step) : list step :=
  match heap, a with
  | [], _ => []
  | _ :: heap', O => st :: heap'
  | x :: heap', S a' => x :: heap_set heap' a' st
  end.

(** The caller fills in the step object [a] (tracemain.go:496, 593-601: [st] is the step with its final fields;
    its index and parent are not touched) and calls Pop (profilecollector.go:34-38). A pointer that was never
    given to Push is outside the model: nothing happens. *)
Definition pop (e : penv) (a : nat) (st : step) (p : prof) : option prof :=
  match deref (p_heap p) a with
  | None => Some p
  | Some old =>
      process e a (mkProf (heap_set (p_heap p) a (set_links (get_parent old) (get_index old) st))
                          (p_len p) (p_buf p) (p_cur p) (get_parent old) (p_count p) (p_size p) (p_sent p))
  end.

(** profilecollector.go:60-65 Close *)
Definition close (e : penv) (ok : bool) (p : prof) : option prof :=
  match p_buf p with
  | [] => Some p
  | l => if ok then send_profile e l p else Some p
  end.

(** sequences of calls; profilecollector.go:26-65 *)
Inductive prof_op := OPush (st : step) | OPop (a : nat) (st : step) | OAdd (st : step).
(** one call of profilecollector.go:26-65 *)
Definition pr_step (eo : penv * prof_op) (p : prof) : option prof :=
  match snd eo with
  | OPush st => Some (push st p)
  | OPop a st => pop (fst eo) a st p
  | OAdd st => add (fst eo) st p
  end.
(** calls of profilecollector.go:26-65 one after the other *)
Fixpoint pr_run (ops : list (penv * prof_op)) (p : prof) : option prof :=
  match ops with
  | [] => Some p
  | o :: ops' => match pr_step o p with Some p' => pr_run ops' p' | None => None end
  end.
