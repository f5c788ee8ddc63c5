(** Goroutines that use the service meter at the same time: serviceMetering.go:49-87, metering.go:42-64, 82-91.
    Add holds the meter's mutex throughout; getPosition holds the ring's mutex, so it is one step here;
    GetAllCounter takes no lock while it reads the buckets. Every access to a field of a bucket is one atomic
    step, and the steps of the goroutines interleave arbitrarily (sequential consistency; Go promises less to
    racing code). *)
From Verif Require Import GoInt M_Meter.

(** where a goroutine is inside Add or GetAllCounter: serviceMetering.go:49-87 *)
Inductive mthread :=
| AWait (elapsed : Z) (err : bool)             (* about to call Add *)
| AIn (t pos elapsed : Z) (err : bool) (k : nat) (* in Add, holding the mutex: [pos] is the bucket, [k] of its three
                                                  fields are updated; [t], the clock reading, is not program state *)
| ADone (elapsed : Z) (err : bool)             (* Add returned *)
| RWait (period : Z)                            (* about to call GetAllCounter *)
| RIn (period pos : Z) (n k : nat) (acc : sbucket) (* reading: [n] buckets left, [k] fields of the current one read *)
| RDone (period : Z) (acc : sbucket).          (* the sums it returns its counters from *)

(** [c_log]: the calls of Add in the order they got the mutex, with their clock readings (not program state); serviceMetering.go:12-15 with its callers *)
Record mconc := mkMC { c_meter : metering sbucket; c_locked : bool; c_threads : list mthread; c_log : list (Z * (Z * bool)) }.

(** the position of one goroutine in serviceMetering.go:49-87 *)
Definition thread_set (l : list mthread) (i : nat) (t : mthread) : list mthread :=
  firstn i l ++ t :: skipn (S i) l.

(** serviceMetering.go:52 *)
Definition clamp (e : Z) : Z := if e <? 0 then 0 else e.
(** serviceMetering.go:54-58, the update of the field number [k]: count, elapsed, error *)
Definition field_add (k : nat) (elapsed : Z) (err : bool) (b : sbucket) : sbucket :=
  match k with
  | 0%nat => {| sb_count := int64 (sb_count b + 1); sb_elapsed := sb_elapsed b; sb_error := sb_error b |}
  | 1%nat => {| sb_count := sb_count b; sb_elapsed := int64 (sb_elapsed b + clamp elapsed); sb_error := sb_error b |}
  | _ => {| sb_count := sb_count b; sb_elapsed := sb_elapsed b; sb_error := if err then int64 (sb_error b + 1) else sb_error b |}
  end.
(** serviceMetering.go:68-70, the reading of the field number [k] *)
Definition field_read (k : nat) (b acc : sbucket) : sbucket :=
  match k with
  | 0%nat => {| sb_count := int64 (sb_count acc + sb_count b); sb_elapsed := sb_elapsed acc; sb_error := sb_error acc |}
  | 1%nat => {| sb_count := sb_count acc; sb_elapsed := int64 (sb_elapsed acc + sb_elapsed b); sb_error := sb_error acc |}
  | _ => {| sb_count := sb_count acc; sb_elapsed := sb_elapsed acc; sb_error := int64 (sb_error acc + sb_error b) |}
  end.

(** the next step of goroutine [i], the clock showing [cur]; no step when it waits for the mutex or has returned.
    An index panic (it cannot happen) would leave the state as it is. serviceMetering.go:49-87 *)
Definition mstep (cur : Z) (i : nat) (s : mconc) : mconc :=
  let m := c_meter s in
  let go t := thread_set (c_threads s) i t in
  match nth_error (c_threads s) i with
  | Some (AWait e r) =>
      if c_locked s then s
      else match get_position sbucket0 cur m with
           | Some (pos, m') => mkMC m' true (go (AIn cur pos e r 0)) (c_log s ++ [(cur, (e, r))])
           | None => s
           end
  | Some (AIn t pos e r k) =>
      if (k <? 3)%nat then
        match tab_get (m_table m) pos with
        | Some b =>
            match tab_set (m_table m) pos (field_add k e r b) with
            | Some tb => mkMC {| m_time := m_time m; m_pos := m_pos m; m_table := tb |} (c_locked s) (go (AIn t pos e r (S k))) (c_log s)
            | None => s
            end
        | None => s
        end
      else mkMC m false (go (ADone e r)) (c_log s)
  | Some (RWait p) =>
      match get_position sbucket0 cur m with
      | Some (pos, m') => mkMC m' (c_locked s) (go (RIn (check_period p) pos (Z.to_nat (check_period p)) 0 sbucket0)) (c_log s)
      | None => s
      end
  | Some (RIn p pos n k acc) =>
      match n with
      | O => mkMC m (c_locked s) (go (RDone p acc)) (c_log s)
      | S n' =>
          match tab_get (m_table m) pos with
          | Some b =>
              let acc' := field_read k b acc in
              mkMC m (c_locked s) (go (if (k <? 2)%nat then RIn p pos n (S k) acc' else RIn p (step_back pos) n' 0 acc')) (c_log s)
          | None => s
          end
      end
  | Some (ADone _ _) | Some (RDone _ _) | None => s
  end.

(** a schedule: which goroutine moves, and what the clock shows; serviceMetering.go:49-87 *)
Fixpoint mrun (sched : list (Z * nat)) (s : mconc) : mconc :=
  match sched with [] => s | (cur, i) :: sched' => mrun sched' (mstep cur i s) end.

(** a new meter, and goroutines about to call Add or GetAllCounter; serviceMetering.go:49-87 *)
Definition waiting (t : mthread) : Prop := match t with AWait _ _ | RWait _ => True | _ => False end.
(** serviceMetering.go:29-46 *)
Definition minit (now : Z) (ts : list mthread) : mconc := mkMC (new_metering sbucket0 now) false ts [].
