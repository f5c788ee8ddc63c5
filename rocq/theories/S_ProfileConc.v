(** Specification for C83: goroutines sharing a trace context. *)
From Verif Require Import GoInt M_ProfileConc.

(** the steps a goroutine records: those it adds, and those whose end it reports *)
Definition recorded (prog : list pop_call) : list nat := flat_map (fun o => match o with OAdd s | OPop s => [s] | OPush _ | OClose => [] end) prog.
Definition all_recorded (progs : list (list pop_call)) : list nat := flat_map recorded progs.

(** inside a call *)
Definition busy (t : pc * list pop_call) : bool := match fst t with Out => false | _ => true end.
Definition idle (y : psys) : Prop := forall t, In t (y_thr y) -> busy t = false.
(** no two calls overlap anywhere in the schedule *)
Definition one_at_a_time (keep bulk : nat) (progs : list (list pop_call)) (sched : list nat) : Prop :=
  forall p r, sched = p ++ r -> (length (filter busy (y_thr (sys_run keep bulk p (psys0 keep progs)))) <= 1)%nat.

(** the steps waiting in the buffer: those that Close sends *)
Definition waiting (c : coll) : list nat := flat_map (fun o => match o with Some s => [s] | None => [] end) (firstn (c_pos c) (arr (c_steps c) c)).
(** the calls still to be made *)
Definition unmade (y : psys) : list nat := flat_map (fun t => recorded (snd t)) (y_thr y).
(** all goroutines have finished their calls *)
Definition finished (y : psys) : Prop := forall t, In t (y_thr y) -> t = (Out, []).

(** the steps a goroutine starts: those it adds and those it pushes; their indices are the numbers the collector gives them *)
Definition started (prog : list pop_call) : list nat := flat_map (fun o => match o with OAdd s | OPush s => [s] | OPop _ | OClose => [] end) prog.
Definition all_started (progs : list (list pop_call)) : list nat := flat_map started progs.
Definition index_of (c : coll) (s : nat) : Z := fst (c_links c s).

(** recording without concurrency: the next index, the parent given to the next step, and each step's index and parent *)
Record levels := mkLevels { v_next : Z; v_parent : Z; v_links : nat -> Z * Z }.
Definition number (s : nat) (v : levels) : nat -> Z * Z := fun x => if Nat.eqb x s then (v_next v, v_parent v) else v_links v x.
(** a step takes the next index under the current parent; a pushed step becomes the parent of what follows; its end brings its own parent back *)
Definition record_one (v : levels) (o : pop_call) : levels :=
  match o with
  | OAdd s => mkLevels (v_next v + 1) (v_parent v) (number s v)
  | OPush s => mkLevels (v_next v + 1) (v_next v) (number s v)
  | OPop s => mkLevels (v_next v) (snd (v_links v s)) (v_links v)
  | OClose => v
  end.
Definition record_all (h : list pop_call) : levels := fold_left record_one h (mkLevels 0 0 (fun _ => (0, 0))).
(** [h] lists the calls of all goroutines in an order that keeps each goroutine's own order *)
Inductive merged : list (list pop_call) -> list pop_call -> Prop :=
| merged_done progs : (forall p, In p progs -> p = []) -> merged progs []
| merged_one l1 o p l2 h : merged (l1 ++ p :: l2) h -> merged (l1 ++ (o :: p) :: l2) (o :: h).
