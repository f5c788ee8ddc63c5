(** Model of the id generator (scouterx/common/util/keygen/keygen.go): one pseudo-random source for the whole process, behind a mutex. *)
From Verif Require Import GoInt.

(** The random source, *rand.Rand of Go's math/rand with its source (keygen.go:15-18,25). The library is not part of the repository: it is taken to be a deterministic machine,
    [gen_seed] being rand.NewSource and [gen_next] Int63, which gives a value and the next state. *)
Record generator := mkGen { gen_state : Type; gen_seed : Z -> gen_state; gen_next : gen_state -> Z * gen_state }.

(** One caller of Next (keygen.go:32-37), which has [n] more calls to make: it wants the lock; has the lock; has called Int63 but not yet stored the state of the
    source; has stored it and is about to unlock and return. Int63 is not atomic: it reads and writes the state of the source (math/rand documents that a
    Source is not safe for concurrent use). *)
Inductive kphase (G : generator) := KWant (n : nat) | KLocked (n : nat) | KDrawn (n : nat) (v : Z) (st : gen_state G) | KLeave (n : nat) (v : Z).
Arguments KWant {G}. Arguments KLocked {G}. Arguments KDrawn {G}. Arguments KLeave {G}.
(** The process: state of the source, mutex, callers, and the keys returned, with the caller each went to, oldest first. keygen.go:9-18 and the callers of 32-37 *)
Record keys (G : generator) := mkKeys { k_src : gen_state G; k_mutex : bool; k_callers : list (kphase G); k_out : list (nat * Z) }.
Arguments mkKeys {G}. Arguments k_src {G}. Arguments k_mutex {G}. Arguments k_callers {G}. Arguments k_out {G}.

(** getInstance (keygen.go:20-29) at time [now], in nanoseconds since 1970: the seed is the number of whole seconds (time.Now().Unix()). *)
Definition unix_seconds (now : Z) : Z := now / 1000000000.
(** keygen.go:21-29, 39-41: the seeded source, with the callers waiting *)
Definition key_init (G : generator) (now : Z) (calls : list nat) : keys G := mkKeys (gen_seed G (unix_seconds now)) false (map KWant calls) [].

(** the position of one caller in keygen.go:32-37 *)
Definition caller_set {G} (l : list (kphase G)) (i : nat) (x : kphase G) : list (kphase G) := firstn i l ++ x :: skipn (S i) l.
(** One step of caller [i] in Next (keygen.go:32-37): Lock (33), Int63 (34, two steps), Unlock and return (35-36). A caller that cannot go on stays. *)
Definition key_step {G} (i : nat) (s : keys G) : keys G :=
  match nth_error (k_callers s) i with
  | Some (KWant (S n)) => if k_mutex s then s else mkKeys (k_src s) true (caller_set (k_callers s) i (KLocked n)) (k_out s)
  | Some (KLocked n) => let '(v, st) := gen_next G (k_src s) in mkKeys (k_src s) (k_mutex s) (caller_set (k_callers s) i (KDrawn n v st)) (k_out s)
  | Some (KDrawn n v st) => mkKeys st (k_mutex s) (caller_set (k_callers s) i (KLeave n v)) (k_out s)
  | Some (KLeave n v) => mkKeys (k_src s) false (caller_set (k_callers s) i (KWant n)) (k_out s ++ [(i, v)])
  | _ => s
  end.
(** callers in keygen.go:32-37, in the order of the schedule *)
Definition key_run {G} (sched : list nat) (s : keys G) : keys G := fold_left (fun s i => key_step i s) sched s.
