(** Specification: the numbers of a pseudo-random generator, one after the other. *)
From Verif Require Import GoInt M_Key.
Fixpoint gen_after (G : generator) (n : nat) (st : gen_state G) : gen_state G := match n with O => st | S m => gen_after G m (snd (gen_next G st)) end.
(** the [n]-th number after seeding with [seed] *)
Definition draw (G : generator) (seed : Z) (n : nat) : Z := fst (gen_next G (gen_after G n (gen_seed G seed))).
(** the second a time (in nanoseconds) lies in *)
Definition in_second (now : Z) : Z := now / 1000000000.
(** what math/rand promises of Int63: a non-negative 63-bit number *)
Definition int63 (G : generator) : Prop := forall st, 0 <= fst (gen_next G st) < 2 ^ 63.
(** the first [n] numbers are different *)
Definition unrepeated (G : generator) (seed : Z) (n : nat) : Prop := forall i j, (i < n)%nat -> (j < n)%nat -> draw G seed i = draw G seed j -> i = j.

(** [drawn G seed qcap max n qs ps s]: a history of the sender (as in S_Net) in which the keys of fragments are not assumed to differ but are numbers of the generator, in the
    order of drawing: up to now at most [n] numbers were drawn in the process, by the sender or by anybody else. A step of the sender goroutine sends at most one pack
    that has to be cut. *)
From Verif Require Import M_Packs M_Net S_Net.
Definition made_now (s s' : netsys) : list bytes := skipn (length (x_made s)) (x_made s').
Inductive drawn (G : generator) (seed qcap max : Z) : nat -> list pack -> list pack -> netsys -> Prop :=
| dr_start conn : drawn G seed qcap max 0 [] [] (net0 conn)
| dr_queue n qs ps p s : drawn G seed qcap max n qs ps s -> proper max p -> drawn G seed qcap max n (qs ++ [p]) ps (net_add_pack qcap p s)
| dr_direct n i n' qs ps p s s' : drawn G seed qcap max n qs ps s -> proper max p -> (n <= i)%nat -> (n <= n')%nat -> net_direct max (draw G seed i) p s = Some s' ->
    (keys_of (made_now s s') <> [] -> (i < n')%nat) -> drawn G seed qcap max n' qs (ps ++ [p]) s'
| dr_sender n (i : nat -> nat) n' qs ps s s' : drawn G seed qcap max n qs ps s -> (forall j, (n <= i j)%nat) -> (n <= n')%nat ->
    net_sender max (fun j => draw G seed (i j)) s = Some s' -> (keys_of (made_now s s') <> [] -> (i O < n')%nat) -> drawn G seed qcap max n' qs ps s'
| dr_write_sender n qs ps s : drawn G seed qcap max n qs ps s -> drawn G seed qcap max n qs ps (net_write_sender s)
| dr_write_job n qs ps i s : drawn G seed qcap max n qs ps s -> drawn G seed qcap max n qs ps (net_write_job i s)
| dr_reload n qs ps conn s : drawn G seed qcap max n qs ps s -> drawn G seed qcap max n qs ps (net_reload conn s)
| dr_close n qs ps c s : drawn G seed qcap max n qs ps s -> drawn G seed qcap max n qs ps (net_close c s).
