(** What the counters of a window should be, independent of the ring of buckets. *)
From Coq Require Import Floats.SpecFloat.
From Verif Require Import GoInt.

(** A history: what was added, and the clock reading (in seconds) when it was. *)
Notation history A := (list (Z * A)) (only parsing).

(** The additions of the last [p] seconds at clock reading [cur], the current second included. *)
Definition window {A} (cur p : Z) (h : history A) : list A :=
  map snd (filter (fun e => (cur - p <? fst e) && (fst e <=? cur)) h).

(** The additions of one second. *)
Definition second {A} (t : Z) (h : history A) : list A :=
  map snd (filter (fun e => fst e =? t) h).

(** Clock readings never go back, starting from [t]. *)
Fixpoint ticking {A} (t : Z) (h : list (Z * A)) : Prop :=
  match h with
  | [] => True
  | (t', _) :: h' => t <= t' /\ ticking t' h'
  end.

(** The last clock reading. *)
Fixpoint last_time {A} (t : Z) (h : list (Z * A)) : Z :=
  match h with
  | [] => t
  | (t', _) :: h' => last_time t' h'
  end.

(** One ended service: its elapsed time and whether it failed. *)
Notation sample := (Z * bool)%type (only parsing).
(** A negative elapsed time (clock step during the service) counts as 0. *)
Definition sum_elapsed (l : list sample) : Z := fold_right (fun x a => Z.max 0 (fst x) + a) 0 l.
Definition n_errors (l : list sample) : Z := zlen (filter snd l).

(** The number a 32-bit pattern stands for (IEEE 754 binary32): sign, exponent, fraction. *)
Definition ieee32 (w : Z) : spec_float :=
  let s := 2 ^ 31 <=? w in let e := (w / 2 ^ 23) mod 2 ^ 8 in let f := w mod 2 ^ 23 in
  let number (m : Z) (q : Z) := match m with Zpos p => S754_finite s p q | _ => S754_zero s end in
  if e =? 255 then (if f =? 0 then S754_infinity s else S754_nan)
  else if e =? 0 then number f (-149) else number (f + 2 ^ 23) (e - 150).
