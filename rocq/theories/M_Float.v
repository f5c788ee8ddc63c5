(** Go's float32 and float64 arithmetic (Go spec: IEEE 754 binary32 / binary64, round to nearest
    even), as the executable specification of IEEE arithmetic of Coq's standard library
    (Coq.Floats.SpecFloat).  NaN payloads are not modelled: every NaN is the canonical one. *)
From Coq Require Import Floats.SpecFloat.
From Verif Require Import GoInt.

(** Go conversion float32(z), float64(z) of an integer; gocounter.go:26-50, countertask.go:38-91, serviceMetering.go:61-87, valueMetering.go:37-65 *)
Definition f32_of_int (z : Z) : spec_float := binary_normalize 24 128 z 0 false.
(** Go conversion float64(z) of an integer: gocounter.go:26-50, valueMetering.go:37-65 *)
Definition f64_of_int (z : Z) : spec_float := binary_normalize 53 1024 z 0 false.

(** float32 division: countertask.go:38-91, serviceMetering.go:61-87 *)
Definition f32_div : spec_float -> spec_float -> spec_float := SFdiv 24 128.
(** float32 multiplication: serviceMetering.go:61-87 *)
Definition f32_mul : spec_float -> spec_float -> spec_float := SFmul 24 128.
(** float64 division: gocounter.go:26-50, valueMetering.go:45-65 *)
Definition f64_div : spec_float -> spec_float -> spec_float := SFdiv 53 1024.
(** float64 multiplication: gocounter.go:26-50 *)
Definition f64_mul : spec_float -> spec_float -> spec_float := SFmul 53 1024.
(** float64 addition: valueMetering.go:37-65 *)
Definition f64_add : spec_float -> spec_float -> spec_float := SFadd 53 1024.

(** Go conversion float32(x) of a float64; countertask.go:38-91 *)
Definition f32_of_f64 (x : spec_float) : spec_float :=
  match x with
  | S754_finite s m e => binary_round 24 128 s m e
  | other => other
  end.

(** math.Float32bits; dataoutputx.go:98-102 *)
Definition f32_bits (x : spec_float) : Z :=
  let sgn (s : bool) := if s then 2 ^ 31 else 0 in
  match x with
  | S754_zero s => sgn s
  | S754_infinity s => sgn s + 255 * 2 ^ 23
  | S754_nan => 2143289344
  | S754_finite s m e =>
      if 2 ^ 23 <=? Zpos m then sgn s + (e + 150) * 2 ^ 23 + (Zpos m - 2 ^ 23) else sgn s + Zpos m
  end.
