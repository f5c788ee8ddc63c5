(** Specification vocabulary for the util functions. *)
From Verif Require Import GoInt.

(** value of a digit character in a base up to 36 *)
Definition char_digit (c : Z) : option Z :=
  if (48 <=? c) && (c <=? 57) then Some (c - 48)
  else if (97 <=? c) && (c <=? 122) then Some (c - 87) else None.
Fixpoint parse_digits (base acc : Z) (s : gostring) : option Z :=
  match s with
  | [] => Some acc
  | c :: s' => match char_digit c with
               | Some d => if d <? base then parse_digits base (acc * base + d) s' else None
               | None => None
               end
  end.
(** a signed number in the given base, as Java's Long.parseLong *)
Definition parse_number (base : Z) (s : gostring) : option Z :=
  match s with
  | [] => None
  | c :: s' => if c =? 45 then match s' with [] => None | _ => option_map Z.opp (parse_digits base 0 s') end
               else parse_digits base 0 s
  end.
(** the collector's decoding of transaction id strings (Java Hexa32.toLong32): x.. is a number,
    z.. the (64-bit) negation of a number *)
Definition decode_xlog_string32 (s : gostring) : option Z :=
  match s with
  | [] => None
  | c :: s' => if c =? 120 then parse_number 32 s'
               else if c =? 122 then option_map (fun n => int64 (- n)) (parse_number 32 s') else None
  end.

(** decimal text of a non-negative number without leading zeros *)
Definition decimal_text (n : Z) (s : gostring) : Prop :=
  s <> [] /\ parse_digits 10 0 s = Some n /\ (forall s', s = 48 :: s' -> s' = []).

(** an octet of a dotted quad: decimal digits with a value of at most 255 *)
Definition octet (s : gostring) (v : Z) : Prop :=
  s <> [] /\ Forall (fun c => 48 <= c <= 57) s /\ parse_digits 10 0 s = Some v /\ v <= 255.
Definition dotted_quad (ip : gostring) (v1 v2 v3 v4 : Z) : Prop :=
  exists a b c d, octet a v1 /\ octet b v2 /\ octet c v3 /\ octet d v4 /\
    ip = a ++ [46] ++ b ++ [46] ++ c ++ [46] ++ d.
