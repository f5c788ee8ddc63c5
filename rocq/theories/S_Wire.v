(** Specification: an independent collector-side parser for the scouter wire format.

    It follows the published Java DataInputX (scouter.common scouter.io.DataInputX): readDecimal,
    readBlob with an unsigned two-byte length, readValue.  Nothing here refers to the agent's
    writer or reader; parsers consume plain byte strings and fail ([None]) on short input. *)
From Verif Require Import GoInt M_Value.

Definition parser (A : Type) := bytes -> option (A * bytes).

Definition pret {A} (a : A) : parser A := fun bs => Some (a, bs).
Definition pbind {A B} (p : parser A) (f : A -> parser B) : parser B :=
  fun bs => match p bs with Some (a, bs') => f a bs' | None => None end.
Definition pfail {A} : parser A := fun _ => None.
Notation "x <- p ;; q" := (pbind p (fun x => q)) (at level 61, p at next level, right associativity).

(** exactly [n] bytes *)
Definition p_take (n : Z) : parser bytes := fun bs =>
  if (0 <=? n) && (n <=? zlen bs) then Some (firstn (Z.to_nat n) bs, skipn (Z.to_nat n) bs) else None.

(** big-endian number, base 256, most significant byte first *)
Fixpoint p_be (n : nat) (acc : Z) : parser Z :=
  match n with
  | O => pret acc
  | S m => fun bs => match bs with b :: bs' => p_be m (acc * 256 + b) bs' | [] => None end
  end.

Definition p_u8 : parser Z := p_be 1 0.
Definition p_u16 : parser Z := p_be 2 0.
Definition p_u32 : parser Z := p_be 4 0.
Definition p_u64 : parser Z := p_be 8 0.
(** two's complement *)
Definition signed (bits : Z) (z : Z) : Z := if z <? 2 ^ (bits - 1) then z else z - 2 ^ bits.
Definition p_i8 : parser Z := x <- p_u8 ;; pret (signed 8 x).
Definition p_i16 : parser Z := x <- p_u16 ;; pret (signed 16 x).
Definition p_i32 : parser Z := x <- p_u32 ;; pret (signed 32 x).
Definition p_i64 : parser Z := x <- p_u64 ;; pret (signed 64 x).
Definition p_bool : parser bool := x <- p_u8 ;; pret (negb (x =? 0)).

(** readDecimal *)
Definition p_decimal : parser Z :=
  n <- p_u8 ;;
  if n =? 0 then pret 0
  else if n =? 1 then p_i8
  else if n =? 2 then p_i16
  else if n =? 4 then p_i32
  else if n =? 8 then p_i64
  else pfail.

(** readBlob / readText *)
Definition p_blob : parser bytes :=
  n <- p_u8 ;;
  if n =? 255 then (k <- p_u16 ;; p_take k)
  else if n =? 254 then (k <- p_i32 ;; p_take k)
  else p_take n.
Definition p_text : parser gostring := p_blob.

(** [n] items one after the other *)
Fixpoint p_many {A} (p : parser A) (n : nat) : parser (list A) :=
  match n with
  | O => pret []
  | S m => x <- p ;; xs <- p_many p m ;; pret (x :: xs)
  end.

(** readValue; nesting depth bounded by [fuel] *)
Fixpoint p_value (fuel : nat) : parser value :=
  match fuel with
  | O => pfail
  | S f =>
      t <- p_u8 ;;
      if t =? 0 then pret VNil
      else if t =? 10 then (b <- p_bool ;; pret (VBool b))
      else if t =? 20 then (z <- p_decimal ;; pret (VDec z))
      else if t =? 30 then (z <- p_u32 ;; pret (VFloat z))
      else if t =? 40 then (z <- p_u64 ;; pret (VDouble z))
      else if t =? 50 then (s <- p_text ;; pret (VText s))
      else if t =? 51 then (z <- p_i32 ;; pret (VTextHash z))
      else if t =? 60 then (b <- p_blob ;; pret (VBlob b))
      else if t =? 61 then (b <- p_take 4 ;; pret (VIp4 b))
      else if t =? 70 then
        (n <- p_decimal ;; vs <- p_many (p_value f) (Z.to_nat n) ;; pret (VList vs))
      else if t =? 80 then
        (n <- p_decimal ;;
         kvs <- p_many (k <- p_text ;; v <- p_value f ;; pret (k, v)) (Z.to_nat n) ;; pret (VMap kvs))
      else pfail
  end.

(** The text a collector sees for a string given to the agent: strings of more than 100000 bytes
    are replaced by a fixed placeholder. *)
Definition on_wire (s : gostring) : gostring :=
  if 100000 <? zlen s then of_string "huge string omitted..." else s.
