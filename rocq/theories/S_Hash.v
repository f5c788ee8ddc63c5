(** Specification: CRC-32 (IEEE 802.3, reflected), bit by bit, as in RFC 1952 section 8.
    Registers are unsigned 32-bit numbers. *)
From Verif Require Import GoInt.

Definition crc_poly : Z := 3988292384. (* 0xEDB88320 *)

Definition crc_bit (r : Z) : Z :=
  if Z.odd r then Z.lxor (Z.shiftr r 1) crc_poly else Z.shiftr r 1.
Definition crc_byte (r b : Z) : Z := Nat.iter 8 crc_bit (Z.lxor r b).
Definition crc32 (bs : bytes) : Z := Z.lxor (fold_left crc_byte bs 4294967295) 4294967295.

(** reinterpretation of an unsigned 32-bit number as signed *)
Definition as_int32 (u : Z) : Z := if u <? 2147483648 then u else u - 4294967296.
