(** Model of scouterx/common/netdata/datainputx.go.

    The underlying io.Reader is a list of segments: each call of Read returns bytes of the
    first non-empty segment only (a TCP connection delivers whatever has arrived; a
    bytes.Buffer, NewDataInputX([]byte) lines 18-29, is the one-segment reader [[bs]]).
    The private field [offset] (line 13) is write-only in the package and not modelled. *)
From Verif Require Import GoInt.

(** datainputx.go:12-15: what the reader will still give, in the pieces it will give it in *)
Definition reader := list bytes.

(** NewDataInputX([]byte): bytes.NewBuffer; datainputx.go:18-29 *)
Definition buffer (bs : bytes) : reader := [bs].

(** the errors that datainputx.go:34-198 returns *)
Inductive err := EOF | UnexpectedEOF | BadType (t : Z).

(** Result of a reading function: a value, the returned error and the remaining reader,
    or a run-time panic.  [NoFuel] only arises from the fuel of [read_value_fuel] (M_Value.v). datainputx.go:34-198 *)
Inductive res (A : Type) : Type :=
| Ret (a : A) (e : option err) (r : reader)
| Panic
| NoFuel.
Arguments Ret {A}. Arguments Panic {A}. Arguments NoFuel {A}.

(** io.Reader.Read(p) with len(p) = n, for bytes.Buffer and net.Conn: a zero-length read
    succeeds, an exhausted reader returns io.EOF, otherwise at least one byte and at most
    the current segment is returned. called in datainputx.go:167-187 *)
Fixpoint rd_read (n : Z) (r : reader) : bytes * option err * reader :=
  match r with
  | [] => if n =? 0 then ([], None, []) else ([], Some EOF, [])
  | s :: rest =>
      if n =? 0 then ([], None, s :: rest)
      else match s with
           | [] => rd_read n rest
           | _ => (firstn (Z.to_nat n) s, None, skipn (Z.to_nat n) s :: rest)
           end
  end.

(** drop [n] bytes across segments; datainputx.go:167-187 *)
Fixpoint rd_drop (n : nat) (r : reader) : reader :=
  match r with
  | [] => []
  | s :: rest => if (n <=? length s)%nat then skipn n s :: rest else rd_drop (n - length s) rest
  end.

(** io.ReadFull, as used by binary.Read: loops over Read until n bytes are there. On failure the
    available bytes have been consumed; io.EOF if there were none, io.ErrUnexpectedEOF otherwise. called in datainputx.go:34-85 *)
Definition read_full (n : nat) (r : reader) : option bytes * option err * reader :=
  let all := concat r in
  if (n <=? length all)%nat then (Some (firstn n all), None, rd_drop n r)
  else match all with
       | [] => (None, Some EOF, [])
       | _ => (None, Some UnexpectedEOF, [])
       end.

(** binary.Read(in.reader, binary.BigEndian, &value): on error the variable keeps its zero value; datainputx.go:34-85 *)
Definition read_fixed (n : nat) (conv : Z -> Z) (r : reader) : res Z :=
  match read_full n r with
  | (Some bs, e, r') => Ret (conv (unbe bs)) e r'
  | (None, e, r') => Ret 0 e r'
  end.

(** datainputx.go:34-39 *)
Definition read_int8 : reader -> res Z := read_fixed 1 int8.
(** datainputx.go:40-45 *)
Definition read_uint8 : reader -> res Z := read_fixed 1 (fun z => z).
(** datainputx.go:49-54 *)
Definition read_int16 : reader -> res Z := read_fixed 2 int16.
(** datainputx.go:57-62 *)
Definition read_int32 : reader -> res Z := read_fixed 4 int32.
(** datainputx.go:65-70 *)
Definition read_int64 : reader -> res Z := read_fixed 8 int64.
(** datainputx.go:73-78, float32 as its bit pattern *)
Definition read_float32 : reader -> res Z := read_fixed 4 (fun z => z).
(** datainputx.go:80-85 *)
Definition read_float64 : reader -> res Z := read_fixed 8 (fun z => z).

(** the sequence of two reading calls, as in datainputx.go:88-198 *)
Definition bind {A B} (m : res A) (f : A -> option err -> reader -> res B) : res B :=
  match m with Ret a e r => f a e r | Panic => Panic | NoFuel => NoFuel end.

(** datainputx.go:109-115 and 179-187: val := make([]byte, length) panics for a negative length;
    a single Read fills a prefix, the rest of val stays zero; on error val is emptied. *)
Definition read_n (n : Z) (r : reader) : res bytes :=
  if n <? 0 then Panic
  else match rd_read n r with
       | (bs, None, r') => Ret (bs ++ repeat 0 (Z.to_nat n - length bs)) None r'
       | (_, Some e, r') => Ret [] (Some e) r'
       end.

(** datainputx.go:94-116 *)
Definition read_blob (r : reader) : res bytes :=
  bind (read_uint8 r) (fun baselen e r =>
    if baselen =? 255 then bind (read_int16 r) (fun v _ r => read_n v r)
    else if baselen =? 254 then bind (read_int32 r) (fun v _ r => read_n v r)
    else if baselen =? 0 then Ret [] e r
    else read_n baselen r).

(** datainputx.go:88-92 *)
Definition read_string (r : reader) : res gostring := read_blob r.

(** datainputx.go:119-143 *)
Definition read_decimal (r : reader) : res Z :=
  bind (read_uint8 r) (fun len e r =>
    if len =? 0 then Ret 0 e r
    else if len =? 1 then read_int8 r
    else if len =? 2 then read_int16 r
    else if len =? 4 then read_int32 r
    else if len =? 8 then read_int64 r
    else Ret 0 e r).

(** datainputx.go:146-153 *)
Definition read_boolean (r : reader) : res bool :=
  bind (read_int8 r) (fun v e r => Ret (negb (v =? 0)) e r).

(** datainputx.go:179-187 *)
Definition read_bytes (n : Z) (r : reader) : res bytes := read_n n r.

(** datainputx.go:167-177: the error of ReadInt32 is overwritten *)
Definition read_int_bytes (r : reader) : res bytes :=
  bind (read_int32 r) (fun len _ r => read_bytes len r).
