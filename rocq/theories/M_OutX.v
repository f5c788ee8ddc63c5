(** Model of scouterx/common/netdata/dataoutputx.go for an in-memory writer
    (NewDataOutputX(nil), lines 17-31: a bytes.Buffer, whose Write never fails).
    The returned error values are therefore always nil and are not modelled;
    WriteValue / WritePack / WriteStep live in M_Value.v, M_Packs.v and M_Steps.v. *)
From Verif Require Import GoInt.

(** dataoutputx.go:11-15.  [written] is an int32 counter, [buf] the buffer contents. *)
Record dout := mkdout { written : Z; buf : bytes }.

(** dataoutputx.go:18-31 *)
Definition new_dout : dout := {| written := 0; buf := [] |}.

(** out.written += n; append the bytes. the end of dataoutputx.go:47-109, 216-220 *)
Definition emit (n : Z) (bs : bytes) (o : dout) : dout :=
  {| written := int32 (written o + n); buf := buf o ++ bs |}.

(** dataoutputx.go:84-88; [value] is an int8, written as its single two's-complement byte *)
Definition write_int8 (v : Z) (o : dout) : dout := emit 1 (be 1 v) o.
(** dataoutputx.go:91-95 *)
Definition write_uint8 (v : Z) (o : dout) : dout := emit 1 (be 1 v) o.
(** dataoutputx.go:57-64 *)
Definition write_int16 (v : Z) (o : dout) : dout := emit 2 (be 2 v) o.
(** dataoutputx.go:47-54 *)
Definition write_int32 (v : Z) (o : dout) : dout := emit 4 (be 4 v) o.
(** dataoutputx.go:67-74 *)
Definition write_int64 (v : Z) (o : dout) : dout := emit 8 (be 8 v) o.
(** dataoutputx.go:77-81 *)
Definition write_uint64 (v : Z) (o : dout) : dout := emit 8 (be 8 v) o.
(** dataoutputx.go:98-102; a float32 is represented by its IEEE-754 bit pattern
    (binary.Write emits math.Float32bits) *)
Definition write_float32 (bits : Z) (o : dout) : dout := emit 4 (be 4 bits) o.
(** dataoutputx.go:105-109 *)
Definition write_float64 (bits : Z) (o : dout) : dout := emit 8 (be 8 bits) o.

(** dataoutputx.go:216-220 *)
Definition write_raw (v : bytes) (o : dout) : dout := emit (int32 (zlen v)) v o.

(** dataoutputx.go:112-130 *)
Definition write_decimal (v : Z) (o : dout) : dout :=
  if v =? 0 then write_int8 0 o
  else if (-128 <=? v) && (v <=? 127) then write_int8 (int8 v) (write_int8 1 o)
  else if (-32768 <=? v) && (v <=? 32767) then write_int16 (int16 v) (write_int8 2 o)
  else if (-2147483648 <=? v) && (v <=? 2147483647) then write_int32 (int32 v) (write_int8 4 o)
  else if (-9223372036854775808 <=? v) && (v <=? 9223372036854775807) then write_int64 v (write_int8 8 o)
  else o.

(** dataoutputx.go:132-147 *)
Definition write_decimal32 (v : Z) (o : dout) : dout :=
  if v =? 0 then write_int8 0 o
  else if (-128 <=? v) && (v <=? 127) then write_int8 (int8 v) (write_int8 1 o)
  else if (-32768 <=? v) && (v <=? 32767) then write_int16 (int16 v) (write_int8 2 o)
  else if (-2147483648 <=? v) && (v <=? 2147483647) then write_int32 (int32 v) (write_int8 4 o)
  else o.

(** dataoutputx.go:194-214 *)
Definition write_blob (v : bytes) (o : dout) : dout :=
  let n := zlen v in
  if n =? 0 then write_uint8 0 o
  else if n <=? 253 then write_raw v (write_uint8 (uint8 n) o)
  else if n <=? 65535 then write_raw v (write_int16 (int16 n) (write_uint8 255 o))
  else write_raw v (write_int32 (int32 n) (write_uint8 254 o)).

(** dataoutputx.go:179, the literal "huge string omitted..." *)
Definition huge_text : gostring := of_string "huge string omitted...".

(** dataoutputx.go:173-184 *)
Definition write_string (s : gostring) (o : dout) : dout :=
  let n := zlen s in
  if n =? 0 then write_int8 0 o
  else if n >? 100000 then write_blob huge_text o
  else write_blob s o.

(** dataoutputx.go:186-191 *)
Definition write_int_bytes (v : bytes) (o : dout) : dout :=
  write_raw v (write_int32 (int32 (zlen v)) o).

(** dataoutputx.go:237-245 *)
Definition write_boolean (b : bool) (o : dout) : dout :=
  if b then write_int8 1 o else write_int8 0 o.

(** dataoutputx.go:33-44; a nil slice and an empty one both write a zero length *)
Definition write_int32_array (vs : list Z) (o : dout) : dout :=
  fold_left (fun o v => write_int32 v o) vs (write_int16 (int16 (zlen vs)) o).

(** dataoutputx.go:248-255 *)
Definition get_write_size (o : dout) : Z := written o.

(** A straight-line sequence of writer calls  out.WriteA(..); out.WriteB(..); ... as in the Write methods, e.g. textpack.go:22-27 *)
Definition wseq (ws : list (dout -> dout)) (o : dout) : dout := fold_left (fun o w => w o) ws o.
