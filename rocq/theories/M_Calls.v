(** Sequences of calls of the public DataOutputX methods (dataoutputx.go). *)
From Verif Require Import GoInt M_OutX M_Value M_Packs M_Steps.

(** the public methods of dataoutputx.go:33-245 *)
Inductive wcall :=
| CInt8 (z : Z) | CUInt8 (z : Z) | CInt16 (z : Z) | CInt32 (z : Z) | CInt64 (z : Z) | CUInt64 (z : Z)
| CFloat32 (z : Z) | CFloat64 (z : Z) | CDecimal (z : Z) | CDecimal32 (z : Z) | CBoolean (b : bool)
| CString (s : gostring) | CBlob (b : bytes) | CIntBytes (b : bytes) | CRaw (b : bytes)
| CInt32Array (l : list Z) | CValue (v : value) | CPack (p : pack) | CStep (s : step).

(** dataoutputx.go:33-245 *)
Definition call (c : wcall) : dout -> dout :=
  match c with
  | CInt8 z => write_int8 z | CUInt8 z => write_uint8 z | CInt16 z => write_int16 z | CInt32 z => write_int32 z
  | CInt64 z => write_int64 z | CUInt64 z => write_uint64 z | CFloat32 z => write_float32 z | CFloat64 z => write_float64 z
  | CDecimal z => write_decimal z | CDecimal32 z => write_decimal32 z | CBoolean b => write_boolean b
  | CString s => write_string s | CBlob b => write_blob b | CIntBytes b => write_int_bytes b | CRaw b => write_raw b
  | CInt32Array l => write_int32_array l | CValue v => write_value v | CPack p => write_pack p | CStep s => write_step s
  end.

(** calls of dataoutputx.go:33-245 one after the other *)
Definition calls (cs : list wcall) (o : dout) : dout := fold_left (fun o c => call c o) cs o.
