(** Model of the value types of scouterx/common/netdata and of WriteValue / ReadValue. *)
From Verif Require Import GoInt M_OutX M_InX.

(** The Value implementations: nilvalue.go, booleanvalue.go, decimalvalue.go, floatvalue.go
    (bit pattern), doublevalue.go (bit pattern), textvalue.go, texthashvalue.go, blobvalue.go,
    ip4value.go, listvalue.go, mapvalue.go.
    [VNil] stands both for *NilValue and for a nil interface (dataoutputx.go:151-153 replaces the
    latter by the former).  A Go map is an association list without duplicate keys; the order of
    the list is the order in which the runtime iterates the map. *)
Inductive value : Type :=
| VNil
| VBool (b : bool)
| VDec (z : Z)
| VFloat (bits : Z)
| VDouble (bits : Z)
| VText (s : gostring)
| VTextHash (z : Z)
| VBlob (b : bytes)
| VIp4 (b : bytes)
| VList (vs : list value)
| VMap (kvs : list (gostring * value)).

(** scouterx/common/constants/valueconstant/valueconstants.go:3-21 *)
Definition NULL := 0.
(** valueconstants.go:5 *)
Definition BOOLEAN := 10.
(** valueconstants.go:6 *)
Definition DECIMAL := 20.
(** valueconstants.go:7 *)
Definition FLOAT := 30.
(** valueconstants.go:8 *)
Definition DOUBLE := 40.
(** valueconstants.go:11 *)
Definition TEXT := 50.
(** valueconstants.go:12 *)
Definition TEXT_HASH := 51.
(** valueconstants.go:13 *)
Definition BLOB := 60.
(** valueconstants.go:14 *)
Definition IP4ADDR := 61.
(** valueconstants.go:15 *)
Definition LIST := 70.
(** valueconstants.go:20 *)
Definition MAP := 80.

(** the GetValueType methods of the value types; e.g. nilvalue.go:29-31, booleanvalue.go:37-39, decimalvalue.go:41-43, listvalue.go:150-152, mapvalue.go:60-62 *)
Definition value_type (v : value) : Z :=
  match v with
  | VNil => NULL | VBool _ => BOOLEAN | VDec _ => DECIMAL | VFloat _ => FLOAT | VDouble _ => DOUBLE
  | VText _ => TEXT | VTextHash _ => TEXT_HASH | VBlob _ => BLOB | VIp4 _ => IP4ADDR
  | VList _ => LIST | VMap _ => MAP
  end.

(** dataoutputx.go:150-157 WriteValue, with the Write methods inlined: nilvalue.go:24,
    booleanvalue.go:47, decimalvalue.go:35, floatvalue.go:35, doublevalue.go:33, textvalue.go:34,
    texthashvalue.go:35, blobvalue.go:34, ip4value.go:35, listvalue.go:129-136, mapvalue.go:49-57 *)
Fixpoint write_value (v : value) (o : dout) {struct v} : dout :=
  let o := write_uint8 (value_type v) o in
  match v with
  | VNil => o
  | VBool b => write_boolean b o
  | VDec z => write_decimal z o
  | VFloat f => write_float32 f o
  | VDouble f => write_float64 f o
  | VText s => write_string s o
  | VTextHash h => write_int32 h o
  | VBlob b => write_blob b o
  | VIp4 b => write_raw b o
  | VList vs =>
      (fix go (l : list value) (o : dout) : dout :=
         match l with [] => o | x :: l' => go l' (write_value x o) end) vs (write_decimal (zlen vs) o)
  | VMap kvs =>
      (fix go (l : list (gostring * value)) (o : dout) : dout :=
         match l with [] => o | (k, x) :: l' => go l' (write_value x (write_string k o)) end)
        kvs (write_decimal (zlen kvs) o)
  end.

(** Writing a map assignment m[k] = v on the association list. as in mapvalue.go:37-47, 65-79 *)
Fixpoint put {A} (k : gostring) (v : A) (m : list (gostring * A)) : list (gostring * A) :=
  match m with
  | [] => [(k, v)]
  | (k', v') :: m' => if beqb k k' then (k, v) :: m' else (k', v') :: put k v m'
  end.

(** m[k]; as in mapvalue.go:82-133 *)
Fixpoint get {A} (k : gostring) (m : list (gostring * A)) : option A :=
  match m with
  | [] => None
  | (k', v') :: m' => if beqb k k' then Some v' else get k m'
  end.

(** the loops  for i := 0; i < size; i++ { x, err = rd() }  of listvalue.go:141-145 and
    mapvalue.go:39-45; only the error of the last iteration survives *)
Fixpoint read_times {A} (rd : reader -> res A) (n : nat) (acc : list A) (e : option err) (r : reader)
  : res (list A) :=
  match n with
  | O => Ret (rev acc) e r
  | S n' => bind (rd r) (fun a e r => read_times rd n' (a :: acc) e r)
  end.

(** datainputx.go:156-165 ReadValue with valuecreator.go:8-35 CreateValue and the Read methods
    (IP4ADDR creates a BlobValue, valuecreator.go:26-27).  The error of ReadInt8 is overwritten.
    Recursion depth is bounded by fuel; L_Value.v shows that the input length + 1 is enough. *)
Fixpoint read_value_fuel (fuel : nat) (r : reader) : res value :=
  match fuel with
  | O => NoFuel
  | S f =>
      bind (read_int8 r) (fun t _ r =>
        let ty := uint8 t in
        if ty =? NULL then Ret VNil None r
        else if ty =? BOOLEAN then bind (read_boolean r) (fun b e r => Ret (VBool b) e r)
        else if ty =? DECIMAL then bind (read_decimal r) (fun z e r => Ret (VDec z) e r)
        else if ty =? FLOAT then bind (read_float32 r) (fun z e r => Ret (VFloat z) e r)
        else if ty =? DOUBLE then bind (read_float64 r) (fun z e r => Ret (VDouble z) e r)
        else if ty =? TEXT then bind (read_string r) (fun s e r => Ret (VText s) e r)
        else if ty =? TEXT_HASH then bind (read_int32 r) (fun z e r => Ret (VTextHash z) e r)
        else if ty =? BLOB then bind (read_blob r) (fun b e r => Ret (VBlob b) e r)
        else if ty =? IP4ADDR then bind (read_blob r) (fun b e r => Ret (VBlob b) e r)
        else if ty =? LIST then
          bind (read_decimal r) (fun size e r =>
            bind (read_times (read_value_fuel f) (Z.to_nat size) [] e r) (fun vs e r => Ret (VList vs) e r))
        else if ty =? MAP then
          bind (read_decimal r) (fun size e r =>
            bind (read_times
                    (fun r => bind (read_string r) (fun k _ r =>
                              bind (read_value_fuel f r) (fun v e r => Ret (k, v) e r)))
                    (Z.to_nat size) [] e r)
              (fun kvs e r => Ret (VMap (fold_left (fun m kv => put (fst kv) (snd kv) m) kvs [])) e r))
        else Ret VNil (Some (BadType ty)) r)
  end.

(** ReadValue on a reader. datainputx.go:156-165, valuecreator.go:8-35 *)
Definition read_value (r : reader) : res value := read_value_fuel (S (length (concat r))) r.
