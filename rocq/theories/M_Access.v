(** Model of the typed accessors of MapValue, MapPack, PerfCounterPack, ListValue and
    ObjectPack.SetStatus (scouterx/common/netdata). *)
From Verif Require Import GoInt M_OutX M_Value M_Packs.

(** MapValue's and MapPack's table, map[string]Value: mapvalue.go:8-10, mappack.go:7-9 *)
Definition table := list (gostring * value).

(** The dynamic types of an interface{} argument that the Put type switches distinguish. mapvalue.go:65-79, mappack.go:67-91, perfcounterpack.go:46-69 *)
Inductive goany :=
| AString (s : gostring) | AInt (z : Z) | AInt32 (z : Z) | AInt64 (z : Z)
| AUint (z : Z) | AUint32 (z : Z) | AUint64 (z : Z) | ABool (b : bool)
| AFloat32 (bits : Z) | AFloat64 (bits : Z) | AValue (v : value) | AOther.

(** mapvalue.go:65-79 *)
Definition mapvalue_put (key : gostring) (any : goany) (t : table) : table :=
  match any with
  | AString s => put key (VText s) t
  | AInt64 z => put key (VDec z) t
  | ABool b => put key (VBool b) t
  | AFloat32 f => put key (VFloat f) t
  | AValue v => put key v t
  | _ => t
  end.

(** mappack.go:67-91 *)
Definition mappack_put (key : gostring) (any : goany) (t : table) : table :=
  match any with
  | AString s => put key (VText s) t
  | AInt32 z => put key (VDec z) t
  | AInt64 z => put key (VDec z) t
  | ABool b => put key (VBool b) t
  | AValue v => put key v t
  | AFloat32 f => put key (VFloat f) t
  | AUint32 z => put key (VDec z) t
  | AInt z => put key (VDec z) t
  | AUint z => put key (VDec (int64 z)) t
  | AUint64 z => put key (VDec (int64 z)) t
  | _ => t
  end.

(** perfcounterpack.go:46-69; [f32] is the float64 -> float32 conversion on bit patterns *)
Definition perfpack_put (f32 : Z -> Z) (key : gostring) (any : goany) (t : table) : table :=
  match any with
  | AInt32 z | AInt64 z | AUint32 z | AInt z => mapvalue_put key (AValue (VDec z)) t
  | AUint64 z => mapvalue_put key (AValue (VDec (int64 z))) t
  | AFloat32 f => mapvalue_put key (AValue (VFloat f)) t
  | AFloat64 f => mapvalue_put key (AValue (VFloat (f32 f))) t
  | AString s => mapvalue_put key (AValue (VText s)) t
  | ABool b => mapvalue_put key (AValue (VBool b)) t
  | other => mapvalue_put key other t
  end.

(** perfcounter_k8s_pack.go:70-89: no unsigned numbers and no default case *)
Definition k8spack_put (f32 : Z -> Z) (key : gostring) (any : goany) (t : table) : table :=
  match any with
  | AInt32 z | AInt64 z | AInt z => mapvalue_put key (AValue (VDec z)) t
  | AFloat32 f => mapvalue_put key (AValue (VFloat f)) t
  | AFloat64 f => mapvalue_put key (AValue (VFloat (f32 f))) t
  | AString s => mapvalue_put key (AValue (VText s)) t
  | ABool b => mapvalue_put key (AValue (VBool b)) t
  | _ => t
  end.

(** mapvalue.go:82-133 and mappack.go:94-145: a missing key gives a nil interface, whose type
    assertion fails *)
Definition get_string (key : gostring) (t : table) : gostring :=
  match get key t with Some (VText s) => s | _ => [] end.
(** mapvalue.go:91-97, mappack.go:103-109 GetBoolean *)
Definition get_boolean (key : gostring) (t : table) : bool :=
  match get key t with Some (VBool b) => b | _ => false end.
(** the common form of mapvalue.go:100-133, mappack.go:112-145 GetInt8, GetInt16, GetInt32, GetInt64 *)
Definition get_int (conv : Z -> Z) (key : gostring) (t : table) : Z :=
  match get key t with Some (VDec z) => conv z | _ => 0 end.
(** mapvalue.go:100-106, mappack.go:112-118 *)
Definition get_int8 := get_int int8.
(** mapvalue.go:109-115, mappack.go:121-127 *)
Definition get_int16 := get_int int16.
(** mapvalue.go:118-124, mappack.go:130-136 *)
Definition get_int32 := get_int int32.
(** mapvalue.go:127-133, mappack.go:139-145 *)
Definition get_int64 := get_int (fun z => z).
(** mapvalue.go:28-34, mappack.go:31-36 *)
Definition contains_key (key : gostring) (t : table) : bool :=
  match get key t with Some _ => true | None => false end.

(** objectpack.go:140-142: Tags.Put("status", status) with an int *)
Definition set_status (status : Z) (tags : table) : table := mapvalue_put (of_string "status") (AInt status) tags.

(** listvalue.go:38-71 *)
Definition list_add (v : value) (l : list value) : list value := l ++ [v].
(** listvalue.go:44-47 *)
Definition list_add_int64 (z : Z) := list_add (VDec z).
(** listvalue.go:50-53 *)
Definition list_add_int32 (z : Z) := list_add (VDec z).
(** listvalue.go:56-59 *)
Definition list_add_float (f : Z) := list_add (VFloat f).
(** listvalue.go:62-65 *)
Definition list_add_string (s : gostring) := list_add (VText s).
(** listvalue.go:68-71 *)
Definition list_add_boolean (b : bool) := list_add (VBool b).

(** listvalue.go:74-121; [None] is the index-out-of-range panic *)
Definition list_at (i : Z) (l : list value) : option value :=
  if (0 <=? i) && (i <? zlen l) then nth_error l (Z.to_nat i) else None.
(** listvalue.go:74-81 *)
Definition list_get_string (i : Z) (l : list value) : option gostring :=
  match list_at i l with Some (VText s) => Some s | Some _ => Some [] | None => None end.
(** listvalue.go:84-91 *)
Definition list_get_float (i : Z) (l : list value) : option Z :=
  match list_at i l with Some (VFloat f) => Some f | Some _ => Some 0 | None => None end.
(** listvalue.go:94-101 *)
Definition list_get_int32 (i : Z) (l : list value) : option Z :=
  match list_at i l with Some (VDec z) => Some (int32 z) | Some _ => Some 0 | None => None end.
(** listvalue.go:104-111 *)
Definition list_get_int64 (i : Z) (l : list value) : option Z :=
  match list_at i l with Some (VDec z) => Some z | Some _ => Some 0 | None => None end.
(** listvalue.go:114-121 *)
Definition list_get_boolean (i : Z) (l : list value) : option bool :=
  match list_at i l with Some (VBool b) => Some b | Some _ => Some false | None => None end.
