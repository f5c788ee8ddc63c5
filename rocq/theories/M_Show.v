(** Model of the ToString methods of values and packs (scouterx/common/netdata) and of the String methods of the containers. *)
From Verif Require Import GoInt M_Util M_OutX M_Value M_Packs.

(** strconv.FormatFloat(x, 'f', 3, 64) for x = m * 2^e, m >= 0: the exact decimal expansion rounded half to even to three places (strconv/decimal.go Round and
    shouldRoundUp; at most 767 significant digits, so the 800 digit buffer is exact). floatvalue.go:46-48, doublevalue.go:44-46 *)
Definition thousandths (m e : Z) : Z :=
  if 0 <=? e then 1000 * m * 2 ^ e
  else let d := 2 ^ (- e) in
       let q := (1000 * m) / d in let r := (1000 * m) mod d in
       if 2 * r <? d then q else if d <? 2 * r then q + 1 else if Z.even q then q else q + 1.
(** the three digits after the point; floatvalue.go:46-48, doublevalue.go:44-46 *)
Definition three_digits (k : Z) : gostring := [48 + k / 100; 48 + k / 10 mod 10; 48 + k mod 10].
(** the text of a number given in thousandths: floatvalue.go:46-48, doublevalue.go:44-46 *)
Definition show_fixed (neg : bool) (n : Z) : gostring :=
  (if neg then [45] else []) ++ format_int 10 (n / 1000) ++ [46] ++ three_digits (n mod 1000).
(** The same for a bit pattern with [ew] exponent and [fw] fraction bits (float64: 11 and 52; float32, which is first converted to float64 exactly: 8 and 23). floatvalue.go:46-48, doublevalue.go:44-46 *)
Definition show_float (ew fw bits : Z) : gostring :=
  let neg := (bits / 2 ^ (ew + fw)) mod 2 =? 1 in
  let ex := (bits / 2 ^ fw) mod 2 ^ ew in
  let fr := bits mod 2 ^ fw in
  if ex =? 2 ^ ew - 1 then
    if fr =? 0 then (if neg then of_string "-Inf" else of_string "+Inf") else of_string "NaN"
  else let m := if ex =? 0 then fr else fr + 2 ^ fw in
       let e := (if ex =? 0 then 1 else ex) - (2 ^ (ew - 1) - 1) - fw in
       show_fixed neg (thousandths m e).

(** strconv.FormatBool; booleanvalue.go:53-58 *)
Definition show_flag (b : bool) : gostring := if b then of_string "true" else of_string "false".

(** nilvalue.go:34, booleanvalue.go:53-58, decimalvalue.go:46-49, floatvalue.go:46-48, doublevalue.go:44-46, textvalue.go:44-46, texthashvalue.go:46-49,
    blobvalue.go:45-48, ip4value.go:46-49, listvalue.go:155-165, mapvalue.go:136-142. A nil interface in a list is shown as "nil" (listvalue.go:158-159), as is a
    *NilValue; a nil interface cannot get into a map: Put ignores it and ReadValue returns a *NilValue. *)
Fixpoint show_value (v : value) : gostring :=
  match v with
  | VNil => of_string "nil"
  | VBool b => if b then of_string "true" else of_string "fasle"
  | VDec z => format_int 10 z
  | VFloat f => show_float 8 23 f
  | VDouble f => show_float 11 52 f
  | VText s => s
  | VTextHash z => format_int 10 z
  | VBlob b => of_string "byte[" ++ format_int 10 (zlen b) ++ of_string "]"
  | VIp4 b => of_string "ip[" ++ b ++ of_string "]"
  | VList vs =>
      (fix go (l : list value) (i : Z) (str : gostring) : gostring :=
         match l with [] => str | x :: l' => go l' (i + 1) (str ++ format_int 10 i ++ of_string ": " ++ show_value x ++ of_string " ") end)
        vs 0 (of_string "list value ")
  | VMap kvs =>
      (fix go (l : list (gostring * value)) (str : gostring) : gostring :=
         match l with [] => str | (k, x) :: l' => go l' (str ++ of_string "key:" ++ k ++ of_string " value:" ++ show_value x ++ [10]) end)
        kvs (of_string "map value " ++ [10])
  end.

(** mappack.go:148-154, textpack.go:34-40, perfcounterpack.go:72-75, perfcounter_k8s_pack.go:92-95, objectpack.go:129-138 and 115-126, alertpack.go:46-52,
    xlogpack.go:159-168, xlogprofilepack.go:36-41 *)
Definition show_pack (p : pack) : gostring :=
  match p with
  | PMap m => show_value (VMap m)
  | PText p => tp_Xtype p ++ of_string " hash: " ++ format_int 10 (tp_Hash p) ++ of_string " text: " ++ tp_Text p
  | PPerf p => show_value (VMap (pc_Data p))
  | PK8s p => show_value (VMap (k8_Data p))
  | PObject p => of_string "object name: " ++ ob_ObjName p ++ of_string " type: " ++ ob_ObjType p ++ of_string " hash: " ++ format_int 10 (ob_ObjHash p) ++
      of_string " version: " ++ ob_Version p ++ of_string " alive: " ++ show_flag (ob_Alive p) ++ of_string " tags: " ++ show_value (VMap (ob_Tags p))
  | PObject2 p => of_string "object siteID: " ++ o2_SiteID p ++ of_string " name: " ++ o2_ObjName p ++ of_string " type: " ++ o2_ObjType p ++
      of_string " hash: " ++ format_int 10 (o2_ObjHash p) ++ of_string " version: " ++ o2_Version p ++ of_string " alive: " ++ show_flag (o2_Alive p) ++
      of_string " familly: " ++ format_int 10 (o2_Family p) ++ of_string " tags: " ++ show_value (VMap (o2_Tags p))
  | PAlert p => of_string "AlertPack:" ++ of_string " title: " ++ al_Title p ++ of_string " message: " ++ al_Message p
  | PXlog p => of_string "XLOG: " ++ of_string " objHash: " ++ format_int 10 (xl_ObjHash p) ++ of_string " service: " ++ format_int 10 (xl_Service p) ++
      of_string " txid: " ++ format_int 10 (xl_Txid p) ++ of_string " elapsed: " ++ format_int 10 (xl_Elapsed p) ++ of_string " error: " ++ format_int 10 (xl_Error p)
  | PProfile p => of_string "Profile: " ++ of_string " objHash: " ++ format_int 10 (pp_ObjHash p)
  end.
