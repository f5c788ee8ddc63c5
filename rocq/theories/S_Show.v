(** Specification for C98: the texts of values and packs. *)
From Verif Require Import GoInt M_Value M_Packs S_Util S_Value S_Alert.
From Coq Require Import Permutation.

(** a number with a sign, written with exactly three digits after the point *)
Definition point_text (negative : bool) (n : Z) (t : gostring) : Prop :=
  exists a d1 d2 d3 k, decimal_text k a /\ Forall (fun c => 48 <= c <= 57) [d1; d2; d3] /\
    n = 1000 * k + 100 * (d1 - 48) + 10 * (d2 - 48) + (d3 - 48) /\ t = (if negative then [45] else []) ++ a ++ [46; d1; d2; d3].
(** [n] thousandths are the number of thousandths nearest to the fraction [num]/[den]; of two equally near the even one *)
Definition nearest (num den n : Z) : Prop :=
  0 < den /\ forall k, Z.abs (1000 * num - n * den) <= Z.abs (1000 * num - k * den) /\ (k <> n -> Z.abs (1000 * num - n * den) = Z.abs (1000 * num - k * den) -> Z.Even n).
(** IEEE 754 layout: the pattern of the sign, the exponent field and the fraction field *)
Definition layout (ew fw : Z) (negative : bool) (ex fr bits : Z) : Prop :=
  0 <= ex < 2 ^ ew /\ 0 <= fr < 2 ^ fw /\ bits = (if negative then 2 ^ (ew + fw) else 0) + ex * 2 ^ fw + fr.
(** the number of a finite pattern as a fraction: subnormal and normal *)
Definition fraction (ew fw ex fr num den : Z) : Prop :=
  0 < den /\ let bias := 2 ^ (ew - 1) - 1 in
  if ex =? 0 then num * 2 ^ (bias - 1 + fw) = fr * den else num * 2 ^ (bias + fw) = (fr + 2 ^ fw) * 2 ^ ex * den.
Definition float_text (ew fw bits : Z) (t : gostring) : Prop :=
  exists negative ex fr, layout ew fw negative ex fr bits /\
    (ex <> 2 ^ ew - 1 /\ (exists num den, fraction ew fw ex fr num den) /\ (forall num den, fraction ew fw ex fr num den -> exists n, nearest num den n /\ point_text negative n t)
     \/ ex = 2 ^ ew - 1 /\ fr = 0 /\ t = (if negative then of_string "-Inf" else of_string "+Inf")
     \/ ex = 2 ^ ew - 1 /\ fr <> 0 /\ t = of_string "NaN").

(** the text of a value: every element of a list with its index in order, every entry of a map once in some order, a line each *)
Inductive prints : value -> gostring -> Prop :=
| prints_nil : prints VNil (of_string "nil")
| prints_true : prints (VBool true) (of_string "true")
| prints_false : prints (VBool false) (of_string "fasle")
| prints_dec z t : shows z t -> prints (VDec z) t
| prints_hash z t : shows z t -> prints (VTextHash z) t
| prints_float f t : float_text 8 23 f t -> prints (VFloat f) t
| prints_double f t : float_text 11 52 f t -> prints (VDouble f) t
| prints_text s : prints (VText s) s
| prints_blob b t : shows (zlen b) t -> prints (VBlob b) (of_string "byte[" ++ t ++ of_string "]")
| prints_ip b : prints (VIp4 b) (of_string "ip[" ++ b ++ of_string "]")
| prints_list vs ts : Forall2 prints vs ts ->
    forall cells, length cells = length ts ->
    (forall i t, nth_error ts i = Some t -> exists d, shows (Z.of_nat i) d /\ nth_error cells i = Some (d ++ of_string ": " ++ t ++ of_string " ")) ->
    prints (VList vs) (of_string "list value " ++ concat cells)
| prints_map kvs kvs' lines : Permutation kvs kvs' ->
    Forall2 (fun kv line => exists t, prints (snd kv) t /\ line = of_string "key:" ++ fst kv ++ of_string " value:" ++ t ++ [10]) kvs' lines ->
    prints (VMap kvs) (of_string "map value " ++ [10] ++ concat lines).

(** fields shown with their names *)
Inductive field := Str (s : gostring) | Num (z : Z) | Flag (b : bool) | Tree (v : value).
Definition field_text (f : field) (t : gostring) : Prop :=
  match f with Str s => t = s | Num z => shows z t | Flag b => t = (if b then of_string "true" else of_string "false") | Tree v => prints v t end.
Definition fields_text (fs : list (gostring * field)) (t : gostring) : Prop :=
  exists ts, Forall2 (fun f x => exists y, field_text (snd f) y /\ x = fst f ++ y) fs ts /\ t = concat ts.
Definition pack_fields (p : pack) : list (gostring * field) :=
  match p with
  | PMap m => [(of_string "", Tree (VMap m))]
  | PPerf p => [(of_string "", Tree (VMap (pc_Data p)))]
  | PK8s p => [(of_string "", Tree (VMap (k8_Data p)))]
  | PText p => [(of_string "", Str (tp_Xtype p)); (of_string " hash: ", Num (tp_Hash p)); (of_string " text: ", Str (tp_Text p))]
  | PObject p => [(of_string "object name: ", Str (ob_ObjName p)); (of_string " type: ", Str (ob_ObjType p)); (of_string " hash: ", Num (ob_ObjHash p));
                  (of_string " version: ", Str (ob_Version p)); (of_string " alive: ", Flag (ob_Alive p)); (of_string " tags: ", Tree (VMap (ob_Tags p)))]
  | PObject2 p => [(of_string "object siteID: ", Str (o2_SiteID p)); (of_string " name: ", Str (o2_ObjName p)); (of_string " type: ", Str (o2_ObjType p));
                   (of_string " hash: ", Num (o2_ObjHash p)); (of_string " version: ", Str (o2_Version p)); (of_string " alive: ", Flag (o2_Alive p));
                   (of_string " familly: ", Num (o2_Family p)); (of_string " tags: ", Tree (VMap (o2_Tags p)))]
  | PAlert p => [(of_string "AlertPack: title: ", Str (al_Title p)); (of_string " message: ", Str (al_Message p))]
  | PXlog p => [(of_string "XLOG:  objHash: ", Num (xl_ObjHash p)); (of_string " service: ", Num (xl_Service p)); (of_string " txid: ", Num (xl_Txid p));
                (of_string " elapsed: ", Num (xl_Elapsed p)); (of_string " error: ", Num (xl_Error p))]
  | PProfile p => [(of_string "Profile:  objHash: ", Num (pp_ObjHash p))]
  end.
