(** Specification vocabulary for value trees: which Coq trees denote Go values, equality of Go
    values up to map iteration order, what a collector sees. *)
From Verif Require Import GoInt M_Value S_Wire.
From Coq Require Export Permutation.

Fixpoint nodupb (l : list bytes) : bool :=
  match l with [] => true | x :: l' => negb (existsb (beqb x) l') && nodupb l' end.

(** [v] is a value a Go program can hold: integers in range, float bit patterns in range, IPv4
    addresses of four bytes, map keys distinct, lengths below 2^31 bytes (2^63 elements). *)
Fixpoint go_value (v : value) : bool :=
  match v with
  | VNil | VBool _ => true
  | VDec z => (-9223372036854775808 <=? z) && (z <=? 9223372036854775807)
  | VFloat z => (0 <=? z) && (z <? 2 ^ 32)
  | VDouble z => (0 <=? z) && (z <? 2 ^ 64)
  | VText s => zlen s <=? 2147483647
  | VTextHash z => (-2147483648 <=? z) && (z <=? 2147483647)
  | VBlob b => zlen b <=? 2147483647
  | VIp4 b => zlen b =? 4
  | VList vs => (zlen vs <=? 9223372036854775807) && forallb go_value vs
  | VMap kvs => (zlen kvs <=? 9223372036854775807) && nodupb (map fst kvs)
                && forallb (fun kv => (zlen (fst kv) <=? 2147483647) && go_value (snd kv)) kvs
  end.

(** The trees the agent's own reader restores: no IPv4 value, no text or map key of more than
    100000 bytes, no text, key or blob of 32768 to 65535 bytes. *)
Definition len_readable (n : Z) : bool := (n <=? 32767) || (65536 <=? n).
Fixpoint agent_readable (v : value) : bool :=
  match v with
  | VNil | VBool _ | VDec _ | VFloat _ | VDouble _ | VTextHash _ => true
  | VText s => (zlen s <=? 100000) && len_readable (zlen s)
  | VBlob b => len_readable (zlen b)
  | VIp4 _ => false
  | VList vs => forallb agent_readable vs
  | VMap kvs => forallb (fun kv => (zlen (fst kv) <=? 100000) && len_readable (zlen (fst kv))
                                   && agent_readable (snd kv)) kvs
  end.

(** Equality of Go values: map entries may be listed in any order, at any depth. *)
Inductive same_value : value -> value -> Prop :=
| same_atom v : match v with VList _ | VMap _ => False | _ => True end -> same_value v v
| same_list l l' : Forall2 same_value l l' -> same_value (VList l) (VList l')
| same_map m p m' : Permutation m p ->
    Forall2 (fun a b => fst a = fst b /\ same_value (snd a) (snd b)) p m' ->
    same_value (VMap m) (VMap m').

(** What a collector is shown: over-long texts and keys replaced by the placeholder. *)
Fixpoint collector_view (v : value) : value :=
  match v with
  | VText s => VText (on_wire s)
  | VList vs => VList (map collector_view vs)
  | VMap kvs => VMap (map (fun kv => (on_wire (fst kv), collector_view (snd kv))) kvs)
  | _ => v
  end.
