(** Models scouterx/common/structure/{lra,cachemap,cacheset,cachemap2}.
    Keys are Go interface values compared with ==; every distinct comparable key is represented by a
    distinct number (keys that cannot be compared, and NaN, are outside the model). Values are
    [option Z]: [None] is a nil interface, [Some n] any other value. *)
From Verif Require Import GoInt.

Notation key := Z (only parsing).
Notation value := (option Z) (only parsing).

(** lra.go:9 itemExists = struct{}{} (any fixed non-nil value) *)
Definition item_exists : value := Some 0.

(* ------------------------------------------------------------------ *)
(** * Association lists standing for Go maps: first binding wins *)

(** map reads in lra.go:53-69, cachemap.go:70-88, cachemap2.go:90-103, cacheset.go:52-56 *)
Fixpoint alook {B} (k : key) (m : list (key * B)) : option B :=
  match m with
  | [] => None
  | (k', v) :: m' => if k =? k' then Some v else alook k m'
  end.

(** Go [delete(m, k)]; delete in lra.go:93-100, cachemap.go:47-68, cachemap2.go:68-88, cacheset.go:35-50 *)
Fixpoint adel {B} (k : key) (m : list (key * B)) : list (key * B) :=
  match m with
  | [] => []
  | (k', v) :: m' => if k =? k' then adel k m' else (k', v) :: adel k m'
  end.

(** Go [m[k] = v]; map writes in lra.go:38-50, cachemap.go:38-45, cachemap2.go:57-66, cacheset.go:26-33 *)
Definition aset {B} (k : key) (v : B) (m : list (key * B)) : list (key * B) := (k, v) :: adel k m.

(* ------------------------------------------------------------------ *)
(** * lra.Cache *)

(** lra.go:21-24 entry *)
Record entry := mkEntry { ekey : key; evalue : value }.

(** lra.go:11-17 Cache. [lst] is container/list front first; each element is a pair of its address
    (the *list.Element pointer) and the entry it points to. [table] maps keys to element addresses.
    [fresh] is the next unused address. The contents of an element that left the list are never
    read after removeElement returns, so they are not kept. *)
Record lra := mkLra { lmax : Z; lst : list (Z * entry); table : list (key * Z); fresh : Z }.

(** lra.go:26-32 New *)
Definition lra_new (maxEntries : Z) : lra := mkLra maxEntries [] [] 0.

(** container/list element access by pointer: the entry at an address; as used in lra.go:38-60,121-136 *)
Fixpoint elem_at (a : Z) (l : list (Z * entry)) : option entry :=
  match l with
  | [] => None
  | (a', e) :: l' => if a =? a' then Some e else elem_at a l'
  end.

(** ee.Value.( *entry).value = v, lra.go:42 *)
Fixpoint set_elem (a : Z) (v : value) (l : list (Z * entry)) : list (Z * entry) :=
  match l with
  | [] => []
  | (a', e) :: l' => if a =? a' then (a', mkEntry (ekey e) v) :: l' else (a', e) :: set_elem a v l'
  end.

(** container/list List.Remove; as used in lra.go:93-100 *)
Fixpoint rm_elem (a : Z) (l : list (Z * entry)) : list (Z * entry) :=
  match l with
  | [] => []
  | (a', e) :: l' => if a =? a' then l' else (a', e) :: rm_elem a l'
  end.

(** container/list List.Back; as used in lra.go:86-91 *)
Fixpoint back {A} (l : list A) : option A :=
  match l with
  | [] => None
  | [x] => Some x
  | _ :: l' => back l'
  end.

(** lra.go:93-100 removeElement. The second component lists the (key, value) pairs OnEvicted is
    called with, when it is set. *)
Definition remove_element (c : lra) (a : Z) (e : entry) : lra * list (key * value) :=
  (mkLra (lmax c) (rm_elem a (lst c)) (adel (ekey e) (table c)) (fresh c), [(ekey e, evalue e)]).

(** lra.go:86-91 removeOldest *)
Definition remove_oldest (c : lra) : lra * list (key * value) :=
  match back (lst c) with
  | Some (a, e) => remove_element c a e
  | None => (c, [])
  end.

(** lra.go:38-50 Add *)
Definition lra_add (c : lra) (k : key) (v : value) : lra * list (key * value) :=
  match alook k (table c) with
  | Some a => (mkLra (lmax c) (set_elem a v (lst c)) (table c) (fresh c), [])
  | None =>
      let a := fresh c in
      let c1 := mkLra (lmax c) ((a, mkEntry k v) :: lst c) (aset k a (table c)) (fresh c + 1) in
      if negb (lmax c =? 0) && (lmax c <? zlen (lst c1)) then remove_oldest c1 else (c1, [])
  end.

(** lra.go:34-36 AddKey *)
Definition lra_add_key (c : lra) (k : key) := lra_add c k item_exists.

(** lra.go:53-60 Get (nil when absent) *)
Definition lra_get (c : lra) (k : key) : value :=
  match alook k (table c) with
  | Some a => match elem_at a (lst c) with Some e => evalue e | None => None end
  | None => None
  end.

(** lra.go:62-69 Contains *)
Definition lra_contains (c : lra) (k : key) : bool :=
  match alook k (table c) with Some _ => true | None => false end.

(** lra.go:102-106 Size *)
Definition lra_size (c : lra) : Z := zlen (lst c).

(** lra.go:71-75 Empty *)
Definition lra_empty (c : lra) : bool := lra_size c =? 0.

(** lra.go:78-84 Remove *)
Definition lra_remove (c : lra) (k : key) : lra * list (key * value) :=
  match alook k (table c) with
  | Some a => match elem_at a (lst c) with
              | Some e => remove_element c a e
              | None => (c, [])
              end
  | None => (c, [])
  end.

(** the loop bodies of lra.go:112-115: entries in map iteration order [it] *)
Fixpoint entries_of (c : lra) (it : list (key * Z)) : list (key * value) :=
  match it with
  | [] => []
  | (_, a) :: it' => match elem_at a (lst c) with
                     | Some e => (ekey e, evalue e) :: entries_of c it'
                     | None => entries_of c it'
                     end
  end.

(** lra.go:108-119 Clear; [it] is the order in which the range statement visits the table *)
Definition lra_clear (c : lra) (it : list (key * Z)) : lra * list (key * value) :=
  (mkLra (lmax c) [] [] (fresh c), entries_of c it).

(** lra.go:121-136 GetValues; the lock is released between items, here the call is one step (M_Values has the steps) *)
Definition non_nil (l : list value) : list value := filter (fun v => match v with Some _ => true | None => false end) l.
(** lra.go:121-136 GetValues, run without interruption *)
Definition lra_values (c : lra) (it : list (key * Z)) : list value := non_nil (map snd (entries_of c it)).

(* ------------------------------------------------------------------ *)
(** * cachemap.CacheMap over gods linkedhashmap v1.12.0, which is a map that iterates in insertion
    order: an association list, oldest first *)

(** cachemap.go:11-14 *)
Record cmap := mkCmap { cmax : Z; ctab : list (key * value) }.

(** cachemap.go:30-36 *)
Definition cmap_new (m : Z) : cmap := mkCmap m [].

(** linkedhashmap Put of a key that may be present: keeps its position; as used in cachemap2.go:57-66 *)
Fixpoint lput (k : key) (v : value) (m : list (key * value)) : list (key * value) :=
  match m with
  | [] => [(k, v)]
  | (k', v') :: m' => if k =? k' then (k', v) :: m' else (k', v') :: lput k v m'
  end.

(** cachemap.go:61-64: the first n keys of the iteration; [None] when the iterator runs past the end
    (Key() then dereferences a nil element) *)
Fixpoint take_keys (n : nat) (m : list (key * value)) : option (list key) :=
  match n, m with
  | O, _ => Some []
  | S _, [] => None
  | S n', (k, _) :: m' => match take_keys n' m' with Some l => Some (k :: l) | None => None end
  end.

(** cachemap.go:53-68 removeExceeded; the loop runs for i = removalCount down to 0 *)
Definition cmap_remove_exceeded (c : cmap) : option cmap :=
  let removalCount := zlen (ctab c) - cmax c in
  if removalCount <? 0 then Some c
  else match take_keys (Z.to_nat (removalCount + 1)) (ctab c) with
       | Some removals => Some (mkCmap (cmax c) (fold_left (fun m k => adel k m) removals (ctab c)))
       | None => None
       end.

(** cachemap.go:38-45 Add; [None] is a panic *)
Definition cmap_add (c : cmap) (k : key) (v : value) : option cmap :=
  match alook k (ctab c) with
  | Some _ => Some c
  | None => match cmap_remove_exceeded c with
            | Some c1 => Some (mkCmap (cmax c1) (lput k v (ctab c1)))
            | None => None
            end
  end.

(** cachemap.go:47-51 *)
Definition cmap_remove (c : cmap) (k : key) : cmap := mkCmap (cmax c) (adel k (ctab c)).
(** cachemap.go:100-104 *)
Definition cmap_clear (c : cmap) : cmap := mkCmap (cmax c) [].
(** cachemap.go:79-88 *)
Definition cmap_get (c : cmap) (k : key) : value := match alook k (ctab c) with Some v => v | None => None end.
(** cachemap.go:70-77 *)
Definition cmap_contains (c : cmap) (k : key) : bool := match alook k (ctab c) with Some _ => true | None => false end.
(** cachemap.go:96-98 *)
Definition cmap_size (c : cmap) : Z := zlen (ctab c).
(** cachemap.go:90-94 *)
Definition cmap_empty (c : cmap) : bool := cmap_size c =? 0.
(** cachemap.go:16-28 *)
Definition cmap_values (c : cmap) : list value := non_nil (map snd (ctab c)).

(* ------------------------------------------------------------------ *)
(** * cacheset.CacheSet over gods linkedhashset (insertion-ordered set) *)

(** cacheset.go:11-14 *)
Record cset := mkCset { smax : Z; stab : list key }.
(** cacheset.go:18-24 *)
Definition cset_new (m : Z) : cset := mkCset m [].
(** a map lookup in cacheset.go:52-56 *)
Definition memb (k : key) (l : list key) : bool := existsb (Z.eqb k) l.
(** delete from the map: cacheset.go:35-50 *)
Definition sdel (k : key) (l : list key) : list key := filter (fun x => negb (k =? x)) l.
(** cacheset.go:35-50 removeExceeded, the loop that collects keys: the first [n] of the iteration order, [None] if there are fewer *)
Fixpoint take_items (n : nat) (m : list key) : option (list key) :=
  match n, m with
  | O, _ => Some []
  | S _, [] => None
  | S n', k :: m' => match take_items n' m' with Some l => Some (k :: l) | None => None end
  end.
(** cacheset.go:35-50 *)
Definition cset_remove_exceeded (c : cset) : option cset :=
  let removalCount := zlen (stab c) - smax c in
  if removalCount <? 0 then Some c
  else match take_items (Z.to_nat (removalCount + 1)) (stab c) with
       | Some removals => Some (mkCset (smax c) (fold_left (fun m k => sdel k m) removals (stab c)))
       | None => None
       end.
(** cacheset.go:26-33 *)
Definition cset_add (c : cset) (k : key) : option cset :=
  if memb k (stab c) then Some c
  else match cset_remove_exceeded c with
       | Some c1 => Some (mkCset (smax c1) (stab c1 ++ [k]))
       | None => None
       end.
(** cacheset.go:68-72 *)
Definition cset_clear (c : cset) : cset := mkCset (smax c) [].
(** cacheset.go:52-56 *)
Definition cset_contains (c : cset) (k : key) : bool := memb k (stab c).
(** cacheset.go:64-66, 58-62 *)
Definition cset_size (c : cset) : Z := zlen (stab c).
(** cacheset.go:58-62 *)
Definition cset_empty (c : cset) : bool := cset_size c =? 0.

(* ------------------------------------------------------------------ *)
(** * cachemap2.CacheMap *)

(** cachemap2.go:13-18; orderPos is written but never read, so it is left out *)
Record cmap2 := mkCmap2 { max2 : Z; tab2 : list (key * value); ord2 : list key }.
(** cachemap2.go:34-55 (the background goroutine only sleeps) *)
Definition cmap2_new (m : Z) : cmap2 := mkCmap2 m [] [].

(** cachemap2.go:79-88 removeExceeded: [None] is the endless loop on an empty ordering *)
Fixpoint pop_exceeded (m : Z) (ord : list key) (tab : list (key * value)) : option (list key * list (key * value)) :=
  match ord with
  | [] => if m <=? 0 then None else Some ([], tab)
  | k :: ord' => if m <=? zlen ord then pop_exceeded m ord' (adel k tab) else Some (ord, tab)
  end.

(** cachemap2.go:57-66 Add; [None]: never returns *)
Definition cmap2_add (c : cmap2) (k : key) (v : value) : option cmap2 :=
  match alook k (tab2 c) with
  | Some _ => Some c
  | None => match pop_exceeded (max2 c) (ord2 c) (tab2 c) with
            | Some (o, t) => Some (mkCmap2 (max2 c) (aset k v t) (o ++ [k]))
            | None => None
            end
  end.
(** cachemap2.go:68-77 *)
Definition cmap2_remove (c : cmap2) (k : key) : cmap2 := mkCmap2 (max2 c) (adel k (tab2 c)) (ord2 c).
(** cachemap2.go:115-121 *)
Definition cmap2_clear (c : cmap2) : cmap2 := mkCmap2 (max2 c) [] [].
(** cachemap2.go:99-103 *)
Definition cmap2_get (c : cmap2) (k : key) : value := match alook k (tab2 c) with Some v => v | None => None end.
(** cachemap2.go:90-97 *)
Definition cmap2_contains (c : cmap2) (k : key) : bool := match alook k (tab2 c) with Some _ => true | None => false end.
(** cachemap2.go:111-113 *)
Definition cmap2_size (c : cmap2) : Z := zlen (ord2 c).
(** cachemap2.go:105-109 *)
Definition cmap2_empty (c : cmap2) : bool := cmap2_size c =? 0.
