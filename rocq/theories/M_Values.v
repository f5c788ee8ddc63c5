(** Models lra.go:121-136 GetValues when other goroutines change the cache between two items: the read lock is released while an item is handled.

    A Go map iteration is described by what the language promises: an entry is produced at most once; an entry deleted before it is reached is not
    produced; an entry created meanwhile may be produced or not; the loop ends only when every entry that was there at the start, and still is, has
    been produced. Clear replaces the map, and the loop goes on over the old one, which no longer changes. An entry of the map is known by the address
    of its list element: every insertion makes a new one. An element that left the list keeps its contents (the loop still holds the pointer).
    The two words of an interface value are read at once. *)
From Verif Require Import GoInt M_Cache.

(** calls of the other goroutines, each under the write lock: lra.go:38-50, 78-84, 108-119 *)
Inductive cop := CAdd (k : key) (v : value) | CRemove (k : key) | CClear.
(** another goroutine's Add, Remove or Clear: lra.go:38-50, 78-84, 108-119 *)
Definition cop_do (o : cop) (c : lra) : lra := match o with CAdd k v => fst (lra_add c k v) | CRemove k => fst (lra_remove c k) | CClear => fst (lra_clear c []) end.

(** the state of the loop: the old map if Clear replaced it; the map at the start; the entries produced so far; the item being handled; the result; lra.go:121-136 *)
Record iter := mkIter { i_old : option (list (key * Z)); i_start : list (key * Z); i_seen : list Z; i_cur : option Z; i_out : list value }.
(** the cache (lra.go:11-17), the elements removed from its list, and one GetValues under way (lra.go:121-136) *)
Record vsys := mkV { v_cache : lra; v_gone : list (Z * entry); v_it : iter }.

(** the map the loop runs over; lra.go:121-136 *)
Definition i_table (s : vsys) : list (key * Z) := match i_old (v_it s) with Some m => m | None => table (v_cache s) end.
(** the contents of a list element; lra.go:21-24 *)
Definition element (s : vsys) (a : Z) : option entry := match elem_at a (lst (v_cache s)) with Some e => Some e | None => elem_at a (v_gone s) end.

(** lra.go:122-125: the loop begins *)
Definition v_begin (c : lra) : vsys := mkV c [] (mkIter None (table c) [] None []).
(** another goroutine's call; lra.go:38-50, 78-84, 108-119 *)
Definition v_write (o : cop) (s : vsys) : vsys :=
  let c := v_cache s in let c' := cop_do o c in
  mkV c' (filter (fun ae => negb (existsb (Z.eqb (fst ae)) (map fst (lst c')))) (lst c) ++ v_gone s)
    (mkIter (match o, i_old (v_it s) with CClear, None => Some (table c) | _, m => m end) (i_start (v_it s)) (i_seen (v_it s)) (i_cur (v_it s)) (i_out (v_it s))).
(** lra.go:125-126: the next entry, and the lock is released *)
Definition v_next (a : Z) (s : vsys) : vsys := mkV (v_cache s) (v_gone s) (mkIter (i_old (v_it s)) (i_start (v_it s)) (a :: i_seen (v_it s)) (Some a) (i_out (v_it s))).
(** lra.go:127-133: the item, and the lock is taken again *)
Definition v_take (e : entry) (s : vsys) : vsys :=
  mkV (v_cache s) (v_gone s) (mkIter (i_old (v_it s)) (i_start (v_it s)) (i_seen (v_it s)) None (match evalue e with None => i_out (v_it s) | Some x => i_out (v_it s) ++ [Some x] end)).
(** the loop may end; lra.go:121-136 *)
Definition v_ends (s : vsys) : Prop := i_cur (v_it s) = None /\ forall e, In e (i_start (v_it s)) -> In e (i_table s) -> In (snd e) (i_seen (v_it s)).

(** one call of GetValues so far: the states of the cache since it began, newest first, and where it is; lra.go:121-136 *)
Inductive listing (c0 : lra) : list lra -> vsys -> Prop :=
| li_begin : listing c0 [c0] (v_begin c0)
| li_write cs s o : listing c0 cs s -> listing c0 (v_cache (v_write o s) :: cs) (v_write o s)
| li_next cs s k a : listing c0 cs s -> i_cur (v_it s) = None -> In (k, a) (i_table s) -> ~ In a (i_seen (v_it s)) -> listing c0 cs (v_next a s)
| li_take cs s a e : listing c0 cs s -> i_cur (v_it s) = Some a -> element s a = Some e -> listing c0 cs (v_take e s).
