(** Several goroutines calling the operations of one cache: every access to the cache's fields is a step of its own, the lock of the package
    is held from the first to the last of them (`lock.Lock(); defer lock.Unlock()`), and Size of cachemap, cachemap2 and cacheset takes no lock. *)
From Verif Require Import GoInt M_Cache S_CacheConc.

(** which lock a call takes: Lock, RLock or none; cachemap.go:9, cacheset.go:9, cachemap2.go:10, lra.go:8 *)
Inductive guard := Exclusive | Shared | Unlocked.
(** the code of a cache: the lock of a call, where a call begins, and one access: the new fields and the next place or the answer; cachemap.go:38-104, cacheset.go:26-72, cachemap2.go:57-121, lra.go:34-119 *)
Record code (state place : Type) := mkCode { lock_of : ask -> guard; start : ask -> place; micro : place -> state -> state * (place + reply) }.
Arguments lock_of {state place}.
Arguments start {state place}.
Arguments micro {state place}.

(** a goroutine: the calls it still has to make, and the one it is in; a goroutine that uses one of the caches, e.g. dataproxy.go:52-207 *)
Record caller (place : Type) := mkCaller { todo : list ask; inside : option (ask * place) }.
Arguments mkCaller {place}.
Arguments todo {place}.
Arguments inside {place}.
(** [log]: the calls that have returned, with the goroutine and the answer, in the order of their returns (the last access and the unlock are one step); the state of cachemap.go:11-14, cacheset.go:11-14, cachemap2.go:13-18, lra.go:11-17 with its goroutines *)
Record conf (state place : Type) := mkConf { shared : state; callers : list (caller place); log : list (nat * (ask * reply)) }.
Arguments mkConf {state place}.
Arguments shared {state place}.
Arguments callers {state place}.
Arguments log {state place}.

(** sync.RWMutex: a call that wants [g] may go in beside a call that has [h] (the readers held back by a waiting Lock are let in too: more schedules); the locks of cachemap.go:9, cacheset.go:9, cachemap2.go:10, lra.go:8 *)
Definition beside (g h : guard) : bool := match g, h with Unlocked, _ | _, Unlocked => true | Shared, Shared => true | _, _ => false end.
(** sync.RWMutex as used in cachemap.go:38-104, cacheset.go:26-72, cachemap2.go:57-121, lra.go:34-119: [t] lets a call that wants [g] go in *)
Definition admits {state place} (co : code state place) (g : guard) (t : caller place) : bool :=
  match inside t with None => true | Some (a, _) => beside g (lock_of co a) end.

(** one move of one goroutine in cachemap.go:38-104, cacheset.go:26-72, cachemap2.go:57-121, lra.go:34-119: a call begins (takes its lock), makes one access, or returns (releases its lock) *)
Inductive step {state place} (co : code state place) : conf state place -> conf state place -> Prop :=
| step_enter s before a rest after lg : forallb (admits co (lock_of co a)) (before ++ after) = true ->
    step co (mkConf s (before ++ mkCaller (a :: rest) None :: after) lg) (mkConf s (before ++ mkCaller rest (Some (a, start co a)) :: after) lg)
| step_work s s' before rest a p p' after lg : micro co p s = (s', inl p') ->
    step co (mkConf s (before ++ mkCaller rest (Some (a, p)) :: after) lg) (mkConf s' (before ++ mkCaller rest (Some (a, p')) :: after) lg)
| step_return s s' before rest a p r after lg : micro co p s = (s', inr r) ->
    step co (mkConf s (before ++ mkCaller rest (Some (a, p)) :: after) lg) (mkConf s' (before ++ mkCaller rest None :: after) (lg ++ [(length before, (a, r))])).

(** the goroutines of the programs [ps] on the cache [s0], after some steps, in any order, of cachemap.go:38-104, cacheset.go:26-72, cachemap2.go:57-121, lra.go:34-119 *)
Inductive reach {state place} (co : code state place) (s0 : state) (ps : list (list ask)) : conf state place -> Prop :=
| reach_start : reach co s0 ps (mkConf s0 (map (fun p => mkCaller p None) ps) [])
| reach_step c c' : reach co s0 ps c -> step co c c' -> reach co s0 ps c'.

(** ** one goroutine alone *)
(** the accesses of a call from [p] to its return, with nobody else in between; one call of cachemap.go:38-104, cacheset.go:26-72, cachemap2.go:57-121, lra.go:34-119 *)
Inductive whole {state place} (co : code state place) : place -> state -> state -> reply -> Prop :=
| whole_end p s s' r : micro co p s = (s', inr r) -> whole co p s s' r
| whole_more p s s1 p1 s' r : micro co p s = (s1, inl p1) -> whole co p1 s1 s' r -> whole co p s s' r.
(** calls that run one after the other, each from its beginning to its return: from the cache [s0], with these answers, to the last cache; calls of cachemap.go:38-104, cacheset.go:26-72, cachemap2.go:57-121, lra.go:34-119 by one goroutine *)
Inductive alone {state place} (co : code state place) (s0 : state) : list (ask * reply) -> state -> Prop :=
| alone_nil : alone co s0 [] s0
| alone_snoc l s a r s' : alone co s0 l s -> whole co (start co a) s s' r -> alone co s0 (l ++ [(a, r)]) s'.

(** ** cachemap *)
(** cachemap.go:38-68: the places of Add *)
Inductive mplace :=
| MCall (a : ask)
| MCount (k : key) (v : value)                      (* 54 *)
| MIter (k : key) (v : value) (n : Z)               (* 59-64: the keys to remove *)
| MDel (k : key) (v : value) (removals : list key)  (* 65-67 *)
| MPut (k : key) (v : value).                       (* 43 *)
(** cachemap.go:16-104. GetValues takes its list in one call of table.Values (20); the RUnlock/RLock around each element of that list touch nothing. *)
Definition cmap_micro (p : mplace) (c : cmap) : cmap * (mplace + reply) :=
  match p with
  | MCall (AddA k v) => (c, match alook k (ctab c) with Some _ => inr Nothing | None => inl (MCount k v) end)
  | MCount k v => (c, inl (let n := zlen (ctab c) - cmax c in if n <? 0 then MPut k v else MIter k v n))
  | MIter k v n => (c, match take_keys (Z.to_nat (n + 1)) (ctab c) with Some l => inl (MDel k v l) | None => inr Panicked end)
  | MDel k v [] => (c, inl (MPut k v))
  | MDel k v (x :: l) => (mkCmap (cmax c) (adel x (ctab c)), inl (MDel k v l))
  | MPut k v => (mkCmap (cmax c) (lput k v (ctab c)), inr Nothing)
  | MCall (RemoveA k) => (cmap_remove c k, inr Nothing)
  | MCall ClearA => (cmap_clear c, inr Nothing)
  | MCall (GetA k) => (c, inr (Value (cmap_get c k)))
  | MCall (ContainsA k) => (c, inr (Yes (cmap_contains c k)))
  | MCall EmptyA => (c, inr (Yes (cmap_empty c)))
  | MCall SizeA => (c, inr (Count (cmap_size c)))
  | MCall ValuesA => (c, inr (All (cmap_values c)))
  end.
(** cachemap.go:18, 39, 48, 71, 80, 91, 96, 101; the same in cachemap2.go and cacheset.go *)
Definition map_lock (a : ask) : guard :=
  match a with AddA _ _ | RemoveA _ | ClearA | EmptyA => Exclusive | GetA _ | ContainsA _ | ValuesA => Shared | SizeA => Unlocked end.
(** cachemap.go:30-104 *)
Definition cmap_code : code cmap mplace := mkCode _ _ map_lock MCall cmap_micro.

(** ** cacheset *)
(** cacheset.go:26-72; a set has no Remove, Get and GetValues *)
Inductive splace :=
| SCall (a : ask)
| SCount (k : key) | SIter (k : key) (n : Z) | SDel (k : key) (removals : list key) | SPut (k : key).
(** cacheset.go:26-72, access by access *)
Definition cset_micro (p : splace) (c : cset) : cset * (splace + reply) :=
  match p with
  | SCall (AddA k _) => (c, if memb k (stab c) then inr Nothing else inl (SCount k))
  | SCount k => (c, inl (let n := zlen (stab c) - smax c in if n <? 0 then SPut k else SIter k n))
  | SIter k n => (c, match take_items (Z.to_nat (n + 1)) (stab c) with Some l => inl (SDel k l) | None => inr Panicked end)
  | SDel k [] => (c, inl (SPut k))
  | SDel k (x :: l) => (mkCset (smax c) (sdel x (stab c)), inl (SDel k l))
  | SPut k => (mkCset (smax c) (stab c ++ [k]), inr Nothing)
  | SCall ClearA => (cset_clear c, inr Nothing)
  | SCall (ContainsA k) => (c, inr (Yes (cset_contains c k)))
  | SCall EmptyA => (c, inr (Yes (cset_empty c)))
  | SCall SizeA => (c, inr (Count (cset_size c)))
  | SCall _ => (c, inr Nothing)
  end.
(** cacheset.go:18-72 *)
Definition cset_code : code cset splace := mkCode _ _ map_lock SCall cset_micro.

(** ** cachemap2 *)
(** cachemap2.go:57-88: the places of Add. GetValues is left out here: it walks the live map with the lock released in between, as lra's does (C84). *)
Inductive qplace :=
| QCall (a : ask)
| QLoop (k : key) (v : value)            (* 80 *)
| QGet (k : key) (v : value)             (* 81 *)
| QPop (k : key) (v : value) (x : key)   (* 83; 84 concerns orderPos, which is never read *)
| QDrop (k : key) (v : value) (x : key)  (* 85 *)
| QSet (k : key) (v : value)             (* 62 *)
| QApp (k : key).                        (* 63 *)
(** cachemap2.go:57-121, access by access *)
Definition cmap2_micro (p : qplace) (c : cmap2) : cmap2 * (qplace + reply) :=
  match p with
  | QCall (AddA k v) => (c, match alook k (tab2 c) with Some _ => inr Nothing | None => inl (QLoop k v) end)
  | QLoop k v => (c, inl (if max2 c <=? zlen (ord2 c) then QGet k v else QSet k v))
  | QGet k v => (c, inl (match ord2 c with x :: _ => QPop k v x | [] => QLoop k v end))
  | QPop k v x => (mkCmap2 (max2 c) (tab2 c) (tl (ord2 c)), inl (QDrop k v x))
  | QDrop k v x => (mkCmap2 (max2 c) (adel x (tab2 c)) (ord2 c), inl (QLoop k v))
  | QSet k v => (mkCmap2 (max2 c) (aset k v (tab2 c)) (ord2 c), inl (QApp k))
  | QApp k => (mkCmap2 (max2 c) (tab2 c) (ord2 c ++ [k]), inr Nothing)
  | QCall (RemoveA k) => (cmap2_remove c k, inr Nothing)
  | QCall ClearA => (cmap2_clear c, inr Nothing)
  | QCall (GetA k) => (c, inr (Value (cmap2_get c k)))
  | QCall (ContainsA k) => (c, inr (Yes (cmap2_contains c k)))
  | QCall EmptyA => (c, inr (Yes (cmap2_empty c)))
  | QCall SizeA => (c, inr (Count (cmap2_size c)))
  | QCall ValuesA => (c, inr Nothing)
  end.
(** cachemap2.go:34-121 *)
Definition cmap2_code : code cmap2 qplace := mkCode _ _ map_lock QCall cmap2_micro.

(** ** lra *)
(** lra.go:38-50, 86-99: the places of Add and Remove. OnEvicted is not set (nothing in the agent sets it). GetValues is C84's. *)
Inductive rplace :=
| RCall (a : ask)
| RSet (a : Z) (v : value)        (* 42 *)
| RTab (k : key) (a : Z)          (* 46 *)
| RCheck                          (* 47 *)
| RBack                           (* 87 *)
| RUnlink (a : Z) (e : entry)     (* 94 *)
| RDelete (k : key).              (* 96 *)
(** lra.go:34-119, access by access *)
Definition lra_micro (p : rplace) (c : lra) : lra * (rplace + reply) :=
  match p with
  | RCall (AddA k v) =>
      match alook k (table c) with
      | Some a => (c, inl (RSet a v))
      | None => (mkLra (lmax c) ((fresh c, mkEntry k v) :: lst c) (table c) (fresh c + 1), inl (RTab k (fresh c)))   (* 45 *)
      end
  | RSet a v => (mkLra (lmax c) (set_elem a v (lst c)) (table c) (fresh c), inr Nothing)
  | RTab k a => (mkLra (lmax c) (lst c) (aset k a (table c)) (fresh c), inl RCheck)
  | RCheck => (c, if negb (lmax c =? 0) && (lmax c <? zlen (lst c)) then inl RBack else inr Nothing)
  | RBack => (c, match back (lst c) with Some (a, e) => inl (RUnlink a e) | None => inr Nothing end)
  | RUnlink a e => (mkLra (lmax c) (rm_elem a (lst c)) (table c) (fresh c), inl (RDelete (ekey e)))
  | RDelete k => (mkLra (lmax c) (lst c) (adel k (table c)) (fresh c), inr Nothing)
  | RCall (RemoveA k) =>
      (c, match alook k (table c) with
          | Some a => match elem_at a (lst c) with Some e => inl (RUnlink a e) | None => inr Nothing end
          | None => inr Nothing
          end)
  | RCall ClearA => (mkLra (lmax c) [] [] (fresh c), inr Nothing)
  | RCall (GetA k) => (c, inr (Value (lra_get c k)))
  | RCall (ContainsA k) => (c, inr (Yes (lra_contains c k)))
  | RCall EmptyA => (c, inr (Yes (lra_empty c)))
  | RCall SizeA => (c, inr (Count (lra_size c)))
  | RCall ValuesA => (c, inr Nothing)
  end.
(** lra.go:39, 54, 63, 72, 79, 103, 109 *)
Definition lra_lock (a : ask) : guard :=
  match a with AddA _ _ | RemoveA _ | ClearA => Exclusive | _ => Shared end.
(** lra.go:26-119 *)
Definition lra_code : code lra rplace := mkCode _ _ lra_lock RCall lra_micro.
