(** The Go maps that several goroutines of the agent use, and when each operation is inside them. Go's maps are not safe for concurrent use: a goroutine that enters a
    map (lookup, insertion, deletion, the next step of an iteration) while another one is changing it ends the process with a fatal error that cannot be recovered.

    The maps: the tables of the lra caches (lra.go:16; eleven dictionaries of sent texts, dataproxy.go:16-26, and the active services, tctxmanager.go:17), the observers
    (opserver.go:6), the setting descriptions (configure.go:30, a linked hash map). The locks are those of M_Locks.v. Replacing a map by a new one (lra.go:118) and len() are
    not accesses. Maps that one goroutine only uses (packs, message steps) are left out. *)
From Verif Require Import GoInt M_Locks.

(** the Go maps that several goroutines use: the tables of the lra caches (lra.go:11-17), opserver.go:6 observers, configure.go:30 descMap *)
Inductive mapid := MTable (cache : nat) | MObservers | MDesc.
(** the same map? (lra.go:11-17, opserver.go:6, configure.go:30) *)
Definition map_eqb (a b : mapid) : bool :=
  match a, b with MTable i, MTable j => Nat.eqb i j | MObservers, MObservers | MDesc, MDesc => true | _, _ => false end.

(** a lock call, entering a map (true: to change it), leaving it; as in lra.go:34-136, opserver.go:13-31, configure.go:262-332 *)
Inductive xact := XLock (a : lact) | XEnter (m : mapid) (w : bool) | XLeave (m : mapid).
(** a goroutine that calls lra.go:34-136, opserver.go:13-31, configure.go:262-332: what it has still to do, its locks, the maps it is in *)
Record xthread := mkXT { x_todo : list xact; x_held : list (lockid * bool); x_wait : option lockid; x_in : list (mapid * bool) }.
(** the end of a map access in lra.go:34-136, opserver.go:13-31, configure.go:262-332 *)
Fixpoint x_leave (m : mapid) (ins : list (mapid * bool)) : list (mapid * bool) :=
  match ins with [] => [] | x :: r => if map_eqb (fst x) m then r else x :: x_leave m r end.

(** the lock calls alone: the goroutine of M_Locks.v; the lock calls of lra.go:34-136, opserver.go:13-31, configure.go:262-332 *)
Definition locks_of (p : list xact) : list lact := flat_map (fun x => match x with XLock a => [a] | _ => [] end) p.
(** the goroutine with the lock calls of lra.go:34-136, opserver.go:13-31, configure.go:262-332 alone *)
Definition as_locker (t : xthread) : lthread := mkLT (locks_of (x_todo t)) (x_held t) (x_wait t).

(** a goroutine's next move: a lock call as in M_Locks.v, or into or out of a map; lra.go:34-136, opserver.go:13-31, configure.go:262-332 *)
Definition x_advance (ts : list xthread) (t : xthread) : option xthread :=
  match x_todo t with
  | XLock a :: r =>
      match l_advance (map as_locker ts) (as_locker t) with
      | Some t' => Some (mkXT (match l_wait t' with Some _ => x_todo t | None => r end) (l_held t') (l_wait t') (x_in t))
      | None => None
      end
  | XEnter m w :: r => Some (mkXT r (x_held t) (x_wait t) ((m, w) :: x_in t))
  | XLeave m :: r => Some (mkXT r (x_held t) (x_wait t) (x_leave m (x_in t)))
  | [] => None
  end.
(** one goroutine moves in lra.go:34-136, opserver.go:13-31, configure.go:262-332 *)
Inductive xstep : list xthread -> list xthread -> Prop :=
| xstep_at before t after t' : x_advance (before ++ t :: after) t = Some t' -> xstep (before ++ t :: after) (before ++ t' :: after).
(** several moves in lra.go:34-136, opserver.go:13-31, configure.go:262-332 *)
Inductive xsteps : list xthread -> list xthread -> Prop :=
| xsteps_0 a : xsteps a a
| xsteps_S a b c : xsteps a b -> xstep b c -> xsteps a c.

(** * The operations *)
(** Lock; body; Unlock, as in lra.go:38-50 *)
Definition x_under (l : lockid) (body : list xact) : list xact := XLock (Exclusive l) :: body ++ [XLock (Release l)].
(** RLock; body; RUnlock, as in lra.go:53-69 *)
Definition x_under_shared (l : lockid) (body : list xact) : list xact := XLock (Shared l) :: body ++ [XLock (Release l)].
(** once.Do(f) as in udpsender.go:31-46, xlogsampler.go:28-46 *)
Definition x_once (l : lockid) (st : once_state) (body : list xact) : list xact := match st with Done => [] | JustDone => x_under l [] | First => x_under l body end.
(** a map read, as in lra.go:53-69 *)
Definition looks (m : mapid) : list xact := [XEnter m false; XLeave m].
(** a map write, as in lra.go:38-50 *)
Definition changes (m : mapid) : list xact := [XEnter m true; XLeave m].

(** lra.go:38-50 Add: the key is there; or it is inserted; or it is inserted and the oldest one deleted (lra.go:86-100) *)
Inductive added := AKnown | ANew | AFull.
(** lra.go:38-50 Add, 86-100 *)
Definition x_add (c : nat) (h : added) : list xact :=
  x_under KText (looks (MTable c) ++ match h with AKnown => [] | ANew => changes (MTable c) | AFull => changes (MTable c) ++ changes (MTable c) end).
(** lra.go:53-69 Get, Contains *)
Definition x_get (c : nat) : list xact := x_under_shared KText (looks (MTable c)).
(** lra.go:78-84 Remove *)
Definition x_remove (c : nat) (hit : bool) : list xact := x_under KText (looks (MTable c) ++ if hit then changes (MTable c) else []).
(** lra.go:108-119 Clear (no OnEvicted in the agent): the table is replaced *)
Definition x_clear (c : nat) : list xact := x_under KText [].
(** lra.go:121-136 GetValues over n entries: the read lock is held during each step of the iteration and released in between *)
Fixpoint x_values (c n : nat) : list xact := match n with O => x_under_shared KText (looks (MTable c)) | S m => x_under_shared KText (looks (MTable c)) ++ x_values c m end.

(** udpsender.go:31-47, channelfactory.go:12-17 *)
Definition x_udp (st cst : once_state) : list xact := x_once KUdpOnce st (x_once KChanOnce cst []).
(** dataproxy.go:50-207 *)
Inductive text_how := Hit | Miss (h : added).
(** the Send functions of dataproxy.go:52-154, 170-207 *)
Definition x_text (c : nat) (h : text_how) (st cst : once_state) : list xact := x_get c ++ match h with Hit => [] | Miss a => x_add c a ++ x_udp st cst end.
(** configure.go:274-332 boolOf, intOf, stringOf, stringOfType: descMap.Put looks and changes *)
Definition x_setting : list xact := x_under KDesc (looks MDesc ++ changes MDesc).
(** opserver.go:33-40 with agent.go:18-21 *)
Definition x_obj_changed (o : option (nat * text_how * once_state * once_state)) : list xact :=
  x_under_shared KObservers (match o with None => [] | Some (c, h, st, cst) => x_text c h st cst end).
(** opserver.go:24-31: one iteration step per observer and one at the end; the observer is the sampler, which enters no map *)
Definition x_conf_changed (observers : nat) : list xact := x_under_shared KObservers (concat (repeat (looks MObservers) (S observers))).
(** configure.go:210-260, 334-413 *)
Definition x_refresh (n : nat) (loaded : bool) (changed : option (option (nat * text_how * once_state * once_state))) (observers : nat) : list xact :=
  x_under KConf (if loaded then x_setting ++ x_setting ++ match changed with None => [] | Some o => x_obj_changed o end ++ concat (repeat x_setting n) ++ x_conf_changed observers else []).

(** what the agent's goroutines do that uses one of these maps: dataproxy.go:28-40, 52-207, configure.go:210-262, opserver.go:13-40, tctxmanager.go:26-106 *)
Inductive map_op :=
| QRefresh (n : nat) (loaded : bool) (changed : option (option (nat * text_how * once_state * once_state))) (observers : nat)
| QDescriptions (entries : nat)                     (* configure.go:262-272: the iterator looks every value up *)
| QSampler (st : once_state)                        (* xlogsampler.go:28-46, opserver.go:13-18 *)
| QInit (st : once_state) (c : nat) (h : text_how) (ust cst : once_state)    (* agent.go:27-38 *)
| QText (c : nat) (h : text_how) (st cst : once_state)
| QSend (st cst : once_state)
| QActiveGet (c : nat) | QActiveStart (c : nat) (h : added) | QActiveEnd (c : nat) (hit : bool)   (* tctxmanager.go:48-68 *)
| QActiveList (c n : nat)                           (* tctxmanager.go:70-106 *)
| QReset (cs : list nat)                            (* dataproxy.go:28-40 *)
| QMeter (st : once_state) | QMeterRead (st : once_state) | QActiveMeter | QActiveMeterRead | QStats | QKey.   (* as in M_Locks.v; arrays only *)
(** the lock calls and map accesses of each, in order: dataproxy.go:28-40, 52-207, configure.go:210-262, opserver.go:13-40, tctxmanager.go:26-106 (loops over arrays only: M_Locks.v) *)
Definition map_acts (o : map_op) : list xact :=
  match o with
  | QRefresh n loaded changed obs => x_refresh n loaded changed obs
  | QDescriptions e => x_under_shared KDesc (concat (repeat (looks MDesc) e))
  | QSampler st => x_once KSamplerOnce st (x_under KObservers (changes MObservers))
  | QInit st c h ust cst => x_once KAgentOnce st (x_text c h ust cst ++ x_udp Done Done)
  | QText c h st cst => x_text c h st cst
  | QSend st cst => x_udp st cst
  | QActiveGet c => x_get c
  | QActiveStart c h => x_add c h
  | QActiveEnd c hit => x_remove c hit
  | QActiveList c n => x_values c n
  | QReset cs => flat_map x_clear cs
  | QMeter st => x_once KMeterOnce st [] ++ x_under KService (x_under KServiceBuckets [])
  | QMeterRead st => x_once KMeterOnce st [] ++ x_under KServiceBuckets []
  | QActiveMeter => x_under KValue (x_under KValueBuckets [])
  | QActiveMeterRead => x_under KValueBuckets []
  | QStats => x_under KStats []
  | QKey => x_under KKey []
  end.
(** a goroutine that makes such calls one after the other (the loops of countertask.go:22-36, agenttask.go:15-20, tcpmanager.go:15-44, or the application's) *)
Definition x_program (ops : list map_op) : xthread := mkXT (flat_map map_acts ops) [] None [].
(** the goroutines started by agent.go:18-37 and the application's *)
Definition x_programs (callers : list (list map_op)) : list xthread := map x_program callers.

(** the same operation in M_Locks.v; dataproxy.go:52-207: the cache already contains the hash *)
Definition is_hit (h : text_how) : bool := match h with Hit => true | Miss _ => false end.
(** the same calls as named in M_Locks.v: dataproxy.go:28-252, configure.go:210-262, opserver.go:13-40, tctxmanager.go:26-106 *)
Definition lock_op (o : map_op) : agent_op :=
  match o with
  | QRefresh n loaded changed obs => GRefresh n loaded (option_map (option_map (fun x => let '(_, h, st, cst) := x in (is_hit h, st, cst))) changed)
  | QDescriptions _ => GDescriptions
  | QSampler st => GSampler st
  | QInit st c h ust cst => GInit st (is_hit h) ust cst
  | QText c h st cst => GText (is_hit h) st cst
  | QSend st cst => GSend st cst
  | QActiveGet _ => GActiveGet
  | QActiveStart _ _ | QActiveEnd _ _ => GActiveSet
  | QActiveList _ n => GActiveList n
  | QReset cs => GReset (length cs)
  | QMeter st => GMeter st
  | QMeterRead st => GMeterRead st
  | QActiveMeter => GActiveMeter
  | QActiveMeterRead => GActiveMeterRead
  | QStats => GStats
  | QKey => GKey
  end.
