(** The agent's locks, all together: which locks each operation takes and in what order.

    sync.Mutex and the lock inside sync.Once are RWMutexes that are only ever locked for writing. Go's RWMutex: a Lock that waits for readers blocks new
    readers; writers queue up one after the other. The caches' own lock is in M_RWLock too; here it is [KText] with the calls the agent makes.
    Left out: conf's own sync.Once (configure.go:129), finished by the package initialisation before any other goroutine of the agent exists
    (every package of the agent has [var ac = conf.GetInstance()]), so that GetInstance takes no lock afterwards; keygen's sync.Once (keygen.go:39-41,
    same reason); locks inside the standard library. *)
From Verif Require Import GoInt.

(** the locks of the agent, each with the place it is declared (lra.go:8, configure.go:41, opserver.go:5 and so on) *)
Inductive lockid :=
| KAgentOnce     (* agent.go:15 *)
| KSamplerOnce   (* strace/xlogsampler.go:11 *)
| KConf          (* conf/configure.go:41 *)
| KObservers     (* conf/opserver.go:5 *)
| KUdpOnce       (* netio/udpsender/udpsender.go:15 *)
| KChanOnce      (* factory/channelfactory.go:8 *)
| KDesc          (* conf/configure.go:19 *)
| KText          (* structure/lra/lra.go:8 *)
| KMeterOnce     (* counter/serviceMetering.go:8 *)
| KService       (* serviceMetering.go:13 *)
| KValue         (* valueMetering.go:8 *)
| KServiceBuckets (* metering.go:13, the one inside the service meter *)
| KValueBuckets   (* metering.go:13, the one inside the active service meter *)
| KStats         (* gocounter.go:9 *)
| KKey           (* keygen.go:16 *).
(** the same lock? (identity of the variables listed above: e.g. keygen.go:15-18, opserver.go:5) *)
Definition lock_eqb (a b : lockid) : bool :=
  match a, b with
  | KAgentOnce, KAgentOnce | KSamplerOnce, KSamplerOnce | KConf, KConf | KObservers, KObservers | KUdpOnce, KUdpOnce | KChanOnce, KChanOnce | KDesc, KDesc | KText, KText
  | KMeterOnce, KMeterOnce | KService, KService | KValue, KValue | KServiceBuckets, KServiceBuckets | KValueBuckets, KValueBuckets | KStats, KStats | KKey, KKey => true
  | _, _ => false
  end.

(** RLock, Lock; RUnlock or Unlock; sync.RWMutex and sync.Mutex calls as in lra.go:34-136, configure.go:210-260, keygen.go:32-37 *)
Inductive lact := Shared (l : lockid) | Exclusive (l : lockid) | Release (l : lockid).
(** a goroutine of the agent (agenttask.go:15-20, countertask.go:22-36, tcpmanager.go:15-44) or of the application: the lock calls it has still to make, the locks it has, the one it waits for *)
Record lthread := mkLT { l_todo : list lact; l_held : list (lockid * bool); l_wait : option lockid }.   (* held: true = exclusively; wait: a Lock announced, waiting for readers *)

(** Lock held: sync.RWMutex as in lra.go:38-50 *)
Definition holds_ex (l : lockid) (t : lthread) : bool := existsb (fun h => lock_eqb (fst h) l && snd h) (l_held t).
(** RLock held: sync.RWMutex as in lra.go:53-69 *)
Definition holds_sh (l : lockid) (t : lthread) : bool := existsb (fun h => lock_eqb (fst h) l && negb (snd h)) (l_held t).
(** Lock called and waiting for readers: sync.RWMutex as in lra.go:38-50 *)
Definition announces (l : lockid) (t : lthread) : bool := match l_wait t with Some m => lock_eqb m l | None => false end.
(** what RLock waits for: sync.RWMutex as in lra.go:53-69 *)
Definition no_writer (l : lockid) (ts : list lthread) : bool := forallb (fun t => negb (holds_ex l t) && negb (announces l t)) ts.
(** what Lock waits for: sync.RWMutex as in lra.go:38-50 *)
Definition no_reader (l : lockid) (ts : list lthread) : bool := forallb (fun t => negb (holds_sh l t)) ts.
(** RUnlock, Unlock: sync.RWMutex as in lra.go:38-69 *)
Fixpoint drop (l : lockid) (h : list (lockid * bool)) : option (list (lockid * bool)) :=
  match h with [] => None | x :: r => if lock_eqb (fst x) l then Some r else match drop l r with Some r' => Some (x :: r') | None => None end end.

(** a goroutine's next move; [None]: it has to wait; sync.RWMutex and sync.Mutex as in lra.go:34-136, opserver.go:13-40, keygen.go:32-37 *)
Definition l_advance (ts : list lthread) (t : lthread) : option lthread :=
  match l_todo t, l_wait t with
  | Shared l :: r, None => if no_writer l ts then Some (mkLT r ((l, false) :: l_held t) None) else None
  | Exclusive l :: r, None => if no_writer l ts then Some (mkLT (Exclusive l :: r) (l_held t) (Some l)) else None
  | Exclusive l :: r, Some _ => if no_reader l ts then Some (mkLT r ((l, true) :: l_held t) None) else None
  | Release l :: r, None => match drop l (l_held t) with Some h => Some (mkLT r h None) | None => None end
  | _, _ => None
  end.
(** one goroutine moves: the callers of lra.go:34-136, opserver.go:13-40, keygen.go:32-37 and the like *)
Inductive lstep : list lthread -> list lthread -> Prop :=
| lstep_at before t after t' : l_advance (before ++ t :: after) t = Some t' -> lstep (before ++ t :: after) (before ++ t' :: after).
(** several moves of the callers of lra.go:34-136, opserver.go:13-40, keygen.go:32-37 and the like *)
Inductive lsteps : nat -> list lthread -> list lthread -> Prop :=
| lsteps_0 a : lsteps 0 a a
| lsteps_S n a b c : lsteps n a b -> lstep b c -> lsteps (S n) a c.

(** * The operations *)
(** Lock; body; Unlock, as in lra.go:38-50, opserver.go:13-18 *)
Definition under (l : lockid) (body : list lact) : list lact := Exclusive l :: body ++ [Release l].
(** RLock; body; RUnlock, as in lra.go:53-69 *)
Definition under_shared (l : lockid) (body : list lact) : list lact := Shared l :: body ++ [Release l].
(** sync.Once.Do: nothing once it is done, else the function runs under its lock (a caller that finds it just done takes and releases the lock); the sync.Once of udpsender.go:31-46, configure.go:128-154, keygen.go:21-29, xlogsampler.go:28-46 and the like *)
Inductive once_state := Done | JustDone | First.
(** once.Do(f) as in udpsender.go:31-46, configure.go:128-154, keygen.go:21-29, xlogsampler.go:28-46 *)
Definition once (l : lockid) (st : once_state) (body : list lact) : list lact := match st with Done => [] | JustDone => under l [] | First => under l body end.
(** udpsender.go:31-47 GetInstance, channelfactory.go:12-17 *)
Definition udp_instance (st cst : once_state) : list lact := once KUdpOnce st (once KChanOnce cst []).
(** dataproxy.go:50-207 Send<text>: Contains; if unknown AddKey and GetInstance().AddPack (a full channel drops the pack: no waiting) *)
Definition send_text (hit : bool) (st cst : once_state) : list lact := under_shared KText [] ++ if hit then [] else under KText [] ++ udp_instance st cst.
(** configure.go:272-333 boolOf, intOf, stringOf, stringOfType *)
Definition setting : list lact := under KDesc [].
(** opserver.go:31-40 objChangeNotify with agent.go:18-21 Run; [None]: no observer yet *)
Definition obj_changed (o : option (bool * once_state * once_state)) : list lact :=
  under_shared KObservers (match o with None => [] | Some (hit, st, cst) => send_text hit st cst end).
(** opserver.go:22-29 confChangeNotify; the only observer is the sampler, whose Run takes no lock (xlogsampler.go:48-71) *)
Definition conf_changed : list lact := under_shared KObservers [].
(** configure.go:210-259 Refresh: nothing to do, or [n] settings are read with the object name among them *)
Definition refresh_acts (n : nat) (loaded : bool) (changed : option (option (bool * once_state * once_state))) : list lact :=
  under KConf (if loaded then setting ++ setting ++ match changed with None => [] | Some o => obj_changed o end ++ concat (repeat setting n) ++ conf_changed else []).

(** what the agent's goroutines do that takes locks: dataproxy.go:28-252, configure.go:128-262, tracemain.go:211-398, tctxmanager.go:26-106, countertask.go:38-91, handlers.go:39-364 *)
Inductive agent_op :=
| GRefresh (n : nat) (loaded : bool) (changed : option (option (bool * once_state * once_state)))
| GDescriptions                                    (* configure.go:262-272 *)
| GSampler (st : once_state)                       (* xlogsampler.go:28-46: GetXlogSampler; the first call registers the observer, opserver.go:13-18 *)
| GInit (st : once_state) (hit : bool) (ust cst : once_state)   (* agent.go:27-38: StartTracingMode, SendObjPack *)
| GText (hit : bool) (st cst : once_state)
| GSend (st cst : once_state)                      (* SendPackDirect, SendXlog, SendProfile, dataproxy.go:209-252 *)
| GActiveGet | GActiveSet                          (* tctxmanager.go: Get; Add and Remove *)
| GActiveList (n : nat)                            (* tctxmanager.go: GetValues over n entries *)
| GReset (n : nat)                                 (* dataproxy.go:28-40 ResetTextSent: n caches *)
| GMeter (st : once_state)                         (* serviceMetering.go:29-59 GetServiceMeter().Add *)
| GMeterRead (st : once_state)                     (* serviceMetering.go:60-87 GetAllCounter *)
| GActiveMeter | GActiveMeterRead                  (* valueMetering.go:37-65 *)
| GStats                                           (* gocounter.go:26-50 *)
| GKey.                                            (* keygen.go:32-37 *)

(** lra.go:121-136: the read lock is let go around every item *)
Fixpoint list_acts (n : nat) : list lact := match n with O => under_shared KText [] | S m => under_shared KText [] ++ list_acts m end.

(** the lock calls of each, in order: dataproxy.go:28-252, configure.go:128-262, tracemain.go:211-398, tctxmanager.go:26-106, countertask.go:38-91, handlers.go:39-364 *)
Definition op_acts (o : agent_op) : list lact :=
  match o with
  | GRefresh n loaded changed => refresh_acts n loaded changed
  | GDescriptions => under_shared KDesc []
  | GSampler st => once KSamplerOnce st (under KObservers [])
  | GInit st hit ust cst => once KAgentOnce st (send_text hit ust cst ++ udp_instance Done Done)
  | GText hit st cst => send_text hit st cst
  | GSend st cst => udp_instance st cst
  | GActiveGet => under_shared KText []
  | GActiveSet => under KText []
  | GActiveList n => list_acts n
  | GReset n => concat (repeat (under KText []) n)
  | GMeter st => once KMeterOnce st [] ++ under KService (under KServiceBuckets [])
  | GMeterRead st => once KMeterOnce st [] ++ under KServiceBuckets []
  | GActiveMeter => under KValue (under KValueBuckets [])
  | GActiveMeterRead => under KValueBuckets []
  | GStats => under KStats []
  | GKey => under KKey []
  end.
(** a goroutine that makes such calls one after the other (the loops of countertask.go:22-36, agenttask.go:15-20, tcpmanager.go:15-44, udpsender.go:105-120, or the application's) *)
Definition l_program (ops : list agent_op) : lthread := mkLT (flat_map op_acts ops) [] None.
(** the goroutines started by agent.go:18-37 and the application's *)
Definition l_programs (callers : list (list agent_op)) : list lthread := map l_program callers.
