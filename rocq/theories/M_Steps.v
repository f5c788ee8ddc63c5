(** Model of the profile steps of scouterx/common/netdata: fields, Write, WriteStep, StepsToBytes. *)
From Verif Require Import GoInt M_OutX.

(** step.go:39-43 *)
Record single := mk_single { ss_Parent : Z; ss_Index : Z; ss_StartTime : Z }.

(** step.go:66-74 *)
Definition write_single (s : single) : dout -> dout :=
  wseq [write_decimal32 (ss_Parent s); write_decimal32 (ss_Index s); write_decimal32 (ss_StartTime s); write_decimal32 0].

(** The concrete step types.  In all Write methods the embedded SingleStep is written first; its
    error is always nil for an in-memory writer. apicallstep.go:3-12, dumpstep.go:3-12, hmessagestep.go:3-8, messagestep.go:3-6, methodstep.go:3-8, pmessagestep.go:16-23, threadstep.go:3-8, step.go:66-74 *)
Inductive step :=
| SMethod (s : single) (Hash Elapsed CpuTime : Z)                     (* methodstep.go:3-8 *)
| SApiCall (s : single) (Txid Hash Elapsed CpuTime Error Opt : Z) (Address : gostring) (* apicallstep.go:3-12 *)
| SDump (s : single) (Stacks : list Z) (threadId : Z) (threadName threadState : gostring)
        (lockOwnerId : Z) (lockName lockOwnerName : gostring)          (* dumpstep.go:3-12 *)
| SHashed (s : single) (Hash Time Value : Z)                           (* hmessagestep.go:3-8 *)
| SMessage (s : single) (Message : gostring)                           (* messagestep.go:3-6 *)
| SPMessage (s : single) (Hash Elapsed Level : Z) (paramString : gostring) (* pmessagestep.go:16-23; tempMap is never used *)
| SAsync (s : single) (Txid Hash Elapsed : Z).                         (* threadstep.go:3-8 *)

Definition step_single (st : step) : single :=
  match st with
  | SMethod s _ _ _ | SApiCall s _ _ _ _ _ _ _ | SDump s _ _ _ _ _ _ _ | SHashed s _ _ _
  | SMessage s _ | SPMessage s _ _ _ _ | SAsync s _ _ _ => s
  end.

(** step.go:3-26 constants and the GetStepType methods (methodstep.go:15, apicallstep.go:19,
    dumpstep.go:19 — which returns METHOD —, hmessagestep.go:17, messagestep.go:15,
    pmessagestep.go:32, threadstep.go:15) *)
Definition step_type (st : step) : Z :=
  match st with
  | SMethod _ _ _ _ => 1
  | SApiCall _ _ _ _ _ _ _ _ => 6
  | SDump _ _ _ _ _ _ _ _ => 1
  | SHashed _ _ _ _ => 9
  | SMessage _ _ => 3
  | SPMessage _ _ _ _ _ => 17
  | SAsync _ _ _ _ => 14
  end.

(** methodstep.go:19-29, apicallstep.go:23-39, dumpstep.go:23-37, hmessagestep.go:21-30,
    messagestep.go:19-24, pmessagestep.go:36-46, threadstep.go:19-29 *)
Definition write_step_body (st : step) : dout -> dout :=
  match st with
  | SMethod s h e c => wseq [write_single s; write_decimal32 h; write_decimal32 e; write_decimal32 c]
  | SApiCall s t h e c er o a =>
      wseq ([write_single s; write_decimal t; write_decimal32 h; write_decimal32 e; write_decimal32 c;
             write_decimal32 er; write_uint8 o] ++ (if o =? 1 then [write_string a] else []))
  | SDump s st ti tn ts li ln lo =>
      wseq [write_single s; write_int32_array st; write_int64 ti; write_string tn; write_string ts;
            write_int64 li; write_string ln; write_string lo]
  | SHashed s h t v => wseq [write_single s; write_decimal32 h; write_decimal32 t; write_decimal32 v]
  | SMessage s m => wseq [write_single s; write_string m]
  | SPMessage s h e l p => wseq [write_single s; write_decimal32 h; write_decimal32 e; write_decimal32 l; write_string p]
  | SAsync s t h e => wseq [write_single s; write_decimal t; write_decimal32 h; write_decimal32 e; write_uint8 1]
  end.

(** dataoutputx.go:165-169 WriteStep *)
Definition write_step (st : step) (o : dout) : dout := write_step_body st (write_uint8 (step_type st) o).

(** step.go:81-92; a nil Step in the slice is [None].  The nil slice returns nil (no bytes). *)
Definition steps_to_bytes (steps : list (option step)) : bytes :=
  buf (fold_left (fun o st => match st with Some st => write_step st o | None => o end) steps new_dout).

(** pmessagestep.go:48-56: the parameters, each followed by ETX *)
Definition param_string (params : list gostring) : gostring := concat (map (fun p => p ++ [3]) params).
(** pmessagestep.go:48-56 *)
Definition set_message (st : step) (hash : Z) (params : list gostring) : step :=
  match st with
  | SPMessage s _ e l _ => SPMessage s hash e l (param_string params)
  | other => other
  end.
