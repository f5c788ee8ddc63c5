(** Specification: the numbers in xlogs and profiles that stand for texts, and when the collector has been told the text. *)
From Verif Require Import GoInt M_Hash M_Packs M_Steps M_Text S_Text M_Trace.

(** The numbers in a record that stand for texts, each with the kind under which the collector looks it up. *)
Definition xlog_ids (p : xlog_pack) : list (kind * Z) :=
  [(KService, xl_Service p); (KError, xl_Error p); (KUserAgent, xl_UserAgent p); (KReferer, xl_Referer p); (KLogin, xl_Login p); (KDesc, xl_Desc p);
   (KHashMsg, xl_ThreadNameHash p)].
Definition step_ids (st : step) : list (kind * Z) :=
  match st with
  | SMethod _ hash _ _ => [(KMethod, hash)]
  | SApiCall _ _ hash _ _ error _ _ => [(KApicall, hash); (KError, error)]
  | SDump _ stacks _ _ _ _ _ _ => map (fun s => (KStackElement, s)) stacks
  | SHashed _ hash _ _ => [(KHashMsg, hash)]
  | SMessage _ _ => []
  | SPMessage _ hash _ _ _ => [(KHashMsg, hash)]
  | SAsync _ _ hash _ => [(KApicall, hash)]
  end.

(** The number stands for no text, or a text pack with it, of the kind and with the text it stands for, is among the packs. *)
Definition told_in (packs : list (kind * text_pack)) (id : kind * Z) : Prop :=
  snd id = 0 \/ exists text, hash_string text = Some (snd id) /\ In (fst id, mk_text_pack (wire_type (fst id)) (snd id) text) packs.

(** the text packs given to the sender: ever, and since the kind's memory was last cleared (OBJECT_RESET_CACHE) *)
Fixpoint offers (log : list tevent) : list (kind * text_pack) :=
  match log with
  | [] => []
  | EvOffer k p _ :: older => (k, p) :: offers older
  | EvClear _ :: older => offers older
  end.
Definition told (a : agent) (id : kind * Z) : Prop := told_in (offers (t_log (a_text a))) id.
Definition told_since_reset (a : agent) (id : kind * Z) : Prop := told_in (map (pair (fst id)) (since_clear (fst id) (t_log (a_text a)))) id.

(** The application adds steps of its own making only if they carry no such number. *)
Definition adds_plain_steps (nk : env * call) : Prop :=
  match snd nk with KAddStep _ (Some st) => Forall (fun id => snd id = 0) (step_ids st) | _ => True end.
