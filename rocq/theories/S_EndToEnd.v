(** From API calls to the collector: the xlogs among the packs handed to the sender and among those the collector reads (S_Net.v). *)
From Verif Require Import GoInt S_Wire M_OutX M_Packs S_Packs M_Trace S_Ledger.

(** the xlogs of a log, and of a list of packs *)
Definition xlogs_of (log : list aevent) : list xlog_pack := flat_map (fun e => match e with EvXlog _ p => [p] | _ => [] end) log.
Definition xlogs_in (ps : list pack) : list xlog_pack := flat_map (fun p => match p with PXlog x => [x] | _ => [] end) ps.

(** an account with its over-long texts cut the way they are on the wire (C05) *)
Definition as_sent (c : account) : account :=
  mkAcc (num_of c) (fun f => match f with TText1 | TText2 | TText3 | TText4 | TText5 => on_wire (txt_of c f) | _ => txt_of c f end) (stream c) (over c) (did c).

(** arguments of their Go types: the configured object hash is an int32, user ids are int64 *)
Definition typed_ids (nk : env * call) : Prop :=
  in_int64 (n_key (fst nk)) /\ in_int32 (cf_obj (n_conf (fst nk))) /\ match snd nk with KUser _ u _ _ _ _ _ _ _ => in_int64 u | _ => True end.
