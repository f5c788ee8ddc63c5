(** Specification: a whole conversation on the command connection. *)
From Verif Require Import GoInt M_OutX S_Wire M_Value M_Packs S_Packs M_Conf M_Tcp S_Tcp.

(** what the collector sends for one command: the command's text and a map pack with the parameters *)
Record request := mk_request { rq_cmd : gostring; rq_param : list (gostring * value) }.
Definition request_bytes (q : request) : bytes := buf (write_string (rq_cmd q) new_dout) ++ buf (write_pack (PMap (rq_param q)) new_dout).
(** a text no longer than 32767 bytes, parameters of Go's types of which the agent can read back every text, the whole shorter than 2 GB *)
Definition request_ok (q : request) : Prop :=
  zlen (rq_cmd q) <= 32767 /\ go_pack (PMap (rq_param q)) = true /\ readable_map (rq_param q) = true /\ zlen (request_bytes q) <= 2147483647.

(** [served me its reqs s s' answers]: the commands are obeyed one after the other, each in the state the one before left and with the configuration of
    the moment, whose identity stays [me]; [answers] is what the handlers wrote and returned. *)
Inductive served (me : Z * gostring * Z) : list (list cop * henv) -> list request -> hstate -> hstate -> list (dout * option pack) -> Prop :=
| sv_none s : served me [] [] s s []
| sv_one ops h its q reqs s c s1 out res s2 answers :
    conf_run ops (hs_conf s) = Some c -> identity (c_conf c) = me ->
    handle h (rq_cmd q) (Some (PMap (rq_param q))) (set_conf c s) new_dout = (s1, out, res) ->
    served me its reqs s1 s2 answers -> served me ((ops, h) :: its) (q :: reqs) s s2 ((out, res) :: answers).

(** The collector reading the answers one after the other: a pack behind a four-byte length, or the chunks of a file. *)
Inductive hears : list (dout * option pack) -> bytes -> Prop :=
| he_none : hears [] []
| he_pack out q answers bs rest : next_response p_int_bytes bs = Some ([buf (write_pack q new_dout)], rest) -> hears answers rest -> hears ((out, Some q) :: answers) bs
| he_chunks out chunks answers bs rest : next_response p_blob bs = Some (chunks, rest) -> hears answers rest -> hears ((out, None) :: answers) bs.
