(** Specification: what may happen when arbitrary bytes arrive on the command connection. *)
From Verif Require Import GoInt M_OutX M_InX M_Value M_Packs M_Conf M_Tcp.

(** [part] occurs in [all] *)
Definition occurs (part all : bytes) : Prop := exists before behind, all = before ++ part ++ behind.

(** The text was sent: it, or the part of it in front of trailing zeros, is among the bytes that arrived. *)
Definition was_sent (text all : bytes) : Prop := exists part zeros, text = part ++ repeat 0 zeros /\ occurs part all.

(** [obeyed cmds s s' replies]: the state goes from [s] to [s'] by obeying exactly these commands, in this order, and by refreshes of the configuration;
    there is one reply per command. *)
Inductive obeyed : list (gostring * option pack) -> hstate -> hstate -> list bytes -> Prop :=
| ob_none s : obeyed [] s s []
| ob_refresh ops c cmds s s' replies : conf_run ops (hs_conf s) = Some c -> obeyed cmds (set_conf c s) s' replies -> obeyed cmds s s' replies
| ob_command h cmd param cmds s s1 s' out res replies : handle h cmd param s new_dout = (s1, out, res) -> obeyed cmds s1 s' replies ->
    obeyed ((cmd, param) :: cmds) s s' (response out res :: replies).
