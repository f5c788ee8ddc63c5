(** Specification for C87: the sender's histories with a changing datagram size limit. *)
From Verif Require Import GoInt M_Packs M_Udp M_Net S_Net M_NetLimit.

(** [changing qcap lo qs ps s]: as [history] of S_Net.v, with the packs [qs] queued and [ps] sent directly, while the limit is set to any values from [lo] up to
    2^31-1, at any time; the batching may see any value of the setting at any moment. Fragment keys do not repeat. *)
Inductive changing (qcap lo : Z) : list pack -> list pack -> lnet -> Prop :=
| ch_start conn max : lo <= max <= 2147483647 -> changing qcap lo [] [] (lnet0 conn max)
| ch_queue qs ps p s : changing qcap lo qs ps s -> proper lo p -> changing qcap lo (qs ++ [p]) ps (l_add_pack qcap p s)
| ch_direct qs ps p pkid s s' : changing qcap lo qs ps s -> proper lo p -> in_int64 pkid ->
    l_direct pkid p s = Some s' -> new_keys (l_net s) (l_net s') -> changing qcap lo qs (ps ++ [p]) s'
| ch_sender qs ps thr pkids s s' : changing qcap lo qs ps s -> (forall i, in_int64 (pkids i)) -> (forall i j, Z.of_nat i < 32768 -> Z.of_nat j < 32768 -> pkids i = pkids j -> i = j) ->
    l_sender thr pkids s = Some s' -> new_keys (l_net s) (l_net s') -> changing qcap lo qs ps s'
| ch_write_sender qs ps s : changing qcap lo qs ps s -> changing qcap lo qs ps (l_move net_write_sender s)
| ch_write_job qs ps i s : changing qcap lo qs ps s -> changing qcap lo qs ps (l_move (net_write_job i) s)
| ch_reload qs ps conn max s : changing qcap lo qs ps s -> lo <= max <= 2147483647 -> changing qcap lo qs ps (l_reload conn max s)
| ch_close qs ps c s : changing qcap lo qs ps s -> changing qcap lo qs ps (l_move (net_close c) s).

(** [limited qcap lim s]: any history whatever; [lim] is the limit last given to the sender. *)
Inductive limited (qcap : Z) : Z -> lnet -> Prop :=
| lm_start conn max : limited qcap max (lnet0 conn max)
| lm_queue lim p s : limited qcap lim s -> limited qcap lim (l_add_pack qcap p s)
| lm_direct lim p pkid s s' : limited qcap lim s -> l_direct pkid p s = Some s' -> limited qcap lim s'
| lm_sender lim thr pkids s s' : limited qcap lim s -> l_sender thr pkids s = Some s' -> limited qcap lim s'
| lm_write_sender lim s : limited qcap lim s -> limited qcap lim (l_move net_write_sender s)
| lm_write_job lim i s : limited qcap lim s -> limited qcap lim (l_move (net_write_job i) s)
| lm_reload lim conn max s : limited qcap lim s -> limited qcap max (l_reload conn max s)
| lm_close lim c s : limited qcap lim s -> limited qcap lim (l_move (net_close c) s).
