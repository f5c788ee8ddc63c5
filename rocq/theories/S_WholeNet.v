(** What the whole agent gives to the UDP client, for C87. *)
From Verif Require Import GoInt M_Packs M_Conf M_Udp M_Net M_Cache M_Text M_Agent M_Tasks M_Whole S_Net.

(** the packs that what was observed speaks of: texts offered to the queue, announcements of the object, packs sent directly *)
Definition packs_of_event (e : gevent) : list pack :=
  match e with GText (EvOffer _ t _) => [PText t] | GAnnounced o => [PObject o] | GDirect p => [p] | _ => [] end.
(** the packs put into the queue by the tracing code *)
Definition packs_of_move (m : hmove) : list pack := match m with HQueue p => [p] | _ => [] end.
(** all packs the agent handed to its UDP client in the history [ms] that ended with [s], in no particular order *)
Definition handed (ms : list hmove) (s : whole) : list pack := flat_map packs_of_move ms ++ flat_map packs_of_event (g_log (h_proc s)).

(** the random numbers drawn at a move are 64-bit numbers; those of one division of a pack's list of datagrams differ *)
Definition random_keys (m : hmove) : Prop :=
  match m with
  | HEnd k | HDirect k _ | HTask k _ => in_int64 k
  | HSender ks => (forall i, in_int64 (ks i)) /\ (forall i j, Z.of_nat i < 32768 -> Z.of_nat j < 32768 -> ks i = ks j -> i = j)
  | _ => True
  end.
(** no move uses a number for fragments that was used before *)
Definition fresh_keys (ms : list hmove) (s0 : whole) : Prop :=
  forall before m after s s', ms = before ++ m :: after -> whole_run before s0 = Some s -> whole_step m s = Some s' ->
    random_keys m /\ new_keys (g_net (h_proc s)) (g_net (h_proc s')).
(** the datagram limit of every moment of the history is between [lo] and 2^31-1 *)
Definition limits_from (lo : Z) (ms : list hmove) (s0 : whole) : Prop :=
  forall before after s, ms = before ++ after -> whole_run before s0 = Some s -> lo <= cf_UDPMaxBytes (settings_of s) <= 2147483647.
