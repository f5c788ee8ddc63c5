(** Specification: a collector that decodes the datagrams it receives, in whatever order they come (the scouter server's NetDataProcessor and
    MultiPacketProcessor), and the histories of the sender. *)
From Verif Require Import GoInt S_Wire M_Packs S_Packs M_Udp S_Udp M_Net.
From Coq Require Import Permutation.

(** a buffer with one pack in it *)
Definition one_pack (b : bytes) : list pack := match p_pack false b with Some (p, []) => [p] | _ => [] end.
(** [n] packs one after the other *)
Fixpoint some_packs (n : nat) (b : bytes) : list pack :=
  match n with
  | O => []
  | S m => match p_pack false b with Some (p, rest) => p :: some_packs m rest | None => [] end
  end.
(** what datagram [d] brings. "CAFE": a pack. "CAFN": a number of packs. "CAFM": a piece of a pack, which is read when all of its pieces are
    among the [received] ones; it is counted with piece 0. *)
Definition brings (received : list bytes) (d : bytes) : list pack :=
  if beqb (firstn 4 d) (of_string "CAFE") then one_pack (skipn 4 d)
  else if beqb (firstn 4 d) (of_string "CAFN") then
    match p_i16 (skipn 4 d) with Some (n, rest) => some_packs (Z.to_nat n) rest | None => [] end
  else match as_fragment d with
       | Some f => if f_num f =? 0 then match reassemble (f_pkid f) received with Some b => one_pack b | None => [] end else []
       | None => []
       end.
Definition collector (received : list bytes) : list pack := flat_map (brings received) received.

(** packs as the agent makes them: values of their Go types, small enough for 32767 fragments (C29); object packs of the second version are not
    used by the agent *)
Definition proper (max : Z) (p : pack) : Prop := go_pack p = true /\ needs_v2 p = false /\ zlen (bytes_of p) <= 32767 * max.

(** the keys by which the fragments among [ds] are told apart *)
Definition keys_of (ds : list bytes) : list Z := flat_map (fun d => match as_fragment d with Some f => [f_pkid f] | None => [] end) ds.

(** the datagrams of the move from [s] to [s'] use no key that was used before *)
Definition new_keys (s s' : netsys) : Prop := forall k, In k (keys_of (skipn (length (x_made s)) (x_made s'))) -> ~ In k (keys_of (x_made s)).

(** [history qcap max qs ps s]: the packs [qs] were given to the queue and the packs [ps] to SendPackDirect, each in this order, while
    the sender goroutine and the goroutines of SendPackDirect were running in any interleaving and clients were exchanged at any time; the sender
    is now in state [s]. Fragment keys do not repeat. *)
Inductive history (qcap max : Z) : list pack -> list pack -> netsys -> Prop :=
| hi_start conn : history qcap max [] [] (net0 conn)
| hi_queue qs ps p s : history qcap max qs ps s -> proper max p -> history qcap max (qs ++ [p]) ps (net_add_pack qcap p s)
| hi_direct qs ps p pkid s s' : history qcap max qs ps s -> proper max p -> in_int64 pkid ->
    net_direct max pkid p s = Some s' -> new_keys s s' -> history qcap max qs (ps ++ [p]) s'
| hi_sender qs ps pkids s s' : history qcap max qs ps s -> (forall i, in_int64 (pkids i)) ->
    net_sender max pkids s = Some s' -> new_keys s s' -> history qcap max qs ps s'
| hi_write_sender qs ps s : history qcap max qs ps s -> history qcap max qs ps (net_write_sender s)
| hi_write_job qs ps i s : history qcap max qs ps s -> history qcap max qs ps (net_write_job i s)
| hi_reload qs ps conn s : history qcap max qs ps s -> history qcap max qs ps (net_reload conn s)
| hi_close qs ps c s : history qcap max qs ps s -> history qcap max qs ps (net_close c s).

(** nothing is under way: every goroutine has written its datagrams, the queue is empty *)
Definition at_rest (s : netsys) : Prop := x_uout s = [] /\ concat (x_jobs s) = [] /\ queue (x_u s) = [] /\ snd_state (x_u s) = Idle.

(** [a] is [b] without some of its elements, in any order *)
Definition some_of {A} (a b : list A) : Prop := exists rest, Permutation (a ++ rest) b.

(** [sub] without some of the elements of [l], in the same order *)
Inductive part_of {A} : list A -> list A -> Prop :=
| part_nil : part_of [] []
| part_keep x sub l : part_of sub l -> part_of (x :: sub) (x :: l)
| part_drop x sub l : part_of sub l -> part_of sub (x :: l).
