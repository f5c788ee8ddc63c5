(** Specification: what a collector does with datagrams (the scouter server's NetDataProcessor /
    MultiPacketProcessor), independent of the agent. *)
From Verif Require Import GoInt S_Wire.

Record fragment := mkFragment { f_pkid : Z; f_total : Z; f_num : Z; f_data : bytes }.

(** "CAFM", objHash, pkid, total, num, data *)
Definition p_fragment : parser fragment :=
  m <- p_take 4 ;;
  if negb (beqb m (of_string "CAFM")) then pfail else
  _ <- p_i32 ;; pk <- p_i64 ;; t <- p_i16 ;; n <- p_i16 ;; d <- p_blob ;; pret (mkFragment pk t n d).

(** a whole datagram as a fragment *)
Definition as_fragment (d : bytes) : option fragment :=
  match p_fragment d with Some (f, []) => Some f | _ => None end.

(** piece number [i] of packet [pk] among the received datagrams, whatever their order *)
Fixpoint piece (pk i : Z) (ds : list bytes) : option fragment :=
  match ds with
  | [] => None
  | d :: ds' => match as_fragment d with
                | Some f => if (f_pkid f =? pk) && (f_num f =? i) then Some f else piece pk i ds'
                | None => piece pk i ds'
                end
  end.

Fixpoint pieces (pk : Z) (i : Z) (n : nat) (ds : list bytes) : option bytes :=
  match n with
  | O => Some []
  | S m => match piece pk i ds, pieces pk (i + 1) m ds with
           | Some f, Some rest => Some (f_data f ++ rest)
           | _, _ => None
           end
  end.

(** the packet [pk], once all of its pieces (as announced by piece 0) have arrived *)
Definition reassemble (pk : Z) (ds : list bytes) : option bytes :=
  match piece pk 0 ds with
  | Some f => if 0 <? f_total f then pieces pk 0 (Z.to_nat (f_total f)) ds else None
  | None => None
  end.

(** [fs] carry exactly [b] in numbered pieces: any set of received datagrams that contains all of them,
    in any order, repeated or not, and mixed with anything that is not a fragment of the same packet,
    reassembles to [b] *)
Definition carries (fs : list bytes) (b : bytes) : Prop :=
  exists pk, forall received, incl fs received ->
    (forall d f, In d received -> as_fragment d = Some f -> f_pkid f = pk -> In d fs) ->
    reassemble pk received = Some b.

(** [delivers ds bs]: the datagrams [ds] deliver exactly the buffers [bs], once each and in this order *)
Inductive delivers : list bytes -> list bytes -> Prop :=
| dl_nil : delivers [] []
| dl_one ds bs b : delivers ds bs -> delivers (ds ++ [of_string "CAFE" ++ b]) (bs ++ [b])
| dl_many ds bs g d : delivers ds bs -> g <> [] -> zlen g <= 32767 ->
    d = of_string "CAFN" ++ be 2 (zlen g) ++ concat g -> delivers (ds ++ [d]) (bs ++ g)
| dl_frags ds bs fs b : delivers ds bs -> carries fs b -> delivers (ds ++ fs) (bs ++ [b]).
