(** Models scouterx/netio/udpclient/udpclient.go and scouterx/netio/udpsender/udpsender.go.
    A datagram is the byte string given to Conn.Write; writing to the socket appends it to the list of
    datagrams. The socket is connected (Conn != nil) unless stated otherwise; what the network does with a
    datagram is not modelled. *)
From Verif Require Import GoInt M_OutX.

(** netcafeconstants.go:3-5 *)
Definition CAFE : bytes := of_string "CAFE".
(** netcafeconstants.go:4 *)
Definition CAFE_N : bytes := of_string "CAFN".
(** netcafeconstants.go:5 *)
Definition CAFE_MTU : bytes := of_string "CAFM".

(** arrayutil.go:4-6 CopyArray(data, pos, length), for 0 <= pos and pos+length <= len(data) *)
Definition copy_array (data : bytes) (pos len : Z) : bytes :=
  firstn (Z.to_nat len) (skipn (Z.to_nat pos) data).

(** udpclient.go:82-93 writeMTUSub *)
Definition mtu_datagram (pkid total num : Z) (data : bytes) : bytes :=
  buf (wseq [write_raw CAFE_MTU; write_int32 0; write_int64 pkid; write_int16 (int16 total);
             write_int16 (int16 num); write_blob data] new_dout).

(** udpclient.go:73-75: the loop over full packets, num counting up to [n] *)
Fixpoint mtu_loop (pkid total : Z) (data : bytes) (ps : Z) (num : Z) (n : nat) : list bytes :=
  match n with
  | O => []
  | S m => mtu_datagram pkid total num (copy_array data (num * ps) ps) :: mtu_loop pkid total data ps (num + 1) m
  end.

(** udpclient.go:61-80 writeMTU; [pkid] is the value drawn from keygen.Next. [None]: integer division
    by zero panics. Go's / and % truncate. *)
Definition write_mtu (pkid : Z) (data : bytes) (ps : Z) : option (list bytes) :=
  if ps =? 0 then None
  else
    let full := Z.quot (zlen data) ps in
    let remainder := Z.rem (zlen data) ps in
    let total := if 0 <? remainder then full + 1 else full in
    Some (mtu_loop pkid total data ps 0 (Z.to_nat full) ++
          (if 0 <? remainder
           then [mtu_datagram pkid total (Z.max 0 full) (copy_array data (zlen data - remainder) remainder)]
           else [])).

(** udpclient.go:106-119 WriteBuffer *)
Definition write_buffer (max pkid : Z) (b : bytes) : option (list bytes) :=
  if max <? zlen b then write_mtu pkid b max
  else Some [buf (write_raw b (write_raw CAFE new_dout))].

(** udpclient.go:95-103 sendBufferList *)
Definition list_datagram (count : Z) (data : bytes) : bytes :=
  buf (wseq [write_raw CAFE_N; write_int16 count; write_raw data] new_dout).

(** udpclient.go:127-141, the loop of WriteBufferList. [pkids n] is the n-th key drawn.
    [out]/[count] are the local variables; the result is the datagrams sent and the final locals. *)
Fixpoint buffer_loop (max : Z) (pkids : nat -> Z) (bs : list bytes) (out : dout) (count : Z)
  : option (list bytes * dout * Z) :=
  match bs with
  | [] => Some ([], out, count)
  | b :: bs' =>
      if max <? zlen b then
        match write_mtu (pkids O) b max with
        | None => None
        | Some ds => match buffer_loop max (fun n => pkids (S n)) bs' out count with
                     | Some (ds', o, c) => Some (ds ++ ds', o, c)
                     | None => None
                     end
        end
      else if max <? zlen b + get_write_size out then
        match buffer_loop max pkids bs' (write_raw b new_dout) 1 with
        | Some (ds', o, c) => Some (list_datagram count (buf out) :: ds', o, c)
        | None => None
        end
      else buffer_loop max pkids bs' (write_raw b out) (int16 (count + 1))
  end.

(** udpclient.go:121-147 WriteBufferList *)
Definition write_buffer_list (max : Z) (pkids : nat -> Z) (bs : list bytes) : option (list bytes) :=
  match buffer_loop max pkids bs new_dout 0 with
  | Some (ds, o, c) => Some (if 0 <? get_write_size o then ds ++ [list_datagram c (buf o)] else ds)
  | None => None
  end.

(* ------------------------------------------------------------------ *)
(** * udpsender *)

(** what the sender goroutine is doing: between iterations of run(), or inside send(size) having still
    to receive [todo] buffers, with bufferList [held] and [bytes]; udpsender.go:105-152 *)
Inductive sender := Idle | Sending (todo : nat) (held : list bytes) (size : Z).

(** [queue]: the channel, oldest first, with capacity [qcap] (channelfactory.go:10-17);
    [wire]: datagrams written so far; [accepted]/[dropped]: what AddPack/AddBuffer did *)
Record usys := mkUsys { queue : list bytes; snd_state : sender; wire : list bytes; accepted : list bytes; dropped : list bytes }.
(** udpsender.go:31-46: the start *)
Definition usys0 : usys := mkUsys [] Idle [] [] [].

(** udpsender.go:69-85 AddPack / AddBuffer: non-blocking channel send of the serialised pack *)
Definition add_buffer (qcap : Z) (b : bytes) (s : usys) : usys :=
  if zlen (queue s) <? qcap
  then mkUsys (queue s ++ [b]) (snd_state s) (wire s) (accepted s ++ [b]) (dropped s)
  else mkUsys (queue s) (snd_state s) (wire s) (accepted s) (dropped s ++ [b]).

(** udpsender.go:144-152 sendList *)
Definition send_list (max : Z) (pkids : nat -> Z) (l : list bytes) : option (list bytes) :=
  match l with
  | [] => Some []
  | [b] => write_buffer max (pkids O) b
  | _ => write_buffer_list max pkids l
  end.

(** One move of the sender goroutine, udpsender.go:105-142. [max] is both ac.UDPMaxBytes and the
    client's limit (udpsender.go:41, 59). [None]: panic. *)
Definition sender_step (max : Z) (pkids : nat -> Z) (s : usys) : option usys :=
  match snd_state s with
  | Idle =>
      match queue s with
      | [] => Some s                                                  (* case 0: sleep *)
      | [b] => match write_buffer max (pkids O) b with                (* case 1 *)
               | Some ds => Some (mkUsys [] Idle (wire s ++ ds) (accepted s) (dropped s))
               | None => None
               end
      | q => Some (mkUsys q (Sending (length q) [] 0) (wire s) (accepted s) (dropped s))
      end
  | Sending O held _ =>
      match write_buffer_list max pkids held with
      | Some ds => Some (mkUsys (queue s) Idle (wire s ++ ds) (accepted s) (dropped s))
      | None => None
      end
  | Sending (S n) held size =>
      match queue s with
      | [] => Some s                                                  (* blocks on the channel *)
      | b :: q =>
          if max <=? size + zlen b then
            match send_list max pkids held with
            | Some ds => Some (mkUsys q (Sending n [b] (zlen b)) (wire s ++ ds) (accepted s) (dropped s))
            | None => None
            end
          else Some (mkUsys q (Sending n (held ++ [b]) (size + zlen b)) (wire s) (accepted s) (dropped s))
      end
  end.
