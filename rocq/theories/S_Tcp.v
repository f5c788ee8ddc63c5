(** Specification vocabulary for the command connection: frames, segmentation, responses, delays. *)
From Verif Require Import GoInt M_InX M_Value M_Tcp S_Wire S_Dump.

(** a frame on the wire: its length as four bytes, then the payload *)
Definition frame (p : bytes) : bytes := be 4 (zlen p) ++ p.

(** TCP cuts the byte stream at position [k] *)
Definition cut_at (r : reader) (k : nat) : Prop := exists r1 r2, r = r1 ++ r2 /\ length (concat r1) = k.

(** the stream carries exactly these frames ... *)
Definition carries (r : reader) (ps : list bytes) : Prop :=
  concat r = concat (map frame ps) /\ Forall (fun p => zlen p <= 2147483647) ps.
(** ... and is not cut inside any payload (a length may be cut anywhere) *)
Definition unsplit (r : reader) (ps : list bytes) : Prop :=
  forall ps1 p ps2 k, ps = ps1 ++ p :: ps2 -> cut_at r k ->
    let start := (length (concat (map frame ps1)) + 4)%nat in
    ~ (start < k < start + length p)%nat.

(** the collector reading one response from the connection *)
Definition next_response {A} (item : parser A) (bs : bytes) : option (list A * bytes) := p_items item (length bs) bs.
(** an item that carries a pack: its length as four bytes, then its bytes *)
Definition p_int_bytes : parser bytes := n <- p_i32 ;; p_take n.

(** total pause before each attempt *)
Fixpoint delays_from (waited : Z) (es : list tcp_event) : list Z :=
  match es with
  | [] => []
  | Pause ms :: es' => delays_from (waited + ms) es'
  | Try _ :: es' => waited :: delays_from 0 es'
  end.
Definition delays (es : list tcp_event) : list Z := delays_from 0 es.

(** an attempt that failed *)
Definition failed (o : attempt) : bool := match o with DialFailed | SessionError => true | _ => false end.
