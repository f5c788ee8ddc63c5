(** Specification: collector-side step parser (after the Java scouter.lang.step.* read methods and
    StepEnum), independent of the agent's code. *)
From Verif Require Import GoInt M_Steps S_Wire S_Value S_Packs.

Definition p_single : parser single :=
  p <- p_decimal ;; i <- p_decimal ;; t <- p_decimal ;; cpu <- p_decimal ;;
  if cpu =? 0 then pret (mk_single p i t) else pfail.

(** readIntArray: 16-bit count *)
Definition p_int_array : parser (list Z) := n <- p_i16 ;; p_many p_i32 (Z.to_nat n).

(** the dump body, which the Java collector expects under step type 12 *)
Definition p_dump_body : parser step :=
  s <- p_single ;; st <- p_int_array ;; ti <- p_i64 ;; tn <- p_text ;; ts <- p_text ;;
  li <- p_i64 ;; ln <- p_text ;; lo <- p_text ;; pret (SDump s st ti tn ts li ln lo).

Definition p_step : parser step :=
  t <- p_u8 ;;
  if t =? 1 then (s <- p_single ;; h <- p_decimal ;; e <- p_decimal ;; c <- p_decimal ;; pret (SMethod s h e c))
  else if t =? 3 then (s <- p_single ;; m <- p_text ;; pret (SMessage s m))
  else if t =? 6 then
    (s <- p_single ;; tx <- p_decimal ;; h <- p_decimal ;; e <- p_decimal ;; c <- p_decimal ;; er <- p_decimal ;;
     o <- p_u8 ;; if o =? 1 then (a <- p_text ;; pret (SApiCall s tx h e c er o a)) else pret (SApiCall s tx h e c er o []))
  else if t =? 9 then (s <- p_single ;; h <- p_decimal ;; ti <- p_decimal ;; v <- p_decimal ;; pret (SHashed s h ti v))
  else if t =? 12 then p_dump_body
  else if t =? 14 then
    (s <- p_single ;; tx <- p_decimal ;; h <- p_decimal ;; e <- p_decimal ;; one <- p_u8 ;; pret (SAsync s tx h e))
  else if t =? 17 then
    (s <- p_single ;; h <- p_decimal ;; e <- p_decimal ;; l <- p_decimal ;; p <- p_text ;; pret (SPMessage s h e l p))
  else pfail.

(** a profile: steps until the bytes are used up *)
Fixpoint p_steps (fuel : nat) (bs : bytes) : option (list step) :=
  match bs with
  | [] => Some []
  | _ => match fuel with
         | O => None
         | S f => match p_step bs with
                  | Some (st, bs') => match p_steps f bs' with Some l => Some (st :: l) | None => None end
                  | None => None
                  end
         end
  end.
Definition decode_profile (bs : bytes) : option (list step) := p_steps (length bs) bs.

Definition go_single (s : single) : bool := is_i32 (ss_Parent s) && is_i32 (ss_Index s) && is_i32 (ss_StartTime s).

(** Steps a Go program can hold. *)
Definition go_step (st : step) : bool :=
  go_single (step_single st) &&
  match st with
  | SMethod _ h e c => is_i32 h && is_i32 e && is_i32 c
  | SApiCall _ t h e c er o _ => is_i64 t && is_i32 h && is_i32 e && is_i32 c && is_i32 er && is_u8 o
  | SDump _ st ti _ _ li _ _ => forallb is_i32 st && is_i64 ti && is_i64 li
  | SHashed _ h t v => is_i32 h && is_i32 t && is_i32 v
  | SMessage _ _ => true
  | SPMessage _ h e l _ => is_i32 h && is_i32 e && is_u8 l
  | SAsync _ t h e => is_i64 t && is_i32 h && is_i32 e
  end.

Definition is_dump (st : step) : bool := match st with SDump _ _ _ _ _ _ _ _ => true | _ => false end.

(** What the collector is shown: over-long texts replaced, the address of an api call only with opt 1. *)
Definition view_step (st : step) : step :=
  match st with
  | SApiCall s t h e c er o a => SApiCall s t h e c er o (if o =? 1 then on_wire a else [])
  | SDump s st ti tn ts li ln lo => SDump s st ti (on_wire tn) (on_wire ts) li (on_wire ln) (on_wire lo)
  | SMessage s m => SMessage s (on_wire m)
  | SPMessage s h e l p => SPMessage s h e l (on_wire p)
  | other => other
  end.

(** The steps that are present (non-nil). *)
Fixpoint present {A} (l : list (option A)) : list A :=
  match l with [] => [] | Some x :: l' => x :: present l' | None :: l' => present l' end.

(** Splitting a parameter string at ETX (byte 3), the terminator of each parameter. *)
Fixpoint split_etx (cur : gostring) (s : gostring) : list gostring :=
  match s with
  | [] => []
  | b :: s' => if b =? 3 then rev cur :: split_etx [] s' else split_etx (b :: cur) s'
  end.
