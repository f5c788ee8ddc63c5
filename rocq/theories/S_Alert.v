(** Specification for C97: alerts about services that do not finish. *)
From Verif Require Import GoInt M_Packs M_Trace S_Util M_Cache S_Trace.

Definition AlertWarn := 1.
Definition AlertError := 2.
(** the decimal text of a number *)
Definition shows (z : Z) (t : gostring) : Prop := exists d, decimal_text (Z.abs z) d /\ t = if z <? 0 then 45 :: d else d.
(** [p] alerts about the service of [x], seen at [n], in the name of the object [ty], [obj] *)
Definition about (n : env) (ty : gostring) (obj : Z) (x : tctx) (p : alert_pack) : Prop :=
  al_Time p = 0 /\ al_Tags p = [] /\ al_Level p = (if cf_stuck_alert (n_conf n) then AlertError else AlertWarn) /\ al_ObjType p = ty /\ al_ObjHash p = obj /\ al_Title p = of_string "STUCK_SERVICE" /\
  exists ms g, shows (running_ms n x) ms /\ shows (x_Goid x) g /\
    al_Message p = of_string "service: " ++ x_ServiceName x ++ of_string ", elapsed: " ++ ms ++ of_string ", goId: " ++ g ++ of_string ", tctxGoId: %!d(MISSING)".
(** service [h] runs and is stuck *)
Definition stuck_service (n : env) (a : agent) (h : nat) (x : tctx) : Prop := nth_error (a_ctx a) h = Some x /\ x_Closed x = false /\ stuck n x.
(** the order in which the table of active services is enumerated is an enumeration of it *)
Definition enumerates (n : env) (a : agent) : Prop := Permutation.Permutation (n_order n) (M_Cache.table (a_active a)).
