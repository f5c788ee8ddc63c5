(** Models the alerts of scouterx/strace/tctxmanager/tctxmanager.go:74-106 (GetActiveCount), which M_Trace.v's [active_loop] records without their text. *)
From Verif Require Import GoInt M_Util M_Packs M_Cache M_Trace.

(** tctxmanager.go:97: fmt.Sprintf("service: %s, elapsed: %d, goId: %d, tctxGoId: %d", tctx.ServiceName, elapsed, tctx.Goid): three arguments for
    four verbs, so fmt writes %!d(MISSING) for the last *)
Definition stuck_message (name : gostring) (elapsed goid : Z) : gostring :=
  of_string "service: " ++ name ++ of_string ", elapsed: " ++ format_int 10 elapsed ++ of_string ", goId: " ++ format_int 10 goid ++
  of_string ", tctxGoId: %!d(MISSING)".

(** dataproxy.go:156-168 SendAlert with the title "STUCK_SERVICE": the pack given to SendPackDirect; [ty], [obj]: ac.ObjType, ac.ObjHash *)
Definition stuck_pack (ty : gostring) (obj level : Z) (msg : gostring) : alert_pack := mk_alert_pack 0 level ty obj (of_string "STUCK_SERVICE") msg [].

(** tctxmanager.go:74-106 GetActiveCount, the alert packs it sends, oldest first. The counting itself is [active_loop]'s; [alert_loop_state] in
    L_Alert.v shows that both leave the same state. *)
Fixpoint alert_loop (n : env) (ty : gostring) (obj count : Z) (values : list nat) : M (list alert_pack) :=
  match values with
  | [] => ret []
  | h :: rest =>
      if 2000 <? count + 1 then ret []
      else
        elapsed <- read h (fun x => Z.quot (time_sub (n_now n) (x_StartTime x)) 1000000) ;;
        ps <- (if cf_stuck_ms (n_conf n) <? elapsed then
                 (end_stuck n h ;;
                  msg <- read h (fun x => stuck_message (x_ServiceName x) elapsed (x_Goid x)) ;;
                  emit (EvAlert (if cf_stuck_alert (n_conf n) then 2 else 1) (of_string "STUCK_SERVICE")) ;;
                  ret [stuck_pack ty obj (if cf_stuck_alert (n_conf n) then 2 else 1) msg])
               else ret []) ;;
        qs <- alert_loop n ty obj (count + 1) rest ;;
        ret (ps ++ qs)
  end.
(** tctxmanager.go:74-106 GetActiveCount, from the list of running services on *)
Definition active_alerts (n : env) (ty : gostring) (obj : Z) : M (list alert_pack) :=
  fun a => alert_loop n ty obj 0 (handles (lra_values (a_active a) (n_order n))) a.

(** repeated counts: the counter task calls GetActiveCount every two seconds (countertask.go); countertask.go:22-28,38-74 *)
Fixpoint count_again (ty : gostring) (obj : Z) (ns : list env) (a : agent) : list (list alert_pack) :=
  match ns with
  | [] => []
  | n :: rest => let '(b, r) := active_alerts n ty obj a in (match r with Some ps => ps | None => [] end) :: count_again ty obj rest b
  end.
