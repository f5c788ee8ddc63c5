(** C89: panics. *)
From Verif Require Import GoInt M_Packs M_Text M_Trace M_Defer S_Defer S_Trace L_Trace P_Trace.

(* ------------------------------------------------------------------ *)
(** ** Lemmas *)
Lemma exec_invoke {St} (c : code St) p got ds s : exec c p got ds s =
  match c with
  | Done => (s, None, got, ds)
  | Act f k => match f s with (s', None) => exec k p got ds s' | (s', Some v) => (s', Some v, got, ds) end
  | Test t a b => if t s then exec a p got ds s else exec b p got ds s
  | Call f k => match invoke f None s with (s', None, _) => exec k p got ds s' | (s', Some v, _) => (s', Some v, got, ds) end
  | Defer f k => exec k p got (invoke f :: ds) s
  | Recover k =>
      match p with
      | Some v => if got then exec (k None) p got ds s else exec (k (Some v)) p true ds s
      | None => exec (k None) p got ds s
      end
  end.
Proof. destruct c; reflexivity. Qed.

Lemma send_alert_ok {A} l t m (g : gst A) : snd (send_alert l t m g) = None.
Proof. unfold send_alert. destruct t; reflexivity. Qed.

(** the state after a report *)
Definition told {A} (v stack : gostring) (g : gst A) : gst A :=
  fst (send_alert 3 (of_string "Panic") (v ++ of_string " - " ++ stack) (print (of_string "[scouter][panic]" ++ v ++ [10] ++ stack) g)).

Lemma report_none {A} stack (g : gst A) : invoke (report stack) None g = (g, None, false).
Proof. reflexivity. Qed.
Lemma report_some {A} stack v (g : gst A) : s_reg g = true -> invoke (report stack) (Some v) g = (told v stack g, None, true).
Proof.
  intros R. unfold invoke, report, report_with. rewrite exec_invoke, exec_invoke, exec_invoke.
  change (s_reg (print (of_string "[scouter][panic]" ++ v ++ [10] ++ stack) g)) with (s_reg g). rewrite R. reflexivity.
Qed.
Lemma report_unregistered {A} stack v (g : gst A) : s_reg g = false ->
  invoke (report stack) (Some v) g = (print (of_string "[scouter][panic]" ++ v ++ [10] ++ stack) g, Some nil_call, true).
Proof.
  intros R. unfold invoke, report, report_with. rewrite exec_invoke, exec_invoke, exec_invoke.
  change (s_reg (print (of_string "[scouter][panic]" ++ v ++ [10] ++ stack) g)) with (s_reg g). rewrite R. reflexivity.
Qed.

(** one tracing call *)
Lemma trace_code_eq {A} (t : tracing A) p g : s_reg g = true ->
  invoke (trace_code t) p g = (match body_act t g with (g', None) => g' | (g', Some v) => told v (t_stack t) g' end, None, false).
Proof.
  intros R. unfold invoke at 1, trace_code, guarded. rewrite exec_invoke, exec_invoke. destruct (body_act t g) as [g' [v|]] eqn:E.
  - assert (s_reg g' = true) as R'.
    { unfold body_act in E. destruct (unguarded _ _) as [[d m]|]; [|injection E as <- E; discriminate E].
      destruct (m (s_agent g)) as [a [r|]]; injection E as <- E; [discriminate E|]. exact R. }
    cbn [unwind]. rewrite (report_some _ _ _ R'). reflexivity.
  - rewrite exec_invoke. cbn [unwind]. rewrite report_none. reflexivity.
Qed.
Lemma body_act_keeps {A} (t : tracing A) g : s_app (fst (body_act t g)) = s_app g /\ s_reg (fst (body_act t g)) = s_reg g.
Proof. unfold body_act. destruct (unguarded _ _) as [[d m]|]; [|auto]. destruct (m (s_agent g)) as [a [r|]]; auto. Qed.
Lemma trace_code_keeps {A} (t : tracing A) p g : s_reg g = true ->
  exists g', invoke (trace_code t) p g = (g', None, false) /\ s_app g' = s_app g /\ s_reg g' = true.
Proof.
  intros R. rewrite (trace_code_eq t p g R). destruct (body_act_keeps t g) as (H1 & H2). destruct (body_act t g) as [g' [v|]]; cbn [fst] in *;
    (eexists; split; [reflexivity|]); split; congruence || (cbn; congruence).
Qed.

(* ------------------------------------------------------------------ *)
(** ** The application does not notice *)
Definition same_meaning {A} (dw : meaning (gst A)) (dp : meaning A) : Prop :=
  forall p g, s_reg g = true -> exists g' o r, dw p g = (g', o, r) /\ s_reg g' = true /\ dp p (s_app g) = (s_app g', o, r).
Inductive same_defers {A} : list (meaning (gst A)) -> list (meaning A) -> Prop :=
| sd_nil : same_defers [] []
| sd_both dw dp ws ps : same_meaning dw dp -> same_defers ws ps -> same_defers (dw :: ws) (dp :: ps)
| sd_trace t ws ps : same_defers ws ps -> same_defers (invoke (trace_code t) :: ws) ps.

Lemma same_unwind {A} (ws : list (meaning (gst A))) ps : same_defers ws ps -> forall o g, s_reg g = true ->
  exists g' o', unwind ws o g = (g', o') /\ s_reg g' = true /\ unwind ps o (s_app g) = (s_app g', o').
Proof.
  induction 1 as [|dw dp ws ps M _ IH|t ws ps _ IH]; intros o g R.
  - exists g, o. auto.
  - destruct (M o g R) as (g1 & o1 & r & E1 & R1 & E2). cbn [unwind]. rewrite E1, E2. apply IH. exact R1.
  - destruct (trace_code_keeps t o g R) as (g1 & E1 & A1 & R1). cbn [unwind]. rewrite E1. rewrite <- A1. apply IH. exact R1.
Qed.

Lemma same_exec {A} (P : app A) :
  forall p got ws ps g, s_reg g = true -> same_defers ws ps ->
  exists g' o r ws' ps', exec (weave P) p got ws g = (g', o, r, ws') /\ s_reg g' = true /\ same_defers ws' ps' /\
    exec (plain P) p got ps (s_app g) = (s_app g', o, r, ps').
Proof.
  assert (forall f : app A, (forall p got ws ps g, s_reg g = true -> same_defers ws ps ->
      exists g' o r ws' ps', exec (weave f) p got ws g = (g', o, r, ws') /\ s_reg g' = true /\ same_defers ws' ps' /\
        exec (plain f) p got ps (s_app g) = (s_app g', o, r, ps')) -> same_meaning (invoke (weave f)) (invoke (plain f))) as K.
  { intros f IH p g R. destruct (IH p false [] [] g R sd_nil) as (g1 & o1 & r1 & ws & ps & E1 & R1 & D1 & E2).
    unfold invoke. rewrite E1, E2. destruct (same_unwind _ _ D1 o1 g1 R1) as (g2 & o2 & E3 & R2 & E4). rewrite E3, E4. exists g2, o2, r1. auto. }
  induction P as [|f k IH|c a IHa b IHb|f IHf k IH|f IHf k IH|k IH|t k IH|t k IH]; intros p got ws ps g R D; cbn [weave plain]; rewrite (exec_invoke _ p got ws g).
  - rewrite exec_invoke. exists g, None, got, ws, ps. auto.
  - rewrite exec_invoke. destruct (f (s_app g)) as [x [v|]].
    + exists (with_app x g), (Some v), got, ws, ps. auto.
    + apply (IH p got ws ps (with_app x g)); assumption.
  - rewrite (exec_invoke (Test c _ _)). destruct (c (s_app g)); [apply IHa|apply IHb]; assumption.
  - rewrite (exec_invoke (Call (plain f) _)). destruct (K f IHf None g R) as (g1 & o1 & r1 & E1 & R1 & E2). rewrite E1, E2. destruct o1 as [v|].
    + exists g1, (Some v), got, ws, ps. auto.
    + apply IH; assumption.
  - rewrite (exec_invoke (Defer (plain f) _)). apply IH; [exact R|]. constructor; [|exact D]. apply K, IHf.
  - rewrite (exec_invoke (Recover _)). destruct p as [v|]; [destruct got|]; apply IH; assumption.
  - destruct (trace_code_keeps t None g R) as (g1 & E1 & A1 & R1). rewrite E1, <- A1. apply IH; assumption.
  - apply IH; [exact R|]. constructor. exact D.
Qed.

(** Any application, with tracing calls anywhere - in its functions, deferred around its own panics, inside its recover
    handlers - whatever these calls do inside the agent, panicking included: the application ends with the same panic or
    none, recovers the same panics, and is left in the same state as without the tracing calls. *)
Theorem C89_transparent_partial {A} (P : app A) p (g : gst A) : s_reg g = true ->
  exists g' o r, invoke (weave P) p g = (g', o, r) /\ invoke (plain P) p (s_app g) = (s_app g', o, r) /\ s_reg g' = true.
Proof.
  intros R. destruct (same_exec P p false [] [] g R sd_nil) as (g1 & o1 & r1 & ws & ps & E1 & R1 & D1 & E2).
  unfold invoke. rewrite E1, E2. destruct (same_unwind _ _ D1 o1 g1 R1) as (g2 & o2 & E3 & R2 & E4). rewrite E3, E4. exists g2, o2, r1. auto.
Qed.

(** Registration is all it takes: once Init has run, whatever the process was before. *)
Theorem C89_after_init_partial {A} (P : app A) p (g : gst A) :
  exists g' o r, invoke (weave P) p (register g) = (g', o, r) /\ invoke (plain P) p (s_app g) = (s_app g', o, r) /\
    s_agent (register g) = s_agent g /\ s_sent (register g) = s_sent g /\ s_out (register g) = s_out g.
Proof. destruct (C89_transparent_partial P p (register g) eq_refl) as (g' & o & r & E1 & E2 & _). exists g', o, r. repeat split; assumption. Qed.

(** The function given to GoWithTrace: its panic leaves the goroutine (and so ends the process) as it would after "go f()",
    after the service was ended. *)
Theorem C89_goroutine_partial {A} (finish : tracing A) (f : app A) (g : gst A) : s_reg g = true ->
  exists g1 g' o, invoke (weave f) None g = (g1, o, false) /\
    invoke (weave (goroutine finish f)) None g = (g', o, false) /\
    g' = match body_act finish g1 with (g2, None) => g2 | (g2, Some v) => told v (t_stack finish) g2 end.
Proof.
  intros R. assert (exists g1 o, invoke (weave f) None g = (g1, o, false) /\ s_reg g1 = true) as (g1 & o & E1 & R1).
  { destruct (C89_transparent_partial f None g R) as (g1 & o & r & E1 & _ & R1). exists g1, o. split; [|exact R1]. rewrite E1. repeat f_equal.
    assert (forall (c : code (gst A)) ds s, snd (fst (exec c None false ds s)) = false) as F.
    { clear. induction c as [|f k IH|t a IHa b IHb|f IHf k IH|f IHf k IH|k IH]; intros ds s; rewrite exec_invoke.
      - reflexivity.
      - destruct (f s) as [s' [v|]]; [reflexivity|apply IH].
      - destruct (t s); auto.
      - destruct (invoke f None s) as [[s' [v|]] r]; [reflexivity|apply IH].
      - apply IH.
      - apply IH. }
    specialize (F (weave f) [] g). unfold invoke in E1. destruct (exec (weave f) None false [] g) as [[[s1 o1] r1] ds]. cbn [fst snd] in F. subst r1.
    destruct (unwind ds o1 s1) as [s2 o2]. injection E1 as _ _ <-. reflexivity. }
  exists g1. eexists _, o. split; [exact E1|]. split; [|reflexivity]. cbn [weave goroutine]. unfold invoke. rewrite exec_invoke, exec_invoke. rewrite E1.
  assert (forall oo, unwind [invoke (trace_code finish)] oo g1 = (match body_act finish g1 with (g2, None) => g2 | (g2, Some v) => told v (t_stack finish) g2 end, oo)) as U.
  { intros oo. cbn [unwind]. rewrite (trace_code_eq _ _ _ R1). reflexivity. }
  destruct o as [v|]; [|rewrite exec_invoke]; rewrite U; reflexivity.
Qed.

(* ------------------------------------------------------------------ *)
(** ** What is reported *)

(** One call of an API function, made or deferred: the agent's state and the result are those of M_Trace.v; nothing is
    reported if the agent's code does not panic, and if it does, exactly one alert with the panic's value and a stack trace
    is sent and the same is printed. *)
Theorem C89_reported_partial {A} (t : tracing A) p (g : gst A) dflt m : s_reg g = true -> unguarded (t_env t g) (t_call t g) = Some (dflt, m) ->
  exists g' r, invoke (trace_code t) p g = (g', None, false) /\
    do_call (t_env t g) (t_call t g) (s_agent g) = (s_agent g', Some r) /\ s_res g' = r :: s_res g /\
    match snd (m (s_agent g)) with
    | Some _ => s_sent g' = s_sent g /\ s_out g' = s_out g
    | None => reported g (t_value t g) (t_stack t) g'
    end.
Proof.
  intros R U. rewrite (trace_code_eq _ _ _ R). unfold body_act. rewrite U.
  assert (do_call (t_env t g) (t_call t g) (s_agent g) = recovered dflt m (s_agent g)) as ->.
  { clear R. destruct (t_call t g); cbn [unguarded] in U; try discriminate U; injection U as <- <-; cbn [do_call];
      unfold fmap, bind, recovered; match goal with |- context [?X (s_agent g)] => idtac end.
    all: cbv [start_service start_http_service start_inheritance go_with_trace end_service end_http_service
      is_stream set_as_stream mark_as_error mark_as_error_forcibly set_service_name add_step add_message_step
      add_hashed_message_step add_pmessage_step start_method start_custom_method end_method start_api_call start_api_call_prop end_api_call recovered].
    all: match goal with |- match (match ?X with _ => _ end) with _ => _ end = match (match ?Y with _ => _ end) with _ => _ end =>
           change Y with X; destruct X as [b [r|]]; reflexivity end. }
  unfold recovered. destruct (m (s_agent g)) as [a [r|]]; cbn [snd].
  - exists (with_res r (with_agent a g)), r. cbn. auto.
  - exists (told (t_value t g) (t_stack t) (with_res dflt (with_agent a g))), dflt. split; [reflexivity|]. split; [reflexivity|]. split; [reflexivity|].
    exists (mk_alert_pack 0 3 (s_type g) (s_obj g) (of_string "Panic") (t_value t g ++ of_string " - " ++ t_stack t) []).
    repeat split; reflexivity.
Qed.

(** Every function of strace that is given a context is one of them. *)
Theorem C89_all_guarded n k : unguarded n k = None <->
  match k with KGoBegin _ | KUser _ _ _ _ _ _ _ _ _ | KActiveCount | KResetText | KConf => True | _ => False end.
Proof. destruct k; cbn [unguarded]; split; intros H; solve [discriminate H | destruct H | exact I | reflexivity]. Qed.

(* ------------------------------------------------------------------ *)
(** ** Where the claim fails *)

(** A program that imports strace without the agent's main package (nothing then calls RegisterSendPanicF): a panic inside
    the agent reaches the application, as the call of a nil function; and if the tracing call was deferred around a panic of
    the application, it takes its place. *)
Theorem C89_unregistered_refuted {A} (t : tracing A) p (g g1 : gst A) v : s_reg g = false -> body_act t g = (g1, Some v) ->
  exists g', invoke (trace_code t) p g = (g', Some nil_call, false) /\ s_sent g' = s_sent g1 /\
  forall w, invoke (weave (PDeferTrace t (PAct (fun x => (x, Some w)) PDone))) None g = (g', Some nil_call, false) /\
            invoke (plain (PDeferTrace t (PAct (fun x => (x, Some w)) PDone))) None (s_app g) = (s_app g, Some w, false).
Proof.
  intros R E. assert (s_reg g1 = false) as R1 by (destruct (body_act_keeps t g) as (_ & H); rewrite E in H; cbn [fst] in H; congruence).
  assert (forall q, invoke (trace_code t) q g = (print (of_string "[scouter][panic]" ++ v ++ [10] ++ t_stack t) g1, Some nil_call, false)) as H.
  { intros q. unfold invoke, trace_code, guarded. rewrite exec_invoke, exec_invoke, E. cbn [unwind]. rewrite (report_unregistered _ _ _ R1). reflexivity. }
  eexists. split; [apply H|]. split; [reflexivity|]. intros w. split; [|reflexivity].
  cbn [weave]. unfold invoke at 1. rewrite exec_invoke, exec_invoke. cbn [unwind].
  replace (with_app (s_app g) g) with g by (destruct g; reflexivity). rewrite H. reflexivity.
Qed.

(** The last guard, reportScouterPanicFinal, is called instead of deferred: were sending the alert to panic, the application
    would get that panic. Deferred, it would have stopped it. *)
Theorem C89_final_guard_refuted {A} alert stack v w (g g1 : gst A) : s_reg g = true ->
  alert 3 (of_string "Panic") (v ++ of_string " - " ++ stack) (print (of_string "[scouter][panic]" ++ v ++ [10] ++ stack) g) = (g1, Some w) ->
  (exists r, invoke (report_with alert stack) (Some v) g = (g1, Some w, r)) /\
  invoke (Defer report_final (Act (alert 3 (of_string "Panic") (v ++ of_string " - " ++ stack)) Done)) None
    (print (of_string "[scouter][panic]" ++ v ++ [10] ++ stack) g) = (print (of_string "[scouter][panic][FATAL]" ++ w) g1, None, false).
Proof.
  intros R E. split.
  - exists true. unfold invoke, report_with. rewrite exec_invoke, exec_invoke, exec_invoke.
    change (s_reg (print (of_string "[scouter][panic]" ++ v ++ [10] ++ stack) g)) with (s_reg g). rewrite R. rewrite exec_invoke.
    unfold invoke at 1, send_panic_with. rewrite exec_invoke.
    replace (invoke report_final None (print (of_string "[scouter][panic]" ++ v ++ [10] ++ stack) g)) with (print (of_string "[scouter][panic]" ++ v ++ [10] ++ stack) g, @None pv, false) by reflexivity.
    rewrite exec_invoke, E. reflexivity.
  - unfold invoke at 1. rewrite exec_invoke, exec_invoke, E. reflexivity.
Qed.

(* ------------------------------------------------------------------ *)
(** ** A case: the hypotheses are met, and tracing calls that panic occur *)

(** strace.StartService; strace.AddStep(ctx, nil), a call that panics inside the agent; an ordinary end *)
Definition c_start : tracing Z := mkT (fun _ => env0 11 1000000) (fun _ => KStartService CNil (of_string "/a") (of_string "10.0.0.1:80")) (fun _ => []) [].
Definition newest (g : gst Z) : ctx := fold_right (fun r c => match r with RCtx d => d | _ => c end) CNil (s_res g).
Definition c_nil_step : tracing Z := mkT (fun _ => env0 12 2000000) (fun g => KAddStep (newest g) None) (fun _ => of_string "nil step") (of_string "stack").
Definition c_end : tracing Z := mkT (fun _ => env0 13 3000000) (fun g => KEndService (newest g)) (fun _ => []) [].
(** func handler() { ctx := StartService(); defer EndService(ctx); defer AddStep(ctx, nil); AddStep(ctx, nil); x = x + 1; panic("app") };
    func main() { defer func() { if recover() != nil { x = x * 10 } }(); handler(); x = 7 } *)
Definition c_handler : app Z :=
  PTrace c_start (PDeferTrace c_end (PDeferTrace c_nil_step (PTrace c_nil_step (PAct (fun x => (x + 1, Some (of_string "app"))) PDone)))).
Definition c_main : app Z := PDefer (PRecover (fun r => match r with Some _ => PAct (fun x => (x * 10, None)) PDone | None => PDone end))
  (PCall c_handler (PAct (fun x => (7, None)) PDone)).
Definition c_state (reg : bool) : gst Z := mkG (a_init sconf0) 4 reg (of_string "golang") 77 [] [] [].

(** registered: the handler's panic comes out, both agent panics are reported, main ends normally with 50; unregistered: the
    nil function's panic comes out of the handler instead *)
Example case_registered :
  (match invoke (weave c_handler) None (c_state true) with (g, o, _) => (s_app g, o, length (s_sent g), length (s_out g), match nth_error (a_ctx (s_agent g)) 0 with Some x => x_Closed x | None => false end) end,
   match invoke (weave c_main) None (c_state true) with (g, o, _) => (s_app g, o) end,
   invoke (plain c_main) None 4) = ((5, Some (of_string "app"), 2%nat, 2%nat, true), (50, None), (50, None, false)).
Proof. vm_compute. reflexivity. Qed.
Example case_unregistered :
  (match invoke (weave c_handler) None (c_state false) with (g, o, _) => (s_app g, o, length (s_sent g)) end,
   match body_act c_nil_step (fst (fst (invoke (weave (PTrace c_start PDone)) None (c_state false)))) with (_, o) => o end)
  = ((4, Some nil_call, 0%nat), Some (of_string "nil step")).
Proof. vm_compute. reflexivity. Qed.

Print Assumptions C89_transparent_partial.
Print Assumptions C89_goroutine_partial.
Print Assumptions C89_reported_partial.
Print Assumptions C89_all_guarded.
Print Assumptions C89_unregistered_refuted.
Print Assumptions C89_final_guard_refuted.
Print Assumptions C89_after_init_partial.
