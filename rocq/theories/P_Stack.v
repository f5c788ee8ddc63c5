(** Property C101: a panic report says where the panic happened. *)
From Verif Require Import GoInt M_Util M_Packs M_OutX M_Trace M_Defer M_Stack S_Util S_Wire S_Packs S_Alert S_Defer S_Stack L_Alert L_Show P_Packs P_Defer P_Trace.
From Coq Require Import ZifyBool.

(** ** The loop *)
Lemma split_file_in p : file_in p (split_file p).
Proof.
  induction p as [|b r IH]; [split; [intros []|left; reflexivity]|]. cbn [split_file]. destruct (existsb (Z.eqb 47) (b :: r)) eqn:E.
  - destruct IH as (N & H). split; [exact N|]. destruct H as [H | (dir & H)].
    + right. exists []. cbn [Datatypes.app]. f_equal; [|exact H]. cbn [existsb] in E. destruct (Z.eqb_spec 47 b) as [->|Ne]; [reflexivity|].
      cbn [orb] in E. apply existsb_exists in E. destruct E as (x & Hx & Ex). apply Z.eqb_eq in Ex. subst x. rewrite H in Hx. contradiction.
    + right. exists (b :: dir). cbn [Datatypes.app]. f_equal. exact H.
  - split; [|left; reflexivity]. intros H. assert (existsb (Z.eqb 47) (b :: r) = true) as C by (apply existsb_exists; exists 47; split; [exact H|apply Z.eqb_refl]). congruence.
Qed.
Lemma file_in_split p f : file_in p f -> f = split_file p.
Proof.
  intros (N & H). assert (forall q, ~ In 47 q -> split_file q = q) as K.
  { intros [|b q] Nq; [reflexivity|]. cbn [split_file]. destruct (existsb (Z.eqb 47) (b :: q)) eqn:E; [|reflexivity].
    apply existsb_exists in E. destruct E as (x & Hx & Ex). apply Z.eqb_eq in Ex. subst x. contradiction. }
  destruct H as [-> | (dir & ->)]; [symmetry; apply K, N|]. induction dir as [|b dir IH].
  - cbn [Datatypes.app split_file]. replace (existsb (Z.eqb 47) (47 :: f)) with true by reflexivity. symmetry. apply K, N.
  - cbn [Datatypes.app split_file]. replace (existsb (Z.eqb 47) (b :: dir ++ 47 :: f)) with true; [exact IH|]. symmetry. apply existsb_exists. exists 47.
    split; [|apply Z.eqb_refl]. right. apply in_or_app. right. left. reflexivity.
Qed.

Definition written (f : frame) : gostring := fr_name f ++ 32 :: split_file (fr_path f) ++ 58 :: format_int 10 (fr_line f).
Lemma written_line f : line_about f (written f).
Proof. exists (split_file (fr_path f)), (format_int 10 (fr_line f)). split; [apply split_file_in|]. split; [apply shows_format|reflexivity]. Qed.
Lemma on_lines_snoc ls l : on_lines (ls ++ [l]) = match ls with [] => l | _ => on_lines ls ++ 10 :: l end.
Proof.
  induction ls as [|a ls IH]; [reflexivity|]. cbn [Datatypes.app on_lines]. destruct (ls ++ [l]) as [|x y] eqn:E; [destruct ls; discriminate E|].
  rewrite IH. destruct ls as [|b ls]; [reflexivity|]. rewrite <- !app_assoc. reflexivity.
Qed.
Lemma on_lines_nil ls : Forall (fun l => l <> []) ls -> on_lines ls = [] -> ls = [].
Proof. intros F. destruct F as [|l ls Hl F]; [reflexivity|]. cbn [on_lines]. destruct ls; intros E; [contradiction|]. apply app_eq_nil in E. destruct E as (-> & _). contradiction. Qed.
Lemma written_some f : written f <> [].
Proof. unfold written. destruct (fr_name f); discriminate. Qed.
Lemma write_named sb f : write_frame sb (Some f) = match fr_name f with [] => sb | _ => match sb with [] => written f | _ => sb ++ 10 :: written f end end.
Proof. unfold write_frame, written. destruct (fr_name f); reflexivity. Qed.
Lemma loop_writes l : forall fs, fold_left write_frame l (on_lines (map written fs)) = on_lines (map written (fs ++ named l)).
Proof.
  assert (forall fs, Forall (fun x => x <> []) (map written fs)) as Q by (intros fs; apply Forall_map, Forall_forall; intros f _; apply written_some).
  induction l as [|[f|] l IH]; intros fs; cbn [fold_left named]; [rewrite app_nil_r; reflexivity| |apply IH].
  rewrite write_named. destruct (fr_name f) as [|b nm] eqn:En; [apply IH|].
  replace (fs ++ f :: named l) with ((fs ++ [f]) ++ named l) by (rewrite <- app_assoc; reflexivity). rewrite <- IH. f_equal.
  rewrite map_app. cbn [map]. rewrite on_lines_snoc. destruct (on_lines (map written fs)) as [|x y] eqn:E.
  - rewrite (on_lines_nil _ (Q fs) E). reflexivity.
  - destruct (map written fs); [discriminate E|]. reflexivity.
Qed.
Lemma named_app a b : named (a ++ b) = named a ++ named b.
Proof. induction a as [|[f|] a IH]; cbn [named Datatypes.app]; [reflexivity| |exact IH]. destruct (fr_name f); rewrite IH; reflexivity. Qed.
Lemma named_zero n : named (repeat None n) = [].
Proof. induction n; [reflexivity|exact IHn]. Qed.

(** ** Reading the lines *)
Lemma cut_first (c : Z) a : forall b x y, ~ In c a -> ~ In c b -> a ++ c :: x = b ++ c :: y -> a = b /\ x = y.
Proof.
  induction a as [|p a IH]; intros [|q b] x y Na Nb E; cbn [Datatypes.app] in E.
  - injection E as ->. auto.
  - injection E as <- _. destruct Nb. left. reflexivity.
  - injection E as -> _. destruct Na. left. reflexivity.
  - injection E as <- E. destruct (IH b x y) as (-> & ->); [intros H; apply Na; right; exact H|intros H; apply Nb; right; exact H|exact E|auto].
Qed.
Lemma cut_last (c : Z) a b x y : ~ In c x -> ~ In c y -> a ++ c :: x = b ++ c :: y -> a = b /\ x = y.
Proof.
  intros Nx Ny E. apply (f_equal (@rev Z)) in E. rewrite !rev_app_distr in E. cbn [rev] in E. rewrite <- !app_assoc in E. cbn [Datatypes.app] in E.
  rewrite in_rev in Nx, Ny. destruct (cut_first c _ _ _ _ Nx Ny E) as (E1 & E2). rewrite <- (rev_involutive a), <- (rev_involutive x), E1, E2, !rev_involutive. auto.
Qed.
Lemma digits_only s : forall acc n c, parse_digits 10 acc s = Some n -> In c s -> 48 <= c <= 57.
Proof.
  induction s as [|d s IH]; intros acc n c E H; [destruct H|]. cbn [parse_digits] in E. unfold char_digit in E.
  destruct ((48 <=? d) && (d <=? 57)) eqn:D.
  - destruct (d - 48 <? 10); [|discriminate E]. destruct H as [<-|H]; [lia|exact (IH _ _ _ E H)].
  - destruct ((97 <=? d) && (d <=? 122)) eqn:D2; [|discriminate E]. replace (d - 87 <? 10) with false in E by lia. discriminate E.
Qed.
Lemma shown_chars z t c : shows z t -> In c t -> c = 45 \/ 48 <= c <= 57.
Proof.
  intros (d & (_ & P & _) & ->) H. destruct (z <? 0); [destruct H as [<-|H]; [auto|]|]; right; exact (digits_only _ _ _ _ P H).
Qed.
Lemma line_read f g t : ordinary f -> ordinary g -> line_about f t -> line_about g t -> same_place f g.
Proof.
  intros (_ & Nf & _) (_ & Ng & _) (a & x & Fa & Hx & ->) (b & y & Fb & Hy & E). cbn [Datatypes.app] in E. destruct (cut_first 32 _ _ _ _ Nf Ng E) as (En & E2).
  assert (forall z u, shows z u -> ~ In 58 u) as K by (intros z u H Hin; destruct (shown_chars _ _ _ H Hin); lia).
  destruct (cut_last 58 _ _ _ _ (K _ _ Hx) (K _ _ Hy) E2) as (-> & ->). split; [exact En|]. split; [|exact (shows_value _ _ _ Hx Hy)].
  intros file. split; intros H; apply file_in_split in H; subst file; [rewrite <- (file_in_split _ _ Fa); exact Fb|rewrite <- (file_in_split _ _ Fb); exact Fa].
Qed.
Lemma line_whole f t : ordinary f -> line_about f t -> t <> [] /\ ~ In 10 t.
Proof.
  intros (Ne & _ & Nn & Np) (a & x & (_ & Fa) & Hx & ->). split; [destruct (fr_name f); [contradiction|discriminate]|].
  intros H. cbn [Datatypes.app] in H. apply in_app_or in H. destruct H as [H|H]; [exact (Nn H)|]. destruct H as [H|H]; [discriminate H|]. apply in_app_or in H.
  destruct H as [H|[H|H]]; [|discriminate H|destruct (shown_chars _ _ _ Hx H); lia].
  apply Np. destruct Fa as [-> | (dir & ->)]; [exact H|]. apply in_or_app. right. right. exact H.
Qed.
Lemma lines_read ls : forall ms, Forall (fun l => l <> [] /\ ~ In 10 l) ls -> Forall (fun l => l <> [] /\ ~ In 10 l) ms -> on_lines ls = on_lines ms -> ls = ms.
Proof.
  induction ls as [|l ls IH]; intros [|m ms] F G E; [reflexivity| | |].
  - symmetry in E. apply on_lines_nil in E; [discriminate E|]. eapply Forall_impl; [|exact G]. intros ? (H & _). exact H.
  - apply on_lines_nil in E; [discriminate E|]. eapply Forall_impl; [|exact F]. intros ? (H & _). exact H.
  - inversion F as [|? ? (Hl & Nl) F']; subst. inversion G as [|? ? (Hm & Nm) G']; subst. cbn [on_lines Datatypes.app] in E.
    destruct ls as [|l2 ls]; destruct ms as [|m2 ms].
    + subst. reflexivity.
    + exfalso. apply Nl. rewrite E. apply in_or_app. right. left. reflexivity.
    + exfalso. apply Nm. rewrite <- E. apply in_or_app. right. left. reflexivity.
    + destruct (cut_first 10 _ _ _ _ Nl Nm E) as (-> & E2). rewrite (IH _ F' G' E2). reflexivity.
Qed.

(** * C101 *)
Theorem C101_stack count callers : 0 <= count -> exists t, stack_trace count callers = Some t /\ tells_of (innermost (Z.max 1 count) callers) t.
Proof.
  intros H. unfold stack_trace. replace (if count =? 0 then 1 else count) with (Z.max 1 count) by (destruct (Z.eqb_spec count 0); lia).
  replace (Z.max 1 count <? 0) with false by lia. cbv zeta. unfold innermost. set (got := firstn _ callers).
  assert (forall fs, tells_of fs (on_lines (map written fs))) as K.
  { intros fs. exists (map written fs). split; [|reflexivity]. induction fs; cbn [map]; constructor; [apply written_line|assumption]. }
  destruct (zlen got <? 1) eqn:E.
  - exists []. split; [reflexivity|]. assert (got = []) as -> by (destruct got; [reflexivity|unfold zlen in E; cbn [length] in E; lia]). exact (K []).
  - eexists. split; [reflexivity|]. change (@nil Z) with (on_lines (map written [])). rewrite loop_writes, named_app, named_zero, app_nil_r. apply K.
Qed.
Theorem C101_negative_count count callers : count < 0 -> stack_trace count callers = None.
Proof. intros H. unfold stack_trace. replace (count =? 0) with false by lia. replace (count <? 0) with true by lia. reflexivity. Qed.

(** the text tells the places apart *)
Theorem C101_readable fs gs t : Forall ordinary fs -> Forall ordinary gs -> tells_of fs t -> tells_of gs t -> Forall2 same_place fs gs.
Proof.
  intros F G (ls & Hl & ->) (ms & Hm & E).
  assert (forall fs ls, Forall ordinary fs -> Forall2 line_about fs ls -> Forall (fun l => l <> [] /\ ~ In 10 l) ls) as K.
  { clear. intros fs ls F H. induction H as [|f l fs ls Hl _ IH]; constructor; inversion F; subst; [eapply line_whole; eassumption|auto]. }
  apply lines_read in E; [|exact (K _ _ F Hl)|exact (K _ _ G Hm)]. subst ms. clear K. revert gs G Hm. induction Hl as [|f l fs ls Hf _ IH]; intros gs G Hm; inversion Hm; subst; [constructor|].
  inversion F; subst. inversion G; subst. constructor; [eapply line_read; eassumption|auto].
Qed.

(** A tracing call that panics inside the agent: the collector decodes an alert whose message is the panic, " - " and the lines about
    the innermost hundred callers. *)
Theorem C101_reaches_collector {A} (t : tracing A) p (g : gst A) dflt m callers rest : s_reg g = true -> unguarded (t_env t g) (t_call t g) = Some (dflt, m) ->
  snd (m (s_agent g)) = None -> stack_trace 100 callers = Some (t_stack t) ->
  is_i32 (s_obj g) = true -> zlen (s_type g) <= 100000 -> zlen (t_value t g ++ of_string " - " ++ t_stack t) <= 100000 ->
  exists g' al trace, invoke (trace_code t) p g = (g', None, false) /\ s_sent g' = al :: s_sent g /\ tells_of (innermost 100 callers) trace /\
    p_pack (needs_v2 (PAlert al)) (buf (write_pack (PAlert al) new_dout) ++ rest) =
      Some (PAlert (mk_alert_pack 0 3 (s_type g) (s_obj g) (of_string "Panic") (t_value t g ++ of_string " - " ++ trace) []), rest).
Proof.
  intros R U E Et Io Lt Lm. destruct (C101_stack 100 callers ltac:(lia)) as (tr & Es & Tr). rewrite Et in Es. injection Es as <-.
  destruct (C89_reported_partial t p g dflt m R U) as (g' & r & Hi & _ & _ & H). rewrite E in H.
  destruct H as (al & Hs & H1 & H2 & H3 & H4 & H5 & H6 & H7 & _). exists g', al, (t_stack t). split; [exact Hi|]. split; [exact Hs|]. split; [exact Tr|].
  destruct al as [tm lv ty ob ti me tg]. cbn [al_Level al_Title al_Message al_ObjType al_ObjHash al_Time al_Tags] in *. subst.
  assert (go_pack (PAlert (mk_alert_pack 0 3 (s_type g) (s_obj g) (of_string "Panic") (t_value t g ++ of_string " - " ++ t_stack t) [])) = true) as G
    by (cbn [go_pack]; unfold go_alert_pack; cbn [al_Time al_Level al_ObjHash al_Tags]; rewrite Io; reflexivity).
  rewrite (C11_pack_decodable _ rest G). cbn [collector_pack]. unfold view_alert_pack. cbn [al_Level al_Title al_Message al_ObjType al_ObjHash al_Time al_Tags].
  assert (forall s, zlen s <= 100000 -> on_wire s = s) as W by (intros s Hs2; unfold on_wire; replace (100000 <? zlen s) with false by lia; reflexivity).
  rewrite (W _ Lt), (W _ Lm), (W (of_string "Panic")) by (vm_compute; discriminate). reflexivity.
Qed.

(** ** Cases *)
Definition f_trace := mkFrame (of_string "dump.StackTrace") (of_string "/go/src/dump/dump.go") 32.
Definition f_main := mkFrame (of_string "main.main") (of_string "/app/main.go") 7.
Definition ex_callers : list (option frame) := [Some f_trace; None; Some (mkFrame [] (of_string "x.go") 1); Some f_main; Some f_main].
Example C101_case : stack_trace 4 ex_callers = Some (of_string "dump.StackTrace dump.go:32" ++ 10 :: of_string "main.main main.go:7") /\
  innermost 4 ex_callers = [f_trace; f_main] /\ stack_trace 0 ex_callers = Some (of_string "dump.StackTrace dump.go:32") /\
  Forall ordinary [f_trace; f_main].
Proof.
  split; [vm_compute; reflexivity|]. split; [reflexivity|]. split; [vm_compute; reflexivity|].
  assert (forall c l, existsb (Z.eqb c) l = false -> ~ In c l) as K.
  { intros c l E H. assert (existsb (Z.eqb c) l = true) by (apply existsb_exists; exists c; split; [exact H|apply Z.eqb_refl]). congruence. }
  constructor; [|constructor; [|constructor]]; (split; [discriminate|]); (split; [|split]); apply K; vm_compute; reflexivity.
Qed.
(** the tracing call of P_Defer that panics, with a stack of two functions *)
Definition c_panics : tracing Z := mkT (fun _ => env0 12 2000000) (fun _ => KAddStep (CTrace 0) None) (fun _ => of_string "nil step")
  (of_string "dump.StackTrace dump.go:32" ++ 10 :: of_string "main.main main.go:7").
Example C101_reaches_case : let g := fst (fst (invoke (weave (PTrace c_start PDone)) None (c_state true))) in
  s_reg g = true /\ match unguarded (t_env c_panics g) (t_call c_panics g) with Some (_, m) => snd (m (s_agent g)) = None | None => False end /\
  stack_trace 100 [Some f_trace; Some f_main] = Some (t_stack c_panics) /\ is_i32 (s_obj g) = true /\ zlen (s_type g) <= 100000 /\
  zlen (t_value c_panics g ++ of_string " - " ++ t_stack c_panics) <= 100000.
Proof. cbv zeta. repeat split; vm_compute; solve [reflexivity | discriminate]. Qed.

Print Assumptions C101_stack.
Print Assumptions C101_negative_count.
Print Assumptions C101_readable.
Print Assumptions C101_reaches_collector.
