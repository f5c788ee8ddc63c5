(** Property C100: what the collector is told about a service, and what the calls on it return, depends on its own tale only. *)
From Verif Require Import GoInt M_Util M_Hash M_StrMatch M_Packs M_Steps M_Cache L_Cache M_Text M_Sampler M_Profile L_Profile S_Profile M_Trace
  L_Trace L_TraceRel S_Trace L_TraceInv L_TraceStart L_TraceSafe L_TraceActive L_TraceHist S_Steps S_Sampler P_Profile P_Trace P_Trace2 P_Trace3
  S_Hash L_Hash S_Ledger L_Ledger L_Ledger2 L_Ledger3 L_Ledger4 L_Ledger5 P_Ledger S_Isolation S_Sweep L_StuckProfile P_StuckProfile L_Sweep.
From Coq Require Import ZifyBool Permutation.

Fixpoint acc_of (t : tale) : account :=
  match t with
  | Began n k po =>
      match k, po with
      | KStartService _ a b, _ => opened n a b XTYPE_APP
      | KStartHttp _ (Some r), _ => opened_http n r
      | KInherit _ _, Some p => opened_inherited n (acc_of p)
      | KGo _ a, Some p => opened_child n a (acc_of p)
      | _, _ => opened n [] [] 0
      end
  | Then t n k => match k with KGo _ a => spawned_from n a (acc_of t) | KActiveCount => swept n (acc_of t) | _ => becomes (on_account n k (acc_of t)) end
  end.
Fixpoint reps_of (t : tale) : list (account * env) :=
  match t with
  | Began _ _ _ => []
  | Then t n k => reps_of t ++
      match k with
      | KActiveCount => map (fun r => (r_acc r, r_env r)) (swept_report n 0 (acc_of t))
      | _ => match reported (on_account n k (acc_of t)) with Some a => [(a, n)] | None => [] end
      end
  end.
Definition mine (h : nat) (reps : list report) : list (account * env) :=
  map (fun r => (r_acc r, seen_by (r_env r))) (filter (fun r => Nat.eqb (r_service r) h) reps).
Definition told (ts : list tale) (h : nat) : list (account * env) := match nth_error ts h with Some t => reps_of t | None => [] end.

Lemma on_account_own n k c : on_account (seen_by n) (unaddressed k) c = on_account n k c.
Proof. destruct k; reflexivity. Qed.
Lemma made_ctx k : made_on k = match ctx_arg k with CTrace h => Some h | _ => None end.
Proof. destruct k; reflexivity. Qed.
Lemma account_made l k : account_of l (ctx_arg k) = match made_on k with Some h => option_map (fun x => (h, x)) (nth_error l h) | None => None end.
Proof. rewrite made_ctx. destruct (ctx_arg k); reflexivity. Qed.

Lemma mine_app h a b : mine h (a ++ b) = mine h a ++ mine h b.
Proof. unfold mine. rewrite filter_app, map_app. reflexivity. Qed.
Lemma list_set_split {A} (l : list A) h x y : nth_error l h = Some x -> list_set l h y = firstn h l ++ y :: skipn (S h) l.
Proof.
  revert h. induction l as [|a l IH]; intros [|h] E; cbn [nth_error] in E; try discriminate E; [reflexivity|].
  cbn [list_set firstn skipn app]. rewrite (IH _ E). reflexivity.
Qed.
Lemma goes_on_map ts h n k t acc : nth_error ts h = Some t -> acc_of (and_then t n k) = acc -> list_set (map acc_of ts) h acc = map acc_of (goes_on ts h n k).
Proof.
  intros E <-. unfold goes_on. rewrite E, (list_set_split _ _ (acc_of t)) by (rewrite nth_error_map, E; reflexivity).
  rewrite map_app, firstn_map. cbn [map]. rewrite skipn_map. reflexivity.
Qed.
Lemma goes_on_len ts h n k : length (goes_on ts h n k) = length ts.
Proof.
  unfold goes_on. destruct (nth_error ts h) as [t|] eqn:E; [|reflexivity]. assert (h < length ts)%nat by (apply nth_error_Some; congruence).
  rewrite app_length, firstn_length. cbn [length]. rewrite skipn_length. lia.
Qed.
Lemma goes_on_nth ts h n k g : nth_error (goes_on ts h n k) g = if Nat.eqb h g then option_map (fun t => and_then t n k) (nth_error ts h) else nth_error ts g.
Proof.
  unfold goes_on. destruct (nth_error ts h) as [t|] eqn:E.
  2:{ destruct (Nat.eqb_spec h g) as [<-|]; [exact E|reflexivity]. }
  rewrite <- (list_set_split ts h t (and_then t n k) E). clear - E. revert h g E. induction ts as [|a ts IH]; intros [|h] [|g] E; cbn [nth_error] in E; try discriminate E; try reflexivity.
  cbn [list_set nth_error Nat.eqb]. rewrite IH by exact E. cbn [nth_error]. reflexivity.
Qed.

(** one call *)
Lemma mine_one h g acc n : mine h [mkRep g acc n] = if Nat.eqb g h then [(acc, seen_by n)] else [].
Proof. unfold mine. cbn [filter r_service]. destruct (Nat.eqb g h); reflexivity. Qed.
Definition is_start (k : call) : bool := match k with KStartService _ _ _ | KStartHttp _ _ | KInherit _ _ | KGo _ _ => true | _ => false end.
Definition told_grows (ts ts' : list tale) (reps : list report) : Prop := forall h, told ts' h = told ts h ++ mine h reps.

Lemma reps_then t n k : k <> KActiveCount ->
  reps_of (and_then t n k) = reps_of t ++ match reported (on_account n k (acc_of t)) with Some a => [(a, seen_by n)] | None => [] end.
Proof. intros Hk. unfold and_then. rewrite <- (on_account_own n k). destruct k; first [reflexivity | contradiction]. Qed.
Lemma grows_goes_on ts h n k t reps : k <> KActiveCount -> nth_error ts h = Some t ->
  reps = match reported (on_account n k (acc_of t)) with Some a => [mkRep h a n] | None => [] end -> told_grows ts (goes_on ts h n k) reps.
Proof.
  intros Hk E -> g. unfold told. rewrite goes_on_nth. destruct (Nat.eqb_spec h g) as [<-|Ne].
  - rewrite E. cbn [option_map]. rewrite (reps_then _ _ _ Hk). f_equal. destruct (reported _) as [a|]; [rewrite mine_one, Nat.eqb_refl|]; reflexivity.
  - destruct (reported _) as [a|]; [rewrite mine_one|].
    + destruct (Nat.eqb_spec h g) as [E'|]; [contradiction|]. symmetry. apply app_nil_r.
    + symmetry. apply app_nil_r.
Qed.
Lemma grows_began ts ts' n k po reps : told_grows ts ts' reps -> length ts' = length ts -> told_grows ts (ts' ++ [began n k po]) reps.
Proof.
  intros H L h. rewrite <- H. unfold told. destruct (Nat.ltb_spec h (length ts')) as [Lt|Ge].
  - rewrite nth_error_app1 by exact Lt. reflexivity.
  - rewrite nth_error_app2 by exact Ge. rewrite (proj2 (nth_error_None ts' h) Ge). destruct (h - length ts')%nat as [|m]; cbn [nth_error]; [reflexivity|destruct m; reflexivity].
Qed.
Lemma grows_nil ts : told_grows ts ts [].
Proof. intros h. symmetry. apply app_nil_r. Qed.

Lemma no_stuck n l x y : cf_stuck_remove (n_conf n) = false -> removals n l x y -> x = l /\ y = [].
Proof. intros Z0 Hx. inversion Hx as [|? ? ? ? ? ? (Hs & _)]; subst; [auto|congruence]. Qed.

Lemma set_self {A} (l : list A) h x : nth_error l h = Some x -> list_set l h x = l.
Proof.
  revert h. induction l as [|a l IH]; intros [|h] E; cbn [nth_error] in E; try discriminate E; cbn [list_set]; [congruence|]. rewrite (IH _ E). reflexivity.
Qed.
Lemma unmoved ts h n k t : nth_error ts h = Some t -> acc_of (and_then t n k) = acc_of t -> map acc_of (goes_on ts h n k) = map acc_of ts.
Proof. intros E Q. rewrite <- (goes_on_map ts h n k t _ E Q). apply set_self. rewrite nth_error_map, E. reflexivity. Qed.
Lemma grows_quiet ts h n k t : k <> KActiveCount -> nth_error ts h = Some t -> reported (on_account n k (acc_of t)) = None -> told_grows ts (goes_on ts h n k) [].
Proof. intros Hk E Q. apply (grows_goes_on _ _ _ _ t); [exact Hk|exact E|]. rewrite Q. reflexivity. Qed.
Lemma goes_none ts h n k : nth_error ts h = None -> goes_on ts h n k = ts.
Proof. intros E. unfold goes_on. rewrite E. reflexivity. Qed.

Lemma tell_on ts n k h : made_on k = Some h -> tell ts (n, k) = goes_on ts h n k ++ begins n k (nth_error ts h) ts.
Proof. intros E. unfold tell. rewrite E. destruct k; first [discriminate E | reflexivity]. Qed.
Lemma tell_off ts n k : k <> KActiveCount -> made_on k = None -> tell ts (n, k) = ts ++ begins n k None ts.
Proof. intros Hk E. unfold tell. rewrite E. destruct k; first [contradiction | reflexivity]. Qed.
Lemma acc_then t n k : k <> KActiveCount -> is_start k = false -> acc_of (and_then t n k) = becomes (on_account n k (acc_of t)).
Proof. intros Hk E. unfold and_then. rewrite <- (on_account_own n k). destruct k; try discriminate E; first [contradiction | reflexivity]. Qed.
Lemma acc_then_begin t n k : is_start k = true -> (forall c a, k <> KGo c a) -> acc_of (and_then t n k) = acc_of t.
Proof. intros E G. destruct k; try discriminate E; try reflexivity. destruct (G c name eq_refl). Qed.
Lemma started_quiet n k c : is_start k = true -> reported (on_account n k c) = None.
Proof. destruct k; intros E; try discriminate E; reflexivity. Qed.
Lemma plain_call n k l : is_start k = false -> ledger_call n k l =
  match made_on k with
  | Some h => match nth_error l h with
              | Some acc => (list_set l h (becomes (on_account n k acc)), gives (on_account n k acc),
                             match reported (on_account n k acc) with Some acc' => [mkRep h acc' n] | None => [] end)
              | None => (l, untraced k, []) end
  | None => (l, untraced k, [])
  end.
Proof.
  intros E. assert (ledger_call n k l = match account_of l (ctx_arg k) with
      | Some (h, acc) => (list_set l h (becomes (on_account n k acc)), gives (on_account n k acc), match reported (on_account n k acc) with Some acc' => [mkRep h acc' n] | None => [] end)
      | None => (l, untraced k, []) end) as -> by (destruct k; try discriminate E; reflexivity).
  rewrite account_made. destruct (made_on k) as [h|]; [|reflexivity]. destruct (nth_error l h); reflexivity.
Qed.
Lemma begins_none n k on ts : is_start k = false -> begins n k on ts = [].
Proof. destruct k; intros E; try discriminate E; reflexivity. Qed.

(** the ledger after a call that begins something *)
Lemma start_told n k ts l' r reps : is_start k = true -> ledger_call n k (map acc_of ts) = (l', r, reps) ->
  reps = [] /\ l' = map acc_of (tell ts (n, k)).
Proof.
  intros Ek C. destruct k; try discriminate Ek; clear Ek; cbn [ledger_call] in C.
  - cbn [tell made_on]. destruct c as [| |h]; cbn [account_of] in C; [| |rewrite nth_error_map in C; destruct (nth_error ts h) as [t|] eqn:E; cbn [option_map] in C];
      injection C as <- _ <-; (split; [reflexivity|]); cbn [begins]; rewrite ?map_app; try reflexivity.
    + cbn [map]. rewrite app_nil_r. symmetry. apply (unmoved _ _ _ _ t E). reflexivity.
    + rewrite (goes_none _ _ _ _ E). reflexivity.
  - destruct c as [| |h]; cbn [account_of] in C; cbn [tell made_on begins].
    + injection C as <- _ <-. split; [reflexivity|]. destruct req; rewrite app_nil_r; reflexivity.
    + destruct req; injection C as <- _ <-; (split; [reflexivity|]); rewrite ?map_app, ?app_nil_r; reflexivity.
    + rewrite nth_error_map in C. destruct (nth_error ts h) as [t|] eqn:E; cbn [option_map] in C.
      * injection C as <- _ <-. split; [reflexivity|]. destruct req; rewrite app_nil_r; symmetry; apply (unmoved _ _ _ _ t E); reflexivity.
      * destruct req; injection C as <- _ <-; (split; [reflexivity|]); rewrite (goes_none _ _ _ _ E), ?map_app, ?app_nil_r; reflexivity.
  - rewrite nth_error_map in C. cbn [tell begins]. destruct (made_on (KInherit c parent)) as [h|].
    + assert (map acc_of (goes_on ts h n (KInherit c parent)) = map acc_of ts) as U.
      { destruct (nth_error ts h) as [t|] eqn:E; [apply (unmoved _ _ _ _ t E); reflexivity|rewrite (goes_none _ _ _ _ E); reflexivity]. }
      rewrite map_app, U. destruct (nth_error ts parent) as [t|]; cbn [option_map] in C; injection C as <- _ <-; (split; [reflexivity|]); rewrite ?app_nil_r; reflexivity.
    + rewrite map_app. destruct (nth_error ts parent) as [t|]; cbn [option_map] in C; injection C as <- _ <-; (split; [reflexivity|]); rewrite ?app_nil_r; reflexivity.
  - cbn [tell made_on begins]. destruct c as [| |h]; cbn [account_of] in C.
    1, 2: injection C as <- _ <-; split; [reflexivity|]; rewrite app_nil_r; reflexivity.
    rewrite nth_error_map in C. destruct (nth_error ts h) as [t|] eqn:E; cbn [option_map] in C; injection C as <- _ <-; (split; [reflexivity|]).
    + rewrite (goes_on_map _ _ n (KGo (CTrace h) name) _ (spawned_from n name (acc_of t)) E eq_refl), map_app. reflexivity.
    + rewrite (goes_none _ _ _ _ E), app_nil_r. reflexivity.
Qed.
Lemma begins_short n k on ts : begins n k on ts = [] \/ exists po, begins n k on ts = [began n k po].
Proof.
  destruct k; cbn [begins]; auto.
  - destruct on; eauto.
  - destruct req; [destruct c, on|]; eauto.
  - destruct (nth_error ts parent); eauto.
  - destruct on; eauto.
Qed.
Lemma grows_begins ts ts' n k on ts0 reps : told_grows ts ts' reps -> length ts' = length ts -> told_grows ts (ts' ++ begins n k on ts0) reps.
Proof. intros H L. destruct (begins_short n k on ts0) as [-> | (po & ->)]; [rewrite app_nil_r; exact H|apply grows_began; assumption]. Qed.

(** a count *)
Lemma ms_seen n c : ms (seen_by n) c = ms n c.
Proof. reflexivity. Qed.
Lemma mine_swept n c : mine O (swept_report n O c) = map (fun r => (r_acc r, r_env r)) (swept_report (seen_by n) O c).
Proof.
  unfold swept_report, overdue, marked_stuck. change (n_conf (seen_by n)) with (n_conf n). change (n_now (seen_by n)) with (n_now n). rewrite !ms_seen.
  destruct (_ && _ && _); [|reflexivity]. destruct (reported _); reflexivity.
Qed.
Lemma mine_at n h g c : mine h (swept_report n g c) = if Nat.eqb g h then mine O (swept_report n O c) else [].
Proof.
  unfold swept_report. destruct (overdue n c); [|destruct (Nat.eqb g h); reflexivity]. destruct (reported _); [|destruct (Nat.eqb g h); reflexivity].
  rewrite !mine_one. destruct (Nat.eqb g h); reflexivity.
Qed.
Lemma mine_all n h l : forall i, mine h (swept_reports n i l) = if Nat.leb i h then match nth_error l (h - i) with Some c => mine O (swept_report n O c) | None => [] end else [].
Proof.
  induction l as [|c l IH]; intros i; cbn [swept_reports].
  - destruct (Nat.leb i h); [|reflexivity]. destruct (h - i)%nat; reflexivity.
  - rewrite mine_app, mine_at, IH. destruct (Nat.eqb_spec i h) as [->|Ne].
    + rewrite Nat.leb_refl, Nat.sub_diag. cbn [nth_error]. destruct (Nat.leb_spec (S h) h); [lia|]. apply app_nil_r.
    + cbn [app]. destruct (Nat.leb_spec i h), (Nat.leb_spec (S i) h); try lia; [|reflexivity]. replace (h - i)%nat with (S (h - S i)) by lia. reflexivity.
Qed.
Lemma mine_perm h a b : Permutation a b -> (length (mine h b) <= 1)%nat -> mine h a = mine h b.
Proof.
  intros P L. assert (Permutation (mine h a) (mine h b)) as Q.
  { unfold mine. apply Permutation_map. clear L. induction P as [|x a b _ IH|x y a|a b c _ IH1 _ IH2]; cbn [filter]; [constructor|destruct (Nat.eqb (r_service x) h); [apply perm_skip|]; exact IH| |eapply perm_trans; eassumption].
    destruct (Nat.eqb (r_service x) h), (Nat.eqb (r_service y) h); repeat constructor; reflexivity. }
  destruct (mine h b) as [|x [|y m]]; [|apply Permutation_length_1_inv; symmetry; exact Q|cbn in L; lia]. apply Permutation_nil. symmetry. exact Q.
Qed.
Lemma swept_short n c : (length (mine O (swept_report n O c)) <= 1)%nat.
Proof. unfold swept_report. destruct (overdue n c); [|cbn; lia]. destruct (reported _); cbn; lia. Qed.
Lemma swept_own n c : swept (seen_by n) c = swept n c.
Proof. reflexivity. Qed.
Lemma sweep_told n ts reps : Permutation reps (swept_reports n 0 (map acc_of ts)) ->
  map (swept n) (map acc_of ts) = map acc_of (tell ts (n, KActiveCount)) /\ told_grows ts (tell ts (n, KActiveCount)) reps.
Proof.
  intros P. cbn [tell]. destruct (cf_stuck_remove (n_conf n)) eqn:Hr.
  - rewrite !map_map. split; [apply map_ext; intros t; reflexivity|]. intros h.
    assert (mine h (swept_reports n 0 (map acc_of ts)) = match nth_error ts h with Some t => mine O (swept_report n O (acc_of t)) | None => [] end) as M.
    { rewrite mine_all. cbn [Nat.leb]. rewrite Nat.sub_0_r, nth_error_map. destruct (nth_error ts h); reflexivity. }
    rewrite (mine_perm h _ _ P) by (rewrite M; destruct (nth_error ts h); [apply swept_short|cbn; lia]). rewrite M. unfold told. rewrite nth_error_map.
    destruct (nth_error ts h) as [t|]; cbn [option_map]; [|reflexivity]. cbn [reps_of and_then unaddressed]. f_equal. symmetry. apply mine_swept.
  - destruct (quiet_sweep n (map acc_of ts) Hr) as (-> & Q). rewrite Q in P. apply Permutation_sym, Permutation_nil in P as ->. split; [reflexivity|apply grows_nil].
Qed.

Lemma step_told n k ts r l' reps : exact_step n k (map acc_of ts) r l' reps -> l' = map acc_of (tell ts (n, k)) /\ told_grows ts (tell ts (n, k)) reps.
Proof.
  intros S0. assert (k = KActiveCount \/ k <> KActiveCount) as [-> | Hk] by (destruct k; first [left; reflexivity | right; discriminate]).
  { cbn [exact_step] in S0. destruct S0 as (-> & P). apply sweep_told. exact P. }
  assert (ledger_call n k (map acc_of ts) = (l', r, reps)) as C by (destruct k; first [exact S0 | contradiction]).
  clear S0. destruct (is_start k) eqn:Ek.
  - destruct (start_told _ _ _ _ _ _ Ek C) as (-> & Q). split; [exact Q|]. destruct (made_on k) as [h|] eqn:M.
    + rewrite (tell_on _ _ _ _ M). apply grows_begins; [|apply goes_on_len]. destruct (nth_error ts h) as [t|] eqn:E.
      * apply (grows_quiet _ _ _ _ t Hk E). apply started_quiet. exact Ek.
      * rewrite (goes_none _ _ _ _ E). apply grows_nil.
    + rewrite (tell_off _ _ _ Hk M). apply grows_begins; [apply grows_nil|reflexivity].
  - rewrite (plain_call _ _ _ Ek) in C. destruct (made_on k) as [h|] eqn:M.
    + rewrite (tell_on _ _ _ _ M), (begins_none _ _ _ _ Ek), app_nil_r. rewrite nth_error_map in C. destruct (nth_error ts h) as [t|] eqn:E; cbn [option_map] in C; injection C as <- _ <-.
      * split; [apply (goes_on_map _ _ _ _ t); [exact E|apply acc_then; [exact Hk|exact Ek]]|]. apply (grows_goes_on _ _ _ _ t _ Hk E). reflexivity.
      * rewrite (goes_none _ _ _ _ E). split; [reflexivity|apply grows_nil].
    + rewrite (tell_off _ _ _ Hk M), (begins_none _ _ _ _ Ek), app_nil_r. injection C as <- _ <-. split; [reflexivity|apply grows_nil].
Qed.

Lemma run_told ops : forall ts r0 rs l reps, (forall h, mine h r0 = told ts h) -> exact_run (map acc_of ts) ops rs l reps ->
  l = map acc_of (fold_left tell ops ts) /\ forall h, mine h (r0 ++ reps) = told (fold_left tell ops ts) h.
Proof.
  induction ops as [|[n k] ops IH]; intros ts r0 rs l reps H R.
  - inversion R; subst. rewrite app_nil_r. auto.
  - inversion R as [|? ? ? ? ra res l1 y1 l2 y2 S1 T1]; subst. destruct (step_told _ _ _ _ _ _ S1) as (-> & G).
    cbn [fold_left]. rewrite app_assoc. refine (IH _ (r0 ++ y1) _ _ _ _ T1).
    intros h. rewrite mine_app, G, H. reflexivity.
Qed.
Lemma ledger_tales ops rs l reps : exact_run [] ops rs l reps -> l = map acc_of (tales ops) /\ forall h, mine h reps = told (tales ops) h.
Proof. intros H. apply (run_told ops [] [] rs l reps); [intros h; destruct h; reflexivity|exact H]. Qed.

(** ** What the log says *)
Lemma describes_own n c p : describes n c p -> describes (seen_by n) c p.
Proof. intros H. exact H. Qed.
Definition sample_of (x : account * env) : Z * bool := (ms (snd x) (fst x), negb (num_of (fst x) NError =? 0)).
Lemma tells_samples h reps log : tells reps log -> samples_of h log = map sample_of (mine h reps).
Proof.
  unfold mine. induction 1 as [|rs lv t log T IH|g acc n rs log T IH|g acc n rs p log D T IH]; cbn [samples_of flat_map filter r_service] in *; try exact IH; [reflexivity| |];
    destruct (Nat.eqb g h); cbn [map app]; fold (samples_of h log); rewrite IH; reflexivity.
Qed.
Lemma tells_xlogs h reps log p : tells reps log -> In (EvXlog h p) log -> exists acc n, In (acc, n) (mine h reps) /\ describes n acc p.
Proof.
  intros T Hin. destruct (xlog_report _ _ _ _ T Hin) as (acc & n & H1 & H2). exists acc, (seen_by n). split; [|exact H2].
  unfold mine. apply (in_map (fun r => (r_acc r, seen_by (r_env r))) _ (mkRep h acc n)). apply filter_In. split; [exact H1|apply Nat.eqb_refl].
Qed.
Lemma described_alike n acc p q : describes n acc p -> describes n acc q -> bare p = bare q.
Proof.
  intros H H'. unfold describes in *.
  repeat match goal with X : _ /\ _ |- _ => destruct X end.
  unfold bare. repeat match goal with X : ?f p = _ |- _ => rewrite X; clear X end. repeat match goal with X : ?f q = _ |- _ => rewrite X; clear X end. reflexivity.
Qed.

(** a service is reported at most once *)
Lemma over_error e c : over (error_unless_set e c) = over c.
Proof. unfold error_unless_set. destruct (_ =? _); reflexivity. Qed.
Lemma over_gxid c : over (with_gxid c) = over c.
Proof. unfold with_gxid. destruct (_ =? _); reflexivity. Qed.
Lemma over_params n ps c : over (add_params_to n ps c) = over c.
Proof.
  unfold add_params_to. revert c. induction ps as [|[p|] ps IH]; intros c; cbn [fold_left]; [reflexivity| |apply IH]. rewrite IH. reflexivity.
Qed.
Lemma over_stays n k c : over c = true -> over (becomes (on_account n k c)) = true /\ reported (on_account n k c) = None.
Proof.
  intros O. destruct k; cbn [on_account]; try (cbn; auto; fail).
  all: try (unfold ends_now; rewrite O; cbn; auto; fail).
  - destruct status as [z|]; [|unfold ends_now]; rewrite O; (split; [exact O|reflexivity]).
  - cbn. rewrite over_error. split; [exact O|reflexivity].
  - destruct st; cbn; auto.
  - cbn. rewrite over_params. split; [exact O|reflexivity].
  - cbn. rewrite over_params. split; [exact O|reflexivity].
  - destruct ptr as [a|]; [|cbn; auto]. destruct (step_of c a) as [[]|]; cbn; auto.
  - cbn. rewrite over_gxid. cbn. split; [exact O|reflexivity].
  - destruct ptr as [a|]; [|cbn; auto]. destruct (step_of c a) as [[]|]; try (cbn; auto; fail). destruct err; cbn; rewrite ?over_error; cbn; auto.
Qed.
Lemma reported_over n k c a : reported (on_account n k c) = Some a -> over (becomes (on_account n k c)) = true.
Proof.
  destruct k; cbn [on_account]; unfold ends_now, quiet, method_started; try (intros E; discriminate E);
    repeat match goal with |- context[match ?x with _ => _ end] => destruct x end; intros E; try discriminate E; reflexivity.
Qed.
Lemma reps_once t : reps_of t = [] \/ (over (acc_of t) = true /\ exists x, reps_of t = [x]).
Proof.
  induction t as [n k po|t IH n k]; [left; reflexivity|]. assert (k = KActiveCount \/ k <> KActiveCount) as [-> | Hk] by (destruct k; first [left; reflexivity | right; discriminate]).
  { cbn [reps_of acc_of]. destruct IH as [-> | (O & x & ->)].
    - unfold swept, swept_report. destruct (overdue n (acc_of t)) eqn:Ov; [|left; reflexivity]. destruct (reported _) as [a|] eqn:Er; [|left; reflexivity]. right. split; [|exists (a, n); reflexivity].
      unfold ends_now in *. destruct (over (marked_stuck n (acc_of t))) eqn:Oo; [discriminate Er|reflexivity].
    - right. unfold swept, swept_report. rewrite (not_overdue _ _ O). split; [exact O|]. exists x. reflexivity. }
  assert (reps_of (Then t n k) = reps_of t ++ match reported (on_account n k (acc_of t)) with Some a => [(a, n)] | None => [] end) as -> by (destruct k; first [reflexivity | contradiction]).
  assert (acc_of (Then t n k) = match k with KGo _ a => spawned_from n a (acc_of t) | _ => becomes (on_account n k (acc_of t)) end) as -> by (destruct k; first [reflexivity | contradiction]).
  assert (match k with KGo _ a => spawned_from n a (acc_of t) | _ => becomes (on_account n k (acc_of t)) end = becomes (on_account n k (acc_of t)) \/
    (exists c a, k = KGo c a)) as [-> | (c & a & ->)] by (destruct k; eauto).
  - destruct IH as [-> | (O & x & ->)].
    + destruct (reported (on_account n k (acc_of t))) as [a|] eqn:E; [|left; reflexivity]. right. split; [exact (reported_over _ _ _ _ E)|]. exists (a, n). reflexivity.
    + right. destruct (over_stays n k _ O) as (O' & ->). split; [exact O'|]. exists x. reflexivity.
  - cbn [on_account quiet reported]. rewrite app_nil_r. destruct IH as [-> | (O & x & ->)]; [left; reflexivity|right]. split; [|exists x; reflexivity].
    unfold spawned_from, add_step_to, put_did, with_gxid, put_num. destruct (num_of (acc_of t) NGxid =? 0); exact O.
Qed.

(** the result of a call *)
Definition answer (n : env) (k : call) (po : option tale) : res :=
  match k with
  | KStartService _ _ _ | KStartHttp _ _ | KInherit _ _ => RCtx CNil
  | KGo _ _ => RRun None
  | _ => match po with Some t => gives (on_account n k (acc_of t)) | None => untraced k end
  end.
Lemma answer_own n k po : answer (seen_by n) (unaddressed k) po = answer n k po.
Proof. destruct k; cbn [answer unaddressed]; try reflexivity; destruct po; reflexivity. Qed.
Lemma ctx_match (A : Type) (f : A) k : (match k with KStartService _ _ _ | _ => f end) = f.
Proof. destruct k; reflexivity. Qed.
Lemma step_answer n k ts r l' reps : k <> KActiveCount -> ledger_step n k (map acc_of ts) r l' reps ->
  neutral r = answer n k match made_on k with Some h => nth_error ts h | None => None end.
Proof.
  intros Hk S0. assert (ledger_call n k (map acc_of ts) = (l', r, reps)) as C by (destruct k; [exact S0..|contradiction|exact S0|exact S0]). clear S0.
  destruct (is_start k) eqn:Ek.
  - destruct k; try discriminate Ek; cbn [answer]; cbn [ledger_call] in C.
    + destruct (account_of _ c) as [[g x]|]; injection C as _ <- _; reflexivity.
    + destruct c as [| |h]; cbn [account_of] in C; [|destruct req|destruct (option_map _ _) as [[g x]|]; [|destruct req]]; injection C as _ <- _; reflexivity.
    + destruct (nth_error (map acc_of ts) parent); injection C as _ <- _; reflexivity.
    + destruct (account_of _ c) as [[g x]|]; injection C as _ <- _; reflexivity.
  - rewrite (plain_call _ _ _ Ek) in C. assert (forall po, answer n k po = match po with Some t => gives (on_account n k (acc_of t)) | None => untraced k end) as A
      by (intros po; destruct k; try discriminate Ek; reflexivity).
    rewrite A. assert (forall c, neutral (gives (on_account n k c)) = gives (on_account n k c)) as Ng.
    { intros c. destruct k; try discriminate Ek; cbn [on_account]; unfold ends_now, quiet, method_started; repeat match goal with |- context[match ?x with _ => _ end] => destruct x end; reflexivity. }
    assert (neutral (untraced k) = untraced k) as Nu by (destruct k; reflexivity).
    destruct (made_on k) as [h|]; [|injection C as _ <- _; exact Nu]. rewrite nth_error_map in C. destruct (nth_error ts h) as [t|]; cbn [option_map] in C; injection C as _ <- _; auto.
Qed.

(* ------------------------------------------------------------------ *)
(** * C100 *)
Section Two.
Context (c1 c2 : sconf) (ops1 ops2 : list (env * call)) (h1 h2 : nat) (t : tale).
Context (W1 : well_used c1 ops1) (W2 : well_used c2 ops2) (N1 : checks_fit c1 ops1) (N2 : checks_fit c2 ops2).
Context (T1 : nth_error (tales ops1) h1 = Some t) (T2 : nth_error (tales ops2) h2 = Some t).

Lemma two_reports : exists l1 l2 reps1 reps2 rs1 rs2, follows c1 ops1 rs1 l1 reps1 /\ follows c2 ops2 rs2 l2 reps2 /\
  nth_error l1 h1 = Some (acc_of t) /\ nth_error l2 h2 = Some (acc_of t) /\ mine h1 reps1 = reps_of t /\ mine h2 reps2 = reps_of t.
Proof.
  destruct (exact_profiles _ _ W1 N1) as (rs1 & l1 & reps1 & F1 & L1 & _). destruct (exact_profiles _ _ W2 N2) as (rs2 & l2 & reps2 & F2 & L2 & _).
  destruct (ledger_tales _ _ _ _ L1) as (-> & M1). destruct (ledger_tales _ _ _ _ L2) as (-> & M2).
  exists (map acc_of (tales ops1)), (map acc_of (tales ops2)), reps1, reps2, rs1, rs2. rewrite !nth_error_map, T1, T2, M1, M2. unfold told. rewrite T1, T2. auto 10.
Qed.
End Two.

Theorem C100_samples c1 ops1 h1 c2 ops2 h2 t : well_used c1 ops1 -> well_used c2 ops2 -> checks_fit c1 ops1 -> checks_fit c2 ops2 ->
  nth_error (tales ops1) h1 = Some t -> nth_error (tales ops2) h2 = Some t ->
  samples_of h1 (a_log (after c1 ops1)) = samples_of h2 (a_log (after c2 ops2)).
Proof.
  intros W1 W2 N1 N2 T1 T2. destruct (two_reports c1 c2 ops1 ops2 h1 h2 t W1 W2 N1 N2 T1 T2) as (l1 & l2 & reps1 & reps2 & rs1 & rs2 & (_ & _ & F1 & _) & (_ & _ & F2 & _) & _ & _ & M1 & M2).
  rewrite (tells_samples _ _ _ F1), (tells_samples _ _ _ F2), M1, M2. reflexivity.
Qed.

Theorem C100_xlogs c1 ops1 h1 c2 ops2 h2 t p q : well_used c1 ops1 -> well_used c2 ops2 -> checks_fit c1 ops1 -> checks_fit c2 ops2 ->
  nth_error (tales ops1) h1 = Some t -> nth_error (tales ops2) h2 = Some t ->
  In (EvXlog h1 p) (a_log (after c1 ops1)) -> In (EvXlog h2 q) (a_log (after c2 ops2)) -> bare p = bare q.
Proof.
  intros W1 W2 N1 N2 T1 T2 P Q. destruct (two_reports c1 c2 ops1 ops2 h1 h2 t W1 W2 N1 N2 T1 T2) as (l1 & l2 & reps1 & reps2 & rs1 & rs2 & (_ & _ & F1 & _) & (_ & _ & F2 & _) & _ & _ & M1 & M2).
  destruct (tells_xlogs _ _ _ _ F1 P) as (a1 & n1 & I1 & D1). destruct (tells_xlogs _ _ _ _ F2 Q) as (a2 & n2 & I2 & D2). rewrite M1 in I1. rewrite M2 in I2.
  destruct (reps_once t) as [E | (_ & x & E)]; rewrite E in I1, I2; [destruct I1|]. destruct I1 as [-> | []]. destruct I2 as [E2 | []]. injection E2 as -> ->.
  exact (described_alike _ _ _ _ D1 D2).
Qed.

(** what a call on the service returns; [k1] and [k2] are the same call on the service and find the same time, key, goroutine and configuration *)
Theorem C100_answers c1 ops1 n1 k1 rs1 r1 h1 c2 ops2 n2 k2 rs2 r2 h2 t :
  well_used c1 (ops1 ++ [(n1, k1)]) -> well_used c2 (ops2 ++ [(n2, k2)]) -> checks_fit c1 ops1 -> checks_fit c2 ops2 ->
  nth_error (tales ops1) h1 = Some t -> nth_error (tales ops2) h2 = Some t ->
  made_on k1 = Some h1 -> made_on k2 = Some h2 -> unaddressed k1 = unaddressed k2 -> seen_by n1 = seen_by n2 ->
  snd (run (ops1 ++ [(n1, k1)]) (a_init c1)) = Some rs1 -> snd (run (ops2 ++ [(n2, k2)]) (a_init c2)) = Some rs2 ->
  nth_error rs1 (length ops1) = Some r1 -> nth_error rs2 (length ops2) = Some r2 -> neutral r1 = neutral r2.
Proof.
  assert (forall c ops n k rs r h, well_used c (ops ++ [(n, k)]) -> checks_fit c ops -> nth_error (tales ops) h = Some t -> made_on k = Some h ->
    snd (run (ops ++ [(n, k)]) (a_init c)) = Some rs -> nth_error rs (length ops) = Some r -> neutral r = answer (seen_by n) (unaddressed k) (Some t)) as H.
  { intros c ops n k rs r h W N T M R Er. assert (k <> KActiveCount) as Nk by (intros ->; discriminate M).
    destruct (exact_books _ _ W (checks_more _ _ n _ N Nk)) as (rs' & l & reps & R' & _ & X & _). rewrite R in R'. injection R' as <-.
    destruct (exact_at _ _ _ _ _ _ _ X) as (ra & r' & l0 & y0 & y1 & -> & Ll & H0 & S0 & _).
    rewrite nth_error_app2, Ll, Nat.sub_diag in Er by lia. injection Er as <-.
    destruct (ledger_tales _ _ _ _ H0) as (-> & _). assert (ledger_step n k (map acc_of (tales ops)) r' l y1) as S1 by (destruct k; first [exact S0 | contradiction]).
    rewrite (step_answer _ _ _ _ _ _ Nk S1), M, T. symmetry. apply answer_own. }
  intros W1 W2 N1 N2 T1 T2 M1 M2 K E R1 R2 X1 X2. rewrite (H _ _ _ _ _ _ _ W1 N1 T1 M1 R1 X1), (H _ _ _ _ _ _ _ W2 N2 T2 M2 R2 X2), K, E. reflexivity.
Qed.

(** the profile sent when the service ends: the steps that the collector decodes and their numbers *)
Definition profile_of (c : sconf) (ops : list (env * call)) (n : env) (k : call) (h : nat) (ds : list (list step)) : Prop :=
  exists y, nth_error (a_ctx (fst (do_call n k (after c ops)))) h = Some y /\
    map (fun pk => decode_profile (pp_Profile pk)) (p_sent (x_Profile y)) = map Some ds.
Theorem C100_profiles c1 ops1 n1 k1 h1 c2 ops2 n2 k2 h2 t : well_used c1 ops1 -> well_used c2 ops2 -> checks_fit c1 ops1 -> checks_fit c2 ops2 ->
  nth_error (tales ops1) h1 = Some t -> nth_error (tales ops2) h2 = Some t ->
  Forall typed ops1 -> Forall typed ops2 -> good n1 -> good n2 -> is_end (CTrace h1) k1 -> is_end (CTrace h2) k2 ->
  exists rs1 l1 reps1 rs2 l2 reps2 acc, follows c1 ops1 rs1 l1 reps1 /\ follows c2 ops2 rs2 l2 reps2 /\
    nth_error l1 h1 = Some acc /\ nth_error l2 h2 = Some acc /\
    (over acc = false -> ended_once 0 [] (did acc) -> profile_kept (after c1 ops1) n1 acc -> profile_kept (after c2 ops2) n2 acc ->
     exists ds1 ds2, profile_of c1 ops1 n1 k1 h1 ds1 /\ profile_of c2 ops2 n2 k2 h2 ds2 /\
       map strip (concat ds1) = map strip (concat ds2) /\ map get_index (concat ds1) = map get_index (concat ds2)).
Proof.
  intros W1 W2 N1 N2 T1 T2 Y1 Y2 G1 G2 E1 E2.
  destruct (exact_profiles _ _ W1 N1) as (rs1 & l1 & reps1 & F1 & L1 & P1). destruct (exact_profiles _ _ W2 N2) as (rs2 & l2 & reps2 & F2 & L2 & P2).
  destruct (ledger_tales _ _ _ _ L1) as (-> & _). destruct (ledger_tales _ _ _ _ L2) as (-> & _).
  exists rs1, (map acc_of (tales ops1)), reps1, rs2, (map acc_of (tales ops2)), reps2, (acc_of t).
  assert (nth_error (map acc_of (tales ops1)) h1 = Some (acc_of t)) as A1 by (rewrite nth_error_map, T1; reflexivity).
  assert (nth_error (map acc_of (tales ops2)) h2 = Some (acc_of t)) as A2 by (rewrite nth_error_map, T2; reflexivity).
  split; [exact F1|]. split; [exact F2|]. split; [exact A1|]. split; [exact A2|]. intros O D K1 K2.
  destruct (P1 Y1 _ _ _ _ G1 A1 O D E1 K1) as (y1 & ds1 & B1 & C1 & S1 & I1 & _). destruct (P2 Y2 _ _ _ _ G2 A2 O D E2 K2) as (y2 & ds2 & B2 & C2 & S2 & I2 & _).
  exists ds1, ds2. split; [exists y1; auto|]. split; [exists y2; auto|]. split; [congruence|congruence].
Qed.

(** a service alone, and the same service begun after another one which is worked on in between and ends before it *)
Definition own (h : nat) : list (env * call) :=
  [(env0 11 1000000, KStartService CNil (of_string "/a") (of_string "10.0.0.1:80"));
   (env0 12 2000000, KStartApiProp (CTrace h) true (of_string "api") (of_string "h"));
   (env0 14 6000000, KEndApi (CTrace h) (Some 1%nat) (Some (of_string "no")));
   (env0 16 9000000, KEndService (CTrace h))].
Definition other : list (env * call) :=
  [(env0 21 500000, KStartService CPlain (of_string "/x") (of_string "10.0.0.2"));
   (env0 22 1500000, KMarkError (CTrace 0) (of_string "bad"));
   (env0 23 3000000, KResetText);
   (env0 24 7000000, KEndService (CTrace 0))].
Definition amid : list (env * call) :=
  match own 1, other with [a; b; c; d], [x; y; z; w] => [x; a; y; b; z; c; w; d] | _, _ => [] end.
Definition alone_tale : tale := match tales (own 0) with t :: _ => t | [] => began (env0 0 0) KConf None end.
Lemma alone_used : well_used sconf0 (own 0).
Proof. apply easy_used. unfold own. repeat (constructor; [split; [apply env0_good|exact I]|]). constructor. Qed.
Lemma amid_used : well_used sconf0 amid.
Proof. apply easy_used. unfold amid, own, other. repeat (constructor; [split; [apply env0_good|exact I]|]). constructor. Qed.
Lemma quiet_own h : no_removals (own h).
Proof. intros n H. cbn [own In] in H. repeat (destruct H as [H|H]; [discriminate H|]). destruct H. Qed.
Lemma quiet_amid : no_removals amid.
Proof. intros n H. cbn [amid own other In] in H. repeat (destruct H as [H|H]; [discriminate H|]). destruct H. Qed.
Lemma alone_told : nth_error (tales (own 0)) 0 = Some alone_tale.
Proof. reflexivity. Qed.
Lemma amid_told : nth_error (tales amid) 1 = Some alone_tale.
Proof. reflexivity. Qed.
Example C100_case : well_used sconf0 (own 0) /\ well_used sconf0 amid /\ checks_fit sconf0 (own 0) /\ checks_fit sconf0 amid /\
  nth_error (tales (own 0)) 0 = Some alone_tale /\ nth_error (tales amid) 1 = Some alone_tale /\
  match samples_of 0 (a_log (after sconf0 (own 0))), samples_of 1 (a_log (after sconf0 amid)) with [(8, true)], [(8, true)] => true | _, _ => false end = true /\
  match a_log (after sconf0 (own 0)), a_log (after sconf0 amid) with
  | [EvMeter O _ _; EvXlog O p], [EvMeter O _ _; EvXlog O _; EvMeter 1%nat _ _; EvXlog 1%nat q] =>
      (xl_Txid p =? 11) && (xl_Txid q =? 11) && (xl_ApicallTime p =? 4) && (xl_Error q =? text_id (of_string "no"))
  | _, _ => false end = true.
Proof.
  split; [exact alone_used|]. split; [exact amid_used|]. split; [apply quiet_checks, quiet_own|]. split; [apply quiet_checks, quiet_amid|]. split; [exact alone_told|]. split; [exact amid_told|].
  split; vm_compute; reflexivity.
Qed.
Example C100_answers_case :
  let k1 := KStartApiProp (CTrace 0) true (of_string "api") (of_string "h") in
  let k2 := KStartApiProp (CTrace 1) true (of_string "api") (of_string "h") in
  let n := env0 12 2000000 in
  well_used sconf0 (firstn 1 (own 0) ++ [(n, k1)]) /\ well_used sconf0 (firstn 3 amid ++ [(n, k2)]) /\
  checks_fit sconf0 (firstn 1 (own 0)) /\ checks_fit sconf0 (firstn 3 amid) /\
  (exists t, nth_error (tales (firstn 1 (own 0))) 0 = Some t /\ nth_error (tales (firstn 3 amid)) 1 = Some t) /\
  unaddressed k1 = unaddressed k2 /\
  match snd (run (firstn 1 (own 0) ++ [(n, k1)]) (a_init sconf0)) with Some rs => nth_error rs 1 | None => None end =
    Some (RApi (Some 1%nat) [int_to_xlog_string32 11; int_to_xlog_string32 11; int_to_xlog_string32 12; format_int 10 77]) /\
  match snd (run (firstn 3 amid ++ [(n, k2)]) (a_init sconf0)) with Some rs => nth_error rs 3 | None => None end =
    Some (RApi (Some 1%nat) [int_to_xlog_string32 11; int_to_xlog_string32 11; int_to_xlog_string32 12; format_int 10 77]).
Proof.
  cbv zeta. split; [|split; [|split; [|split; [|split; [|split; [reflexivity|split; vm_compute; reflexivity]]]]]].
  - apply easy_used. cbn [firstn app own]. repeat (constructor; [split; [apply env0_good|exact I]|]). constructor.
  - apply easy_used. cbn [firstn app amid own other]. repeat (constructor; [split; [apply env0_good|exact I]|]). constructor.
  - apply quiet_checks. intros n H. cbn [firstn own In] in H. repeat (destruct H as [H|H]; [discriminate H|]). destruct H.
  - apply quiet_checks. intros n H. cbn [firstn amid own other In] in H. repeat (destruct H as [H|H]; [discriminate H|]). destruct H.
  - eexists. split; reflexivity.
Qed.
Example C100_profiles_case : exists rs l reps acc rs' l' reps' acc', ledger_run [] (firstn 3 (own 0)) rs l reps /\ nth_error l 0 = Some acc /\
  ledger_run [] (firstn 7 amid) rs' l' reps' /\ nth_error l' 1 = Some acc' /\
  over acc = false /\ ended_once 0 [] (did acc) /\ Forall typed (firstn 3 (own 0)) /\ Forall typed (firstn 7 amid) /\
  profile_kept (after sconf0 (firstn 3 (own 0))) (env0 16 9000000) acc /\ profile_kept (after sconf0 (firstn 7 amid)) (env0 16 9000000) acc' /\
  finish_numbers 0 (did acc) = [0; 1]%nat.
Proof.
  eexists _, _, _, _, _, _, _, _. split; [cbn [firstn own]; repeat (eapply hist_cons; [reflexivity|]); apply hist_nil|]. split; [reflexivity|].
  split; [cbn [firstn amid own other]; repeat (eapply hist_cons; [reflexivity|]); apply hist_nil|]. split; [reflexivity|].
  split; [reflexivity|]. split; [vm_compute; auto|]. split; [|split; [|split; [|split]]].
  - cbn [firstn own]. repeat (constructor; [split; [split; vm_compute; discriminate|exact I]|]). constructor.
  - cbn [firstn amid own other]. repeat (constructor; [split; [split; vm_compute; discriminate|exact I]|]). constructor.
  - vm_compute. reflexivity.
  - vm_compute. reflexivity.
  - vm_compute. reflexivity.
Qed.

Print Assumptions C100_samples.
Print Assumptions C100_xlogs.
Print Assumptions C100_answers.
Print Assumptions C100_profiles.
