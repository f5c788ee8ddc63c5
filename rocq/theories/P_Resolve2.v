(** C82, C76: what arrives at the collector can be resolved; profiles arrive with the steps of their accounts. *)
From Verif Require Import GoInt M_Util M_Hash M_OutX S_Wire M_Packs S_Packs M_Steps S_Steps M_Text S_Text M_Profile S_Profile M_Sampler M_Trace L_Trace S_Trace P_Trace P_Trace3 S_Ledger L_Ledger3
  L_Ledger5 P_Ledger M_Udp S_Udp L_Udp P_Udp M_Net S_Net L_Net P_Net S_EndToEnd L_EndToEnd P_EndToEnd S_Resolve L_Resolve P_Resolve.
From Coq Require Import ZifyBool Permutation.

(** The texts offered in the history were handed to the queue and the queue dropped none, the xlogs directly; when all datagrams have arrived, every text number of
    every xlog which the collector reads is 0 or among the texts which it reads. *)
Theorem C82_collector_resolves c ops qcap max qs ps s received : 0 < max <= 2147483647 -> qcap <= 32767 -> history qcap max qs ps s ->
  xlogs_in qs = [] -> xlogs_in ps = xlogs_of (a_log (after c ops)) -> incl (map (fun o => PText (snd o)) (offers (t_log (a_text (after c ops))))) qs ->
  at_rest s -> dropped (x_u s) = [] -> x_lost s = [] -> Permutation received (map snd (x_sent s)) ->
  forall x, In x (xlogs_in (collector received)) ->
    Forall (fun id => snd id = 0 \/ exists text, hash_string text = Some (snd id) /\
                      In (PText (mk_text_pack (wire_type (fst id)) (snd id) (on_wire text))) (collector received)) (xlog_ids x).
Proof.
  intros M Q H Xq Xp Ti R D L P x Hx. pose proof (C77_nothing_missing _ _ _ _ _ _ M Q H R D L P) as C.
  apply (Permutation_in _ (xlogs_perm _ _ C)) in Hx. rewrite xlogs_view in Hx. apply in_map_iff in Hx as (y & <- & Hy).
  assert (In y (xlogs_of (a_log (after c ops)))) as Hl.
  { rewrite <- Xp. unfold xlogs_in in Hy. rewrite flat_map_app in Hy. apply in_app_or in Hy as [Hy|Hy]; [|exact Hy]. change (In y (xlogs_in qs)) in Hy. rewrite Xq in Hy. destruct Hy. }
  unfold xlogs_of in Hl. apply in_flat_map in Hl as (e & He & Hi). destruct e as [h p| |]; [|destruct Hi|destruct Hi]. destruct Hi as [E|[]]. subst p. pose proof (C82_xlogs c ops h y He) as T.
  change (xlog_ids (view_xlog_pack y)) with (xlog_ids y). eapply Forall_impl; [|exact T]. intros id [Z0|(text & Ht & Hin)]; [left; exact Z0|right]. exists text. split; [exact Ht|].
  apply (Permutation_in _ (Permutation_sym C)). apply in_map_iff. exists (PText (mk_text_pack (wire_type (fst id)) (snd id) text)). split.
  - cbn [collector_pack]. unfold view_text_pack. cbn [tp_Xtype tp_Hash tp_Text]. destruct (fst id); reflexivity.
  - apply in_or_app. left. apply Ti. apply in_map_iff. exists (fst id, mk_text_pack (wire_type (fst id)) (snd id) text). split; [reflexivity|exact Hin].
Qed.

(** the profile packs of a transaction *)
Definition profiles_for (tx : Z) (ps : list pack) : list profile_pack := flat_map (fun p => match p with PProfile k => if pp_Txid k =? tx then [k] else [] | _ => [] end) ps.
Lemma profiles_view tx ps : profiles_for tx (map collector_pack ps) = map view_profile_pack (profiles_for tx ps).
Proof.
  unfold profiles_for. induction ps as [|p ps IH]; [reflexivity|]. cbn [map flat_map]. rewrite IH, map_app. destruct p; try reflexivity. cbn [collector_pack view_profile_pack pp_Txid].
  destruct (pp_Txid p =? tx); reflexivity.
Qed.

(** A service ends and its profile is kept. If the packs handed over for its transaction are those of the history, and all datagrams arrive, then the packs which the collector
    reads for the transaction decode, up to the order of the packs, to the steps which the application finished, in their order. *)
Theorem C76_profile_arrives c ops (n : env) (k : call) h : well_used c ops -> Forall typed ops -> exists rs l reps, follows c ops rs l reps /\
  forall acc qcap max qs ps s received, S_Trace.good n -> nth_error l h = Some acc -> over acc = false -> ended_once 0 [] (did acc) -> is_end (CTrace h) k -> profile_kept (after c ops) n acc ->
    0 < max <= 2147483647 -> qcap <= 32767 -> history qcap max qs ps s -> at_rest s -> dropped (x_u s) = [] -> x_lost s = [] -> Permutation received (map snd (x_sent s)) ->
    (forall y, nth_error (a_ctx (fst (do_call n k (after c ops)))) h = Some y -> Permutation (profiles_for (num_of acc NTxid) (qs ++ ps)) (p_sent (x_Profile y))) ->
    exists ds, Permutation (map (fun pk => decode_profile (pp_Profile pk)) (profiles_for (num_of acc NTxid) (collector received))) (map Some ds) /\
      map strip (concat ds) = map (fun st => strip (view_step st)) (finished_steps (did acc)) /\
      map get_index (concat ds) = map (fun a => int32 (Z.of_nat a)) (finish_numbers 0 (did acc)).
Proof.
  intros W T. destruct (C72_profiles c ops W) as (rs & l & reps & F & Pt). exists rs, l, reps. split; [exact F|]. intros acc qcap max qs ps s received G E O On Ek Kp M Q H R D L P Hy.
  destruct (Pt T n k h acc G E O On Ek Kp) as (y & ds & Ey & Ed & Es & Ei & _). exists ds. split; [|split; [exact Es|exact Ei]]. rewrite <- Ed.
  pose proof (C77_nothing_missing _ _ _ _ _ _ M Q H R D L P) as C.
  assert (Permutation (profiles_for (num_of acc NTxid) (collector received)) (map view_profile_pack (profiles_for (num_of acc NTxid) (qs ++ ps)))) as C1.
  { rewrite <- profiles_view. unfold profiles_for. apply Permutation_flat_map. exact C. }
  apply (Permutation_map (fun pk => decode_profile (pp_Profile pk))) in C1. rewrite C1, map_map. cbn [view_profile_pack pp_Profile]. apply (Permutation_map (fun pk => decode_profile (pp_Profile pk))). apply Hy, Ey.
Qed.

(* ------------------------------------------------------------------ *)
Fixpoint queued_by (os : list demo_op) : list pack := match os with [] => [] | DQueue p :: r => p :: queued_by r | _ :: r => queued_by r end.
Fixpoint direct_by (os : list demo_op) : list pack := match os with [] => [] | DDirect _ p :: r => p :: direct_by r | _ :: r => direct_by r end.
Lemma demo_parts qcap max os : forall qs ps s qs' ps' s', demo qcap max os (qs, ps, s) = Some (qs', ps', s') -> qs' = qs ++ queued_by os /\ ps' = ps ++ direct_by os.
Proof.
  induction os as [|o os IH]; intros qs ps s qs' ps' s' E; cbn [demo] in E; [injection E as <- <- <-; rewrite !app_nil_r; auto|].
  destruct (demo_step qcap max o (qs, ps, s)) as [[[q1 p1] s1]|] eqn:Eo; [|discriminate]. destruct (IH _ _ _ _ _ _ E) as (-> & ->). destruct o; cbn [demo_step queued_by direct_by] in *.
  - destruct (proper_b max p); [|discriminate]. injection Eo as <- <- <-. rewrite <- app_assoc. auto.
  - destruct (net_direct max pkid p s) as [s2|]; [|discriminate]. destruct (_ && _ && _); [|discriminate]. injection Eo as <- <- <-. rewrite <- app_assoc. auto.
  - destruct (net_sender max (fun _ => pkid) s) as [s2|]; [|discriminate]. destruct (_ && _); [|discriminate]. injection Eo as <- <- <-. auto.
  - injection Eo as <- <- <-. auto.
  - injection Eo as <- <- <-. auto.
  - injection Eo as <- <- <-. auto.
  - injection Eo as <- <- <-. auto.
Qed.
Definition case_offers := offers (t_log (a_text (after sconf0 late_ops))).
Definition case_xlogs := xlogs_of (a_log (after sconf0 late_ops)).
Definition flush_all : list demo_op := [DWrite 0; DSender 7; DWriteSender; DSender 8; DWriteSender; DSender 9; DWriteSender; DSender 10; DWriteSender; DSender 11; DWriteSender; DSender 12; DWriteSender].
Definition script (offs : list (kind * text_pack)) (xs : list xlog_pack) : list demo_op := map (fun o => DQueue (PText (snd o))) offs ++ map (fun x => DDirect 5 (PXlog x)) xs ++ flush_all.
Definition rests (s : netsys) : bool :=
  match x_uout s, concat (x_jobs s), queue (x_u s), snd_state (x_u s), dropped (x_u s), x_lost s with [], [], [], Idle, [], [] => true | _, _, _, _, _, _ => false end.
Lemma queued_map l r : queued_by (map (fun o : kind * text_pack => DQueue (PText (snd o))) l ++ r) = map (fun o => PText (snd o)) l ++ queued_by r.
Proof. induction l as [|o l IH]; [reflexivity|]. cbn [map app queued_by]. rewrite IH. reflexivity. Qed.
Lemma direct_map l r : direct_by (map (fun o : kind * text_pack => DQueue (PText (snd o))) l ++ r) = direct_by r.
Proof. induction l as [|o l IH]; [reflexivity|exact IH]. Qed.
Lemma direct_map2 l r : direct_by (map (fun x => DDirect 5 (PXlog x)) l ++ r) = map PXlog l ++ direct_by r /\ queued_by (map (fun x => DDirect 5 (PXlog x)) l ++ r) = queued_by r.
Proof. induction l as [|o l (IH & IH')]; [split; reflexivity|]. cbn [map app direct_by queued_by]. rewrite IH, IH'. split; reflexivity. Qed.
Lemma script_runs offs xs : match demo 8 200 (script offs xs) ([], [], net0 true) with Some (_, _, s) => rests s | None => false end = true ->
  exists qs ps s, history 8 200 qs ps s /\ xlogs_in qs = [] /\ xlogs_in ps = xs /\ incl (map (fun o => PText (snd o)) offs) qs /\ at_rest s /\ dropped (x_u s) = [] /\ x_lost s = [].
Proof.
  intros T. destruct (demo 8 200 (script offs xs) ([], [], net0 true)) as [[[qs ps] s]|] eqn:E; [|discriminate T]. destruct (demo_parts _ _ _ _ _ _ _ _ _ E) as (Eq & Ep).
  pose proof (demo_history 8 200 _ [] [] (net0 true) _ (hi_start 8 200 true) E) as H. cbn iota beta in H. exists qs, ps, s. split; [exact H|]. clear H E.
  unfold script in Eq, Ep. rewrite queued_map in Eq. rewrite direct_map in Ep. destruct (direct_map2 xs flush_all) as (A & B).
  rewrite B in Eq. rewrite A in Ep. change (queued_by flush_all) with (@nil pack) in Eq. change (direct_by flush_all) with (@nil pack) in Ep. cbn [app] in Eq, Ep. rewrite app_nil_r in Eq, Ep. subst qs ps.
  split; [clear; induction offs as [|o l IH]; [reflexivity|exact IH]|]. split; [clear; induction xs as [|o l IH]; [reflexivity|cbn; f_equal; exact IH]|].
  split; [intros x Hx; exact Hx|]. unfold rests in T. unfold at_rest. destruct (x_uout s), (concat (x_jobs s)), (queue (x_u s)), (snd_state (x_u s)), (dropped (x_u s)), (x_lost s); try discriminate T.
  split; [auto|]. split; reflexivity.
Qed.
(** the texts, then the xlog of the example of C82, with a size limit that sends each text on its own *)
Example C82_case2 : (exists qs ps s, history 8 200 qs ps s /\ xlogs_in qs = [] /\ xlogs_in ps = case_xlogs /\ incl (map (fun o => PText (snd o)) case_offers) qs /\ at_rest s /\
  dropped (x_u s) = [] /\ x_lost s = []) /\ Z.of_nat (length case_xlogs) =? 1 = true /\ 3 <=? Z.of_nat (length case_offers) = true.
Proof. split; [apply script_runs; vm_compute; reflexivity|]. split; vm_compute; reflexivity. Qed.

(** the profile of the example of C72, handed over directly *)
Definition ended_profile : list profile_pack :=
  match nth_error (a_ctx (fst (do_call (env0 16 9000000) (KEndService (CTrace 0)) (after sconf0 (firstn 5 ex_ops))))) 0 with Some y => p_sent (x_Profile y) | None => [] end.
Lemma profiles_direct tx l : forallb (fun k => pp_Txid k =? tx) l = true -> profiles_for tx (map PProfile l) = l.
Proof. unfold profiles_for. induction l as [|k l IH]; cbn [forallb map flat_map]; [reflexivity|]. intros H. apply andb_prop in H as (-> & H). cbn [app]. f_equal. apply IH, H. Qed.
Lemma direct_profiles l : forall os, direct_by (map (fun k => DDirect 5 (PProfile k)) l ++ os) = map PProfile l ++ direct_by os /\ queued_by (map (fun k => DDirect 5 (PProfile k)) l ++ os) = queued_by os.
Proof. intros os. induction l as [|o l (IH & IH')]; [split; reflexivity|]. cbn [map app direct_by queued_by]. rewrite IH, IH'. split; reflexivity. Qed.
Lemma profiles_run tx l : match demo 8 200 (map (fun k => DDirect 5 (PProfile k)) l ++ [DWrite 0]) ([], [], net0 true) with Some (_, _, s) => rests s | None => false end = true ->
  forallb (fun k => pp_Txid k =? tx) l = true ->
  exists qs ps s, history 8 200 qs ps s /\ at_rest s /\ dropped (x_u s) = [] /\ x_lost s = [] /\ Permutation (profiles_for tx (qs ++ ps)) l.
Proof.
  intros T F. destruct (demo 8 200 _ ([], [], net0 true)) as [[[qs ps] s]|] eqn:E; [|discriminate T]. destruct (demo_parts _ _ _ _ _ _ _ _ _ E) as (Eq & Ep).
  pose proof (demo_history 8 200 _ [] [] (net0 true) _ (hi_start 8 200 true) E) as H. cbn iota beta in H. exists qs, ps, s. split; [exact H|]. clear H E.
  destruct (direct_profiles l [DWrite 0]) as (A & B). rewrite B in Eq. rewrite A in Ep. cbn [app queued_by direct_by] in Eq, Ep. rewrite app_nil_r in Ep. subst qs ps.
  unfold rests in T. unfold at_rest. destruct (x_uout s), (concat (x_jobs s)), (queue (x_u s)), (snd_state (x_u s)), (dropped (x_u s)), (x_lost s); try discriminate T.
  split; [auto|]. split; [reflexivity|]. split; [reflexivity|]. cbn [app]. rewrite profiles_direct by exact F. reflexivity.
Qed.
Example C76_case2 : (exists qs ps s, history 8 200 qs ps s /\ at_rest s /\ dropped (x_u s) = [] /\ x_lost s = [] /\ Permutation (profiles_for 11 (qs ++ ps)) ended_profile) /\
  Z.of_nat (length ended_profile) =? 1 = true /\ well_used sconf0 (firstn 5 ex_ops).
Proof.
  split; [apply profiles_run; vm_compute; reflexivity|]. split; [vm_compute; reflexivity|]. intros p n k q E. apply (ex_used p n k (q ++ skipn 5 ex_ops)). transitivity (firstn 5 ex_ops ++ skipn 5 ex_ops); [symmetry; apply firstn_skipn|]. rewrite E, <- app_assoc. reflexivity.
Qed.

Print Assumptions C82_collector_resolves.
Print Assumptions C76_profile_arrives.
