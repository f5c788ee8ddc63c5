(** Property C72 for the services that GetActiveCount ends. *)
From Verif Require Import GoInt M_Util M_Hash M_StrMatch M_Packs M_Steps M_Cache L_Cache M_Text M_Sampler M_Profile L_Profile S_Profile M_Trace
  L_Trace L_TraceRel S_Trace L_TraceInv L_TraceStart L_TraceSafe L_TraceActive L_TraceHist S_Steps S_Sampler P_Profile P_Trace P_Trace2 P_Trace3
  S_Hash L_Hash S_Ledger L_Ledger L_Ledger2 L_Ledger3 L_Ledger4 L_Ledger5 P_Ledger L_StuckProfile.
From Coq Require Import ZifyBool Permutation.

Lemma stuck_handles c ops n : well_used c ops -> NoDup (txids (after c ops)) ->
  (forall p q, ops = p ++ q -> running_count (after c p) <= 10000) -> Permutation (n_order n) (table (a_active (after c ops))) ->
  let vs := handles (lra_values (a_active (after c ops)) (n_order n)) in
  zlen vs = running_count (after c ops) /\ NoDup vs /\
  (forall h, In h vs <-> exists x, nth_error (a_ctx (after c ops)) h = Some x /\ x_Closed x = false).
Proof.
  intros W Nd Hc Hp. cbv zeta. pose proof (tabled_run ops _ (tabled_init c) Nd Hc) as T. fold (after c ops) in T. set (a := after c ops) in *.
  pose proof (handles_perm a _ T Hp) as Pm. set (vs := handles (lra_values (a_active a) (n_order n))) in *. split; [|split].
  - unfold zlen. rewrite (Permutation_length Pm). change (zlen (open_idx 0 (flags a)) = running_count a). unfold flags. rewrite count_all. reflexivity.
  - eapply Permutation_NoDup; [symmetry; exact Pm|apply open_idx_nodup].
  - intros h. rewrite (Permutation_in' (eq_refl h) Pm), open_idx_in. unfold flags. split.
    + intros (g & t & -> & E). cbn in E |- *. rewrite nth_error_map in E. destruct (nth_error (a_ctx a) g) as [x|] eqn:Eg; [|discriminate].
      injection E as E1 E2. exists x. auto.
    + intros (x & E & Cx). exists h, (x_Txid x). split; [reflexivity|]. rewrite nth_error_map, E. unfold flag. cbn. rewrite Cx. reflexivity.
Qed.

Lemma finished_snoc_add ops st : finished_steps (ops ++ [OAdd st]) = finished_steps ops ++ [st].
Proof. unfold finished_steps. rewrite flat_map_app. reflexivity. Qed.
Definition starts (ops : list prof_op) : nat := length (filter (fun o => match o with OPop _ _ => false | _ => true end) ops).
Lemma numbers_snoc st ops : forall k, finish_numbers k (ops ++ [OAdd st]) = finish_numbers k ops ++ [(k + starts ops)%nat].
Proof.
  induction ops as [|o ops IH]; intros k; cbn [app finish_numbers]; [rewrite Nat.add_0_r; reflexivity|].
  destruct o; rewrite IH; cbn [app starts filter length]; unfold starts; cbn [filter length]; rewrite ?Nat.add_succ_r; reflexivity.
Qed.
Lemma heap_set_len l a st : length (heap_set l a st) = length l.
Proof. revert a. induction l as [|x l IH]; intros [|a]; cbn; auto. Qed.
Lemma steps_starts ops : length (steps_of ops) = starts ops.
Proof.
  induction ops as [|o ops IH] using rev_ind; [reflexivity|]. unfold steps_of, starts in *. rewrite fold_left_app, filter_app, app_length. cbn [fold_left filter].
  destruct o; cbn [length]; rewrite ?app_length, ?heap_set_len, IH; cbn [length]; lia.
Qed.
Lemma numbers_snoc_add acc st : finish_numbers 0 (did acc ++ [OAdd st]) = finish_numbers 0 (did acc) ++ [next_step acc].
Proof. rewrite numbers_snoc. unfold next_step. rewrite steps_starts. reflexivity. Qed.

(** The profile of a service that GetActiveCount ends because it runs for too long is complete, whatever the sampler thinks of it: the steps
    finished so far, and after them a message of level error that says what happened. *)
Definition stuck_message (n : env) (acc : account) : step :=
  SPMessage (mk_single 0 0 (ms n acc)) (text_id (of_string "Service currently may running, not finished!")) 0 error_level [].
Lemma stuck_told c ops rs l reps : well_used c ops -> (forall p q, ops = p ++ q -> running_count (after c p) <= 10000) ->
  ledger_run [] ops rs l reps -> books (after c ops) l ->
  (Forall typed ops -> forall n, good n -> NoDup (txids (after c ops)) -> running_count (after c ops) <= 2000 ->
     Permutation (n_order n) (table (a_active (after c ops))) ->
   forall h acc, nth_error l h = Some acc -> over acc = false -> is_stuck n acc -> ended_once 0 [] (did acc) ->
   exists y ds, nth_error (a_ctx (fst (do_call n KActiveCount (after c ops)))) h = Some y /\ x_Closed y = true /\
     map (fun pk => decode_profile (pp_Profile pk)) (p_sent (x_Profile y)) = map Some ds /\
     map strip (concat ds) = map (fun st => strip (view_step st)) (finished_steps (did acc)) ++ [stuck_message n acc] /\
     map get_index (concat ds) = map (fun a => int32 (Z.of_nat a)) (finish_numbers 0 (did acc)) ++ [int32 (Z.of_nat (next_step acc))] /\
     Forall (fun pk => pp_Txid pk = num_of acc NTxid) (p_sent (x_Profile y))).
Proof.
  intros W Hc H2 H3.
  intros T n G Nd H2000 Hp h acc E O Sc On. pose proof (tidy_run _ _ _ _ _ H2 T ltac:(constructor)) as Tb.
  destruct (sound_run c ops W) as ([R _ _] & _). destruct (stuck_handles c ops n W Nd Hc Hp) as (L & Nv & Hin).
  set (a := after c ops) in *. set (vs := handles (lra_values (a_active a) (n_order n))) in *.
  destruct (f2_nth _ _ _ H3 h acc E) as (x & Ex & Mx).
  assert (forall g, In g vs -> exists z, nth_error (a_ctx a) g = Some z /\ x_Closed z = false /\ room (x_Profile z)) as Hv.
  { intros g Hg. apply Hin in Hg as (z & Ez & Cz). exists z. split; [exact Ez|]. split; [exact Cz|exact (R g z Ez)]. }
  assert (In h vs) as Ih by (apply Hin; exists x; split; [exact Ex|rewrite (mt_over _ _ Mx); exact O]).
  assert (fst (do_call n KActiveCount a) = fst (active_loop n 0 vs 0 0 0 a)) as Ed.
  { cbn [do_call]. unfold fmap, get_active_count, bind. fold vs. destruct (active_loop n 0 vs 0 0 0 a) as [b [[[r0 r1] r2]|]]; reflexivity. }
  destruct Sc as (Hr & Sc). destruct (loop_profile n vs G Hr 0 0 0 0 a l ltac:(lia) Nv H3 Hv h acc Ih E (conj Hr Sc) O (tidy_nth _ _ _ Tb E) On) as (y & Ey & ds & D1 & D2 & D3 & D4).
  rewrite marked_did in D2, D3. exists y, ds. rewrite Ed. split; [exact Ey|]. split.
  { destruct (loop_spec n vs G 0 0 0 0 a ltac:(lia) Nv Hv) as (b & Eb & _ & K2 & _). rewrite Eb in Ey. cbn [fst] in Ey.
    destruct (K2 h x Ex Ih) as (y' & p & Ey' & Cy & _); [|exact Hr|congruence]. unfold stuck.
    rewrite <- (mt_num _ _ Mx NStart) in Sc. exact Sc. }
  split; [exact D1|]. split; [|split].
  - rewrite D2. rewrite finished_snoc_add, map_app. reflexivity.
  - rewrite D3. rewrite numbers_snoc_add, map_app. reflexivity.
  - rewrite marked_num in D4 by discriminate. exact D4.
Qed.

Theorem C72_stuck_profiles c ops : well_used c ops -> (forall p q, ops = p ++ q -> running_count (after c p) <= 10000) ->
  exists rs l reps, follows c ops rs l reps /\
  (Forall typed ops -> forall n, good n -> NoDup (txids (after c ops)) -> running_count (after c ops) <= 2000 ->
     Permutation (n_order n) (table (a_active (after c ops))) ->
   forall h acc, nth_error l h = Some acc -> over acc = false -> is_stuck n acc -> ended_once 0 [] (did acc) ->
   exists y ds, nth_error (a_ctx (fst (do_call n KActiveCount (after c ops)))) h = Some y /\ x_Closed y = true /\
     map (fun pk => decode_profile (pp_Profile pk)) (p_sent (x_Profile y)) = map Some ds /\
     map strip (concat ds) = map (fun st => strip (view_step st)) (finished_steps (did acc)) ++ [stuck_message n acc] /\
     map get_index (concat ds) = map (fun a => int32 (Z.of_nat a)) (finish_numbers 0 (did acc)) ++ [int32 (Z.of_nat (next_step acc))] /\
     Forall (fun pk => pp_Txid pk = num_of acc NTxid) (p_sent (x_Profile y))).
Proof.
  intros W Hc. destruct (history_books c ops W) as (rs & l & reps & H1 & H2 & H3 & H4). exists rs, l, reps.
  split; [split; [exact H1|split; [exact H2|split; [exact H4|symmetry; exact (f2_len _ _ _ H3)]]]|]. exact (stuck_told _ _ _ _ _ W Hc H2 H3).
Qed.

(** the services of C49_case *)
Example C72_stuck_case : well_used sconf0 stuck_ops /\ (forall p q, stuck_ops = p ++ q -> running_count (after sconf0 p) <= 10000) /\ Forall typed stuck_ops /\ exists rs l reps acc, ledger_run [] stuck_ops rs l reps /\ nth_error l 0 = Some acc /\ over acc = false /\ is_stuck stuck_env acc /\ ended_once 0 [] (did acc) /\ length (finished_steps (did acc)) = 1%nat /\ next_step acc = 1%nat /\ ms stuck_env acc = 403999.
Proof.
  destruct C49_case as (W & _ & _ & Hc & _). split; [exact W|]. split; [exact Hc|].
  split; [repeat constructor; vm_compute; discriminate|].
  eexists _, _, _, _. split.
  { eapply (hist_cons _ _ _ _ _ _ _ []); [reflexivity|]. eapply (hist_cons _ _ _ _ _ _ _ []); [reflexivity|]. constructor. }
  split; [reflexivity|]. split; [reflexivity|]. split; [split; [reflexivity|vm_compute; reflexivity]|]. split; [exact I|]. split; [reflexivity|]. split; [reflexivity|]. vm_compute. reflexivity.
Qed.

Print Assumptions C72_stuck_profiles.
