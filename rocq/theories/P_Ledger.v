(** Properties C63, C72, C73, C74: what the collector is told about a service is what was done to it. *)
From Verif Require Import GoInt M_Util M_Hash M_StrMatch M_Packs M_Steps M_Cache L_Cache M_Text M_Sampler M_Profile L_Profile S_Profile M_Trace
  L_Trace L_TraceRel S_Trace L_TraceInv L_TraceStart L_TraceSafe L_TraceActive L_TraceHist S_Steps S_Sampler P_Profile P_Trace P_Trace2 P_Trace3
  S_Hash L_Hash S_Ledger L_Ledger L_Ledger2 L_Ledger3 L_Ledger4 L_Ledger5.
From Coq Require Import ZifyBool Permutation.

(** The history [ops] of a fresh agent follows the ledger: its results are those of the ledger, the accounts are [l], and the samples and
    xlogs that were produced are those of the services that ended, in their order, with the contents of their accounts. *)
Definition follows (c : sconf) (ops : list (env * call)) (rs : list res) (l : ledger) (reps : list report) : Prop :=
  snd (run ops (a_init c)) = Some rs /\ ledger_run [] ops rs l reps /\ tells reps (a_log (after c ops)) /\ length l = length (a_ctx (after c ops)).

(** Ending service [h] of account [acc] now sends its profile: decoding the packs sent for it gives exactly the steps finished
    according to the account, in that order, with their numbers; every pack carries the transaction id of the account. *)
Definition profile_told (a : agent) (n : env) (k : call) (h : nat) (acc : account) : Prop :=
  exists y ds, nth_error (a_ctx (fst (do_call n k a))) h = Some y /\
    map (fun pk => decode_profile (pp_Profile pk)) (p_sent (x_Profile y)) = map Some ds /\
    map strip (concat ds) = map (fun st => strip (view_step st)) (finished_steps (did acc)) /\
    map get_index (concat ds) = map (fun a => int32 (Z.of_nat a)) (finish_numbers 0 (did acc)) /\
    Forall (fun pk => pp_Txid pk = num_of acc NTxid) (p_sent (x_Profile y)).
(** the sampler keeps the profile *)
Definition profile_kept (a : agent) (n : env) (acc : account) : Prop :=
  find_xlog_discard (cf_sampling (n_conf n)) (a_sampler a) (n_draw n) (num_of acc NError) (ms n acc) (txt_of acc TName) = keep_all.
Definition profiles_told (c : sconf) (ops : list (env * call)) (l : ledger) : Prop :=
  Forall typed ops -> forall n k h acc, good n -> nth_error l h = Some acc -> over acc = false -> ended_once 0 [] (did acc) ->
    is_end (CTrace h) k -> profile_kept (after c ops) n acc -> profile_told (after c ops) n k h acc.

(* ------------------------------------------------------------------ *)
(** ** C63, C72 *)
Theorem C63_ledger c ops : well_used c ops -> exists rs l reps, follows c ops rs l reps.
Proof.
  intros W. destruct (history_books c ops W) as (rs & l & reps & H1 & H2 & H3 & H4). exists rs, l, reps. split; [exact H1|]. split; [exact H2|]. split; [exact H4|].
  symmetry. exact (f2_len _ _ _ H3).
Qed.
Theorem C72_profiles c ops : well_used c ops -> exists rs l reps, follows c ops rs l reps /\ profiles_told c ops l.
Proof.
  intros W. destruct (history_books c ops W) as (rs & l & reps & H1 & H2 & H3 & H4). exists rs, l, reps.
  split; [split; [exact H1|split; [exact H2|split; [exact H4|symmetry; exact (f2_len _ _ _ H3)]]]|].
  intros T n k h acc G E O On Hk D. pose proof (tidy_run _ _ _ _ _ H2 T ltac:(constructor)) as Tb.
  destruct (end_profile n k h (after c ops) l acc G Hk H3 E O D (tidy_nth _ _ _ Tb E) On) as (y & Ey & ds & Q). exists y, ds. split; [exact Ey|exact Q].
Qed.

(** unless GetActiveCount removes services, the ledger is a function of the history *)
Definition no_removals (ops : list (env * call)) : Prop := forall n, In (n, KActiveCount) ops -> cf_stuck_remove (n_conf n) = false.
Lemma ledger_unique ops : no_removals ops -> forall l rs l1 r1, ledger_run l ops rs l1 r1 -> forall rs' l2 r2, ledger_run l ops rs' l2 r2 -> l1 = l2 /\ r1 = r2.
Proof.
  induction ops as [|[n k] ops IH]; intros N l rs l1 r1 H1 rs' l2 r2 H2.
  - inversion H1; inversion H2; subst. auto.
  - inversion H1 as [|? ? ? ? ra res la ya lb yb S1 T1]; subst. inversion H2 as [|? ? ? ? rb res' lc yc ld yd S2 T2]; subst.
    assert (la = lc /\ ya = yc) as (-> & ->).
    { destruct k; cbn [ledger_step] in S1, S2; try (rewrite S1 in S2; injection S2; auto; fail).
      assert (cf_stuck_remove (n_conf n) = false) as Z0 by (apply N; left; reflexivity).
      assert (forall x y, removals n l x y -> x = l /\ y = []) as U by (intros x y Hx; inversion Hx as [|? ? ? ? ? ? (Hs & _)]; subst; [auto|congruence]).
      destruct (U _ _ S1), (U _ _ S2). subst. auto. }
    destruct (IH (fun m Hm => N m (or_intror Hm)) _ _ _ _ T1 _ _ _ T2) as (-> & ->). auto.
Qed.
(** The number that stands for a text in the ledger is its CRC-32, as a signed number. *)
Theorem C63_text_ids s : Forall is_byte s -> text_id s = (match s with [] => 0 | _ => S_Hash.as_int32 (S_Hash.crc32 s) end).
Proof. intros H. unfold text_id. destruct s as [|b s]; [reflexivity|]. rewrite (L_Hash.hash_is_crc32 _ H). reflexivity. Qed.

Theorem C63_every_ledger c ops rs l reps : well_used c ops -> no_removals ops -> ledger_run [] ops rs l reps ->
  tells reps (a_log (after c ops)) /\ length l = length (a_ctx (after c ops)).
Proof.
  intros W N H. destruct (C63_ledger c ops W) as (rs' & l' & reps' & _ & H2 & H3 & H4). destruct (ledger_unique ops N _ _ _ _ H _ _ _ H2) as (-> & ->). auto.
Qed.

(* ------------------------------------------------------------------ *)
(** ** C73: the headers that propagate a transaction to another service *)
Lemma run_at c ops n k ops2 rs l reps : follows c (ops ++ (n, k) :: ops2) rs l reps -> exists rs1 r rs2 l0 l1 r0 r1 r2,
  rs = rs1 ++ r :: rs2 /\ nth_error rs (length ops) = Some r /\ ledger_run [] ops rs1 l0 r0 /\ ledger_step n k l0 r l1 r1 /\ ledger_run l1 ops2 rs2 l r2 /\ sane_books l.
Proof.
  intros (_ & H & _). pose proof (sane_run _ _ _ _ _ H ltac:(constructor)) as S. apply ledger_at in H. destruct H as (rs1 & r & rs2 & l0 & l1 & r0 & r1 & r2 & -> & -> & L & H1 & H2 & H3).
  exists rs1, r, rs2, l0, l1, r0, r1, r2. split; [reflexivity|]. split; [rewrite <- L; apply nth_mid|]. auto.
Qed.
Lemma ledger_keys l ops rs l' reps : ledger_run l ops rs l' reps -> Forall (fun nk => n_key (fst nk) <> 0) ops ->
  Forall (fun c => num_of c NGxid <> 0 /\ num_of c NTxid <> 0) l -> Forall (fun c => num_of c NGxid <> 0 /\ num_of c NTxid <> 0) l'.
Proof.
  induction 1 as [|l n k ops r rs l1 r1 l2 r2 S H IH]; [auto|]. intros F G. inversion_clear F as [|? ? K F']. cbn [fst] in K. apply IH; [exact F'|]. clear IH H.
  pose proof (all_step _ _ _ _ _ _ S) as A. apply Forall_forall. intros c Hc. apply In_nth_error in Hc. destruct Hc as (h & E).
  destruct (nth_error l h) as [c0|] eqn:E0.
  - destruct (A h c0 E0) as (c' & E' & Gr & _). rewrite E in E'. injection E' as <-. rewrite Forall_forall in G. destruct (G c0 (nth_error_In _ _ E0)) as (G1 & G2).
    rewrite (gr_txid _ _ Gr), (gr_gxid _ _ Gr G1). auto.
  - assert (forall x, nth_error (l ++ [x]) h = Some c -> num_of x NGxid <> 0 /\ num_of x NTxid <> 0 -> num_of c NGxid <> 0 /\ num_of c NTxid <> 0) as Hx.
    { intros x Ex Hx. apply nth_error_None in E0. rewrite nth_error_app2 in Ex by exact E0. destruct (h - length l)%nat as [|d]; [|destruct d; discriminate]. injection Ex as <-. exact Hx. }
    assert (plain_call k -> ledger_call n k l = (l1, r, r1) -> num_of c NGxid <> 0 /\ num_of c NTxid <> 0) as P.
    { intros Hp Hj. exfalso. rewrite (plain_ledger n k l Hp) in Hj. apply nth_error_None in E0. destruct (account_of l (ctx_arg k)) as [[g x]|]; injection Hj as <- <- <-;
        assert (nth_error l h <> None \/ nth_error l h = None) as [Hn|Hn] by (destruct (nth_error l h); [left; discriminate|right; reflexivity]).
      - apply Hn. apply nth_error_None. exact E0.
      - rewrite list_set_nth in E. destruct (Nat.eqb_spec g h); [|cbn [andb] in E; congruence]. subst. destruct (Nat.ltb_spec h (length l)); [lia|cbn [andb] in E; congruence].
      - apply Hn. apply nth_error_None. exact E0.
      - congruence. }
    destruct k; try exact (P I S); cbn [ledger_step ledger_call] in S.
    + destruct (account_of l c0) as [[g x]|]; injection S as <- <- <-; [congruence|]. eapply Hx; [exact E|]. cbn. auto.
    + assert (forall q, num_of (opened_http n q) NGxid <> 0 /\ num_of (opened_http n q) NTxid <> 0) as Hq.
      { intros q. unfold opened_http. set (d := put_num NUserAgent _ _).
        assert (num_of d NGxid <> 0 /\ num_of d NTxid <> 0) as Hd by (unfold d; cbn; auto). revert Hd. generalize d. generalize (http_texts n q). clear.
        intros ts. induction ts as [|t ts IH]; intros d Hd; [exact Hd|]. cbn [fold_left]. apply IH. exact Hd. }
      destruct c0; cbn [account_of] in S; [| |destruct (nth_error l h0) as [x|]; cbn [option_map] in S]; try destruct req; injection S as <- <- <-; try congruence;
        (eapply Hx; [exact E|apply Hq]).
    + destruct (nth_error l parent) as [x|] eqn:Ep; injection S as <- <- <-; [|congruence]. eapply Hx; [exact E|]. cbn. rewrite Forall_forall in G.
      destruct (G x (nth_error_In _ _ Ep)). auto.
    + destruct (account_of l c0) as [[g x]|] eqn:Ea; injection S as <- <- <-; [|congruence]. destruct (account_nth _ _ _ _ Ea) as (_ & En).
      assert (h = length l) as ->.
      { apply nth_error_None in E0. assert (h < length (list_set l g (spawned_from n name x) ++ [opened_child n name x]))%nat by (apply nth_error_Some; congruence).
        rewrite app_length, list_set_length in H. cbn in H. lia. }
      rewrite nth_error_app2, list_set_length, Nat.sub_diag in E by (rewrite list_set_length; lia). injection E as <-. cbn. rewrite Forall_forall in G. destruct (G x (nth_error_In _ _ En)) as (G1 & G2).
      unfold with_gxid. destruct (Z.eqb_spec (num_of x NGxid) 0); [contradiction|]. auto.
    + exfalso. apply nth_error_None in E0. pose proof (removals_len _ _ _ _ S) as L. assert (h < length l1)%nat by (apply nth_error_Some; congruence). lia.
    + cbn in S. injection S as <- <- <-. congruence.
    + cbn in S. injection S as <- <- <-. congruence.
Qed.

(** reports are about services of the ledger, and their ids stay *)
Lemma reports_exist n k l r l' rs q : ledger_step n k l r l' rs -> In q rs -> exists c, nth_error l (r_service q) = Some c.
Proof.
  intros S Hq.
  assert (plain_call k -> ledger_call n k l = (l', r, rs) -> exists c, nth_error l (r_service q) = Some c) as P.
  { intros Hp Hj. rewrite (plain_ledger n k l Hp) in Hj. destruct (account_of l (ctx_arg k)) as [[h c]|] eqn:E; injection Hj as <- <- <-; [|destruct Hq].
    destruct (account_nth _ _ _ _ E) as (_ & En). destruct (reported (on_account n k c)); [|destruct Hq]. destruct Hq as [<- |[]]. exists c. exact En. }
  destruct k; try exact (P I S); cbn [ledger_step ledger_call] in S.
  - destruct (account_of l c) as [[g x]|]; injection S as <- <- <-; destruct Hq.
  - destruct c; cbn [account_of] in S; [| |destruct (nth_error l h) as [x|]; cbn [option_map] in S]; try destruct req; injection S as <- <- <-; destruct Hq.
  - destruct (nth_error l parent); injection S as <- <- <-; destruct Hq.
  - destruct (account_of l c) as [[g x]|]; injection S as <- <- <-; destruct Hq.
  - clear P. induction S as [|l h c l' rs E S H IH]; [destruct Hq|]. apply in_app_or in Hq. destruct Hq as [Hq|Hq].
    + destruct (reported _); [|destruct Hq]. destruct Hq as [<- |[]]. exists c. exact E.
    + destruct (IH Hq) as (d & Ed). rewrite list_set_nth in Ed. destruct (Nat.eqb_spec h (r_service q)) as [He|He]; [exists c; congruence|].
      cbn [andb] in Ed. exists d. exact Ed.
  - cbn in S. injection S as <- <- <-. destruct Hq.
  - cbn in S. injection S as <- <- <-. destruct Hq.
Qed.
Lemma report_ids l ops rs l' reps : ledger_run l ops rs l' reps -> Forall (fun nk => n_key (fst nk) <> 0) ops ->
  Forall (fun c => num_of c NGxid <> 0 /\ num_of c NTxid <> 0) l -> forall q, In q reps -> exists acc, nth_error l' (r_service q) = Some acc /\
    num_of (r_acc q) NTxid = num_of acc NTxid /\ num_of (r_acc q) NGxid = num_of acc NGxid /\ num_of (r_acc q) NCaller = num_of acc NCaller.
Proof.
  induction 1 as [|l n k ops r rs l1 r1 l2 r2 S H IH]; intros F G q Hq; [destruct Hq|]. inversion_clear F as [|? ? K F'].
  assert (Forall (fun c => num_of c NGxid <> 0 /\ num_of c NTxid <> 0) l1) as G1.
  { apply (ledger_keys l [(n, k)] [r] l1 (r1 ++ [])); [|constructor; [exact K|constructor]|exact G]. econstructor; [exact S|constructor]. }
  apply in_app_or in Hq. destruct Hq as [Hq|Hq]; [|apply IH; assumption].
  destruct (reports_exist _ _ _ _ _ _ _ S Hq) as (c & Ec). destruct (all_step _ _ _ _ _ _ S _ _ Ec) as (c1 & E1 & _ & R1).
  destruct (R1 q Hq eq_refl) as (Ga & Gb & _). destruct (all_run _ _ _ _ _ H _ _ E1) as (c2 & E2 & Gc & _). exists c2. split; [exact E2|].
  pose proof (grows_trans _ _ _ Gb Gc) as Gd. rewrite Forall_forall in G. destruct (G c (nth_error_In _ _ Ec)) as (N1 & N2).
  split; [symmetry; apply (gr_txid _ _ Gd)|]. split; [|symmetry; apply (gr_caller _ _ Gd)]. symmetry. apply (gr_gxid _ _ Gd).
  rewrite (gr_gxid _ _ Ga N1). exact N1.
Qed.
Lemma xlog_report reps log h p : tells reps log -> In (EvXlog h p) log -> exists acc n, In (mkRep h acc n) reps /\ describes n acc p.
Proof.
  intros T. induction T as [|rs lv t log T IH|g acc n rs log T IH|g acc n rs q log D T IH]; intros Hin.
  - destruct Hin.
  - destruct Hin as [H|H]; [discriminate|auto].
  - destruct Hin as [H|H]; [discriminate|]. destruct (IH H) as (acc' & n' & H1 & H2). exists acc', n'. split; [right; exact H1|exact H2].
  - destruct Hin as [H|[H|H]]; [discriminate| |].
    + injection H as <- <-. exists acc, n. split; [left; reflexivity|exact D].
    + destruct (IH H) as (acc' & n' & H1 & H2). exists acc', n'. split; [right; exact H1|exact H2].
Qed.
Theorem C63_xlog_describes_account c ops : well_used c ops -> exists rs l reps, follows c ops rs l reps /\
  forall h p, In (EvXlog h p) (a_log (after c ops)) -> exists acc n, In (mkRep h acc n) reps /\ describes n acc p.
Proof. intros W. destruct (C63_ledger c ops W) as (rs & l & reps & F). exists rs, l, reps. split; [exact F|]. destruct F as (_ & _ & T & _). intros h p. apply xlog_report. exact T. Qed.

Lemma propagation_headers c ops n h m ad ops2 rs l reps ptr hs : let all := ops ++ (n, KStartApiProp (CTrace h) true m ad) :: ops2 in
  follows c all rs l reps -> Forall (fun nk => n_key (fst nk) <> 0) all -> nth_error rs (length ops) = Some (RApi (Some ptr) hs) ->
  exists acc, nth_error l h = Some acc /\
    hs = [int_to_xlog_string32 (num_of acc NGxid); int_to_xlog_string32 (num_of acc NTxid); int_to_xlog_string32 (n_key n); format_int 10 (cf_obj (n_conf n))] /\
    (forall p, In (EvXlog h p) (a_log (after c all)) -> xl_Gxid p = num_of acc NGxid /\ xl_Txid p = num_of acc NTxid) /\
    (exists s e cp er o, step_of acc ptr = Some (SApiCall s (n_key n) (text_id m) e cp er o ad)) /\
    (forall st, In (OPop ptr st) (did acc) -> exists s e cp er o, st = SApiCall s (n_key n) (text_id m) e cp er o ad).
Proof.
  cbv zeta. intros Fo K Er. pose proof Fo as (_ & Hl & T & _). destruct (run_at _ _ _ _ _ _ _ _ Fo) as (rs1 & r & rs2 & l0 & l1 & r0 & r1 & r2 & -> & Er' & H0 & S & H2 & Sb).
  rewrite Er' in Er. injection Er as ->. cbn [ledger_step ledger_call ctx_arg account_of] in S. destruct (nth_error l0 h) as [c0|] eqn:E0; [|discriminate S]. cbn [option_map] in S.
  injection S as S1 S2 S3 S4.
  pose proof K as K'. apply Forall_app in K'. destruct K' as (K1 & K2). inversion_clear K2 as [|? ? Kn K3].
  pose proof (ledger_keys _ _ _ _ _ H0 K1 ltac:(constructor)) as N0. rewrite Forall_forall in N0. destruct (N0 c0 (nth_error_In _ _ E0)) as (Ng & Nt).
  assert (nth_error l1 h = Some (becomes (on_account n (KStartApiProp (CTrace h) true m ad) c0))) as E1 by (rewrite <- S1; eapply nth_set_lt; exact E0).
  destruct (all_run _ _ _ _ _ H2 _ _ E1) as (acc & Ea & Ga & _). cbn [on_account becomes] in Ga.
  set (c1 := with_gxid _) in Ga.
  assert (num_of c1 NGxid = num_of c0 NGxid /\ num_of c1 NTxid = num_of c0 NTxid) as (Q1 & Q2).
  { unfold c1, with_gxid. cbn [put_did num_of]. destruct (Z.eqb_spec (num_of c0 NGxid) 0); [contradiction|]. auto. }
  assert (num_of acc NGxid = num_of c0 NGxid) as A1 by (rewrite (gr_gxid _ _ Ga) by congruence; exact Q1).
  assert (num_of acc NTxid = num_of c0 NTxid) as A2 by (rewrite (gr_txid _ _ Ga); exact Q2).
  exists acc. split; [exact Ea|]. split; [rewrite <- S3, A1, A2; fold c1; rewrite Q1; reflexivity|]. split.
  { intros p Hp. destruct (xlog_report _ _ _ _ T Hp) as (ra & rn & Hr & D). destruct (report_ids _ _ _ _ _ Hl K ltac:(constructor) _ Hr) as (acc' & Ea' & B1 & B2 & _).
    cbn [r_service r_acc] in *. assert (acc' = acc) as -> by congruence. unfold describes in D. destruct D as (_ & D1 & _ & D2 & _). split; congruence. }
  pose proof (sane_nth _ _ _ Sb Ea) as Own. destruct (gr_did _ _ Ga) as (more & Hm).
  assert (step_of c1 ptr = Some (strip (api_step n m ad c0))) as Es.
  { unfold step_of, c1. rewrite did_gxid. cbn [put_did did]. rewrite steps_of_snoc. rewrite <- S2. unfold next_step. apply nth_end. }
  unfold step_of in Es. rewrite Hm in Own. destruct (steps_grow (did c1) more Own ptr _ Es) as (st & E2 & Sm). rewrite <- Hm in E2, Own.
  assert (forall x, same_call (strip (api_step n m ad c0)) x -> exists s e cp er o, x = SApiCall s (n_key n) (text_id m) e cp er o ad) as Inv.
  { intros x Hx. unfold api_step in Hx. cbn [strip set_links] in Hx. destruct x; cbn in Hx; try discriminate Hx. destruct Hx as (_ & -> & -> & _ & ->). eauto 6. }
  split.
  - destruct (Inv st Sm) as (s & e & cp & er & o & Hst). exists s, e, cp, er, o. unfold step_of. rewrite E2, Hst. reflexivity.
  - intros x Hx. apply In_nth_error in Hx. destruct Hx as (i & Hi). destruct (Own i ptr x Hi) as (x0 & E3 & Sx). rewrite <- (firstn_skipn i (did acc)) in Own, E2.
    destruct (steps_grow _ _ Own ptr _ E3) as (x1 & E4 & Sx1). rewrite E2 in E4. injection E4 as <-.
    destruct (Inv st Sm) as (s & e & cp & er & o & ->). destruct x0; cbn in Sx1; try discriminate Sx1; destruct Sx1 as (_ & <- & <- & _ & <-).
    destruct x; cbn in Sx; try discriminate Sx; destruct Sx as (_ & -> & -> & _ & ->). eauto 6.
Qed.

(** [ptr]: the API call step that was started. The headers carry the global id and the transaction id which the xlog of the service
    has when it ends, the id of the call and the object hash; the step has this id and keeps it when it is ended. *)
Theorem C73_propagation_headers c ops n h m ad ops2 rs ptr hs : let all := ops ++ (n, KStartApiProp (CTrace h) true m ad) :: ops2 in
  well_used c all -> Forall (fun nk => n_key (fst nk) <> 0) all -> snd (run all (a_init c)) = Some rs -> nth_error rs (length ops) = Some (RApi (Some ptr) hs) ->
  exists l reps acc, follows c all rs l reps /\ nth_error l h = Some acc /\
    hs = [int_to_xlog_string32 (num_of acc NGxid); int_to_xlog_string32 (num_of acc NTxid); int_to_xlog_string32 (n_key n); format_int 10 (cf_obj (n_conf n))] /\
    (forall p, In (EvXlog h p) (a_log (after c all)) -> xl_Gxid p = num_of acc NGxid /\ xl_Txid p = num_of acc NTxid) /\
    (exists s e cp er o, step_of acc ptr = Some (SApiCall s (n_key n) (text_id m) e cp er o ad)) /\
    (forall st, In (OPop ptr st) (did acc) -> exists s e cp er o, st = SApiCall s (n_key n) (text_id m) e cp er o ad).
Proof.
  cbv zeta. intros W K R Er. destruct (C63_ledger _ _ W) as (rs' & l & reps & F). pose proof F as (R' & _). rewrite R in R'. injection R' as <-.
  destruct (propagation_headers _ _ _ _ _ _ _ _ _ _ _ _ F K Er) as (acc & H). exists l, reps, acc. split; [exact F|exact H].
Qed.

Lemma incoming_headers_ignored c ops n cx r ops2 rs l reps h : let all := ops ++ (n, KStartHttp cx (Some r)) :: ops2 in
  follows c all rs l reps -> Forall (fun nk => n_key (fst nk) <> 0) all -> nth_error rs (length ops) = Some (RCtx (CTrace h)) -> cx <> CTrace h ->
  forall p, In (EvXlog h p) (a_log (after c all)) -> xl_Gxid p = n_key n /\ xl_Txid p = n_key n /\ xl_Caller p = 0.
Proof.
  cbv zeta. intros Fo K Er Hne p Hp. pose proof Fo as (_ & Hl & T & _). destruct (run_at _ _ _ _ _ _ _ _ Fo) as (rs1 & q & rs2 & l0 & l1 & r0 & r1 & r2 & -> & Er' & H0 & S & H2 & _).
  rewrite Er' in Er. injection Er as ->.
  assert (l1 = l0 ++ [opened_http n r] /\ h = length l0) as (-> & ->).
  { cbn [ledger_step ledger_call] in S. destruct cx; cbn [account_of] in S; [| |destruct (nth_error l0 h0) as [x|]; cbn [option_map] in S]; injection S as S1 S2 S3; subst; auto; congruence. }
  pose proof K as K'. apply Forall_app in K'. destruct K' as (K1 & K2). inversion_clear K2 as [|? ? Kn K3]. cbn [fst] in Kn.
  destruct (all_run _ _ _ _ _ H2 _ _ (nth_end l0 (opened_http n r))) as (acc & Ea & Ga & _).
  assert (num_of (opened_http n r) NGxid = n_key n /\ num_of (opened_http n r) NTxid = n_key n /\ num_of (opened_http n r) NCaller = 0) as (Q1 & Q2 & Q3).
  { unfold opened_http. set (d := put_num NUserAgent _ _).
    assert (num_of d NGxid = n_key n /\ num_of d NTxid = n_key n /\ num_of d NCaller = 0) as Hd by (unfold d; cbn; auto). revert Hd. generalize d. generalize (http_texts n r). clear.
    intros ts. induction ts as [|t ts IH]; intros d Hd; [exact Hd|]. cbn [fold_left]. apply IH. exact Hd. }
  destruct (xlog_report _ _ _ _ T Hp) as (ra & rn & Hr & D). destruct (report_ids _ _ _ _ _ Hl K ltac:(constructor) _ Hr) as (acc' & Ea' & B1 & B2 & B3).
  cbn [r_service r_acc] in *. assert (acc' = acc) as -> by congruence. unfold describes in D. destruct D as (_ & D1 & D2 & D3 & _).
  rewrite D1, D2, D3, B1, B2, B3, (gr_txid _ _ Ga), (gr_caller _ _ Ga), (gr_gxid _ _ Ga) by congruence. auto.
Qed.

(** The agent does not take up such headers: a service started for a request has its own transaction id as global id and no caller, whatever headers the request has. *)
Theorem C73_incoming_headers_ignored c ops n cx r ops2 rs h : let all := ops ++ (n, KStartHttp cx (Some r)) :: ops2 in
  well_used c all -> Forall (fun nk => n_key (fst nk) <> 0) all -> snd (run all (a_init c)) = Some rs -> nth_error rs (length ops) = Some (RCtx (CTrace h)) -> cx <> CTrace h ->
  forall p, In (EvXlog h p) (a_log (after c all)) -> xl_Gxid p = n_key n /\ xl_Txid p = n_key n /\ xl_Caller p = 0.
Proof.
  cbv zeta. intros W K R Er. destruct (C63_ledger _ _ W) as (rs' & l & reps & F). pose proof F as (R' & _). rewrite R in R'. injection R' as <-.
  exact (incoming_headers_ignored _ _ _ _ _ _ _ _ _ _ F K Er).
Qed.

(* ------------------------------------------------------------------ *)
(** ** C74: a traced goroutine is visible in the profile of its parent *)
Lemma async_step c ops n p name ops2 rs l reps h : let all := ops ++ (n, KGo (CTrace p) name) :: ops2 in
  follows c all rs l reps -> Forall (fun nk => n_key (fst nk) <> 0) all -> nth_error rs (length ops) = Some (RRun (Some (CTrace h))) -> h <> p ->
  exists t acc child, nth_error l p = Some acc /\ In (OAdd (SAsync (at_ms t) (n_key n) (text_id name) 0)) (did acc) /\
    nth_error l h = Some child /\ num_of child NTxid = n_key n /\ num_of child NCaller = num_of acc NTxid /\ num_of child NGxid = num_of acc NGxid /\
    (forall q, In (EvXlog h q) (a_log (after c all)) -> xl_Txid q = n_key n /\ xl_Caller q = num_of acc NTxid /\ xl_Gxid q = num_of acc NGxid).
Proof.
  cbv zeta. intros Fo K Er Hne. pose proof Fo as (_ & Hl & T & _). destruct (run_at _ _ _ _ _ _ _ _ Fo) as (rs1 & r & rs2 & l0 & l1 & r0 & r1 & r2 & -> & Er' & H0 & S & H2 & Sb).
  rewrite Er' in Er. injection Er as ->. cbn [ledger_step ledger_call ctx_arg account_of] in S. destruct (nth_error l0 p) as [c0|] eqn:E0; cbn [option_map] in S.
  2: { injection S as S1 S2 S3. congruence. }
  injection S as S1 S2 S3. pose proof K as K'. apply Forall_app in K'. destruct K' as (K1 & K2). inversion_clear K2 as [|? ? Kn K3]. cbn [fst] in Kn.
  pose proof (ledger_keys _ _ _ _ _ H0 K1 ltac:(constructor)) as N0. rewrite Forall_forall in N0. destruct (N0 c0 (nth_error_In _ _ E0)) as (Ng & Nt).
  assert (nth_error l1 p = Some (spawned_from n name c0)) as E1 by (rewrite <- S1; apply nth_app_l; eapply nth_set_lt; exact E0).
  assert (nth_error l1 h = Some (opened_child n name c0)) as E2.
  { rewrite <- S1, <- S2. rewrite nth_error_app2, list_set_length, Nat.sub_diag by (rewrite list_set_length; lia). reflexivity. }
  assert (with_gxid c0 = c0) as W by (unfold with_gxid; destruct (Z.eqb_spec (num_of c0 NGxid) 0); [contradiction|reflexivity]).
  destruct (all_run _ _ _ _ _ H2 _ _ E1) as (acc & Ea & Ga & _). destruct (all_run _ _ _ _ _ H2 _ _ E2) as (child & Ec & Gc & _).
  assert (num_of child NTxid = n_key n /\ num_of child NCaller = num_of acc NTxid /\ num_of child NGxid = num_of acc NGxid) as (Q1 & Q2 & Q3).
  { rewrite (gr_txid _ _ Gc), (gr_caller _ _ Gc), (gr_gxid _ _ Gc), (gr_txid _ _ Ga), (gr_gxid _ _ Ga); unfold spawned_from, opened_child; rewrite W; cbn; auto. }
  exists (ms n c0), acc, child. split; [exact Ea|]. split.
  { destruct (gr_did _ _ Ga) as (more & ->). apply in_or_app. left. unfold spawned_from, add_step_to, put_did. cbn [did]. apply in_or_app. right. left. reflexivity. }
  split; [exact Ec|]. split; [exact Q1|]. split; [exact Q2|]. split; [exact Q3|]. intros q Hq.
  destruct (xlog_report _ _ _ _ T Hq) as (ra & rn & Hr & D). destruct (report_ids _ _ _ _ _ Hl K ltac:(constructor) _ Hr) as (acc' & Ea' & B1 & B2 & B3).
  cbn [r_service r_acc] in *. assert (acc' = child) as -> by congruence. unfold describes in D. destruct D as (_ & D1 & D2 & D3 & _).
  split; [congruence|split; congruence].
Qed.

(** [h]: the service of the goroutine. The parent has an asynchronous step with the transaction id that the xlog of the goroutine's service carries. *)
Theorem C74_async_step c ops n p name ops2 rs h : let all := ops ++ (n, KGo (CTrace p) name) :: ops2 in
  well_used c all -> Forall (fun nk => n_key (fst nk) <> 0) all -> snd (run all (a_init c)) = Some rs -> nth_error rs (length ops) = Some (RRun (Some (CTrace h))) -> h <> p ->
  exists l reps t acc child, follows c all rs l reps /\ nth_error l p = Some acc /\ In (OAdd (SAsync (at_ms t) (n_key n) (text_id name) 0)) (did acc) /\
    nth_error l h = Some child /\ num_of child NTxid = n_key n /\ num_of child NCaller = num_of acc NTxid /\ num_of child NGxid = num_of acc NGxid /\
    (forall q, In (EvXlog h q) (a_log (after c all)) -> xl_Txid q = n_key n /\ xl_Caller q = num_of acc NTxid /\ xl_Gxid q = num_of acc NGxid).
Proof.
  cbv zeta. intros W K R Er Hne. destruct (C63_ledger _ _ W) as (rs' & l & reps & F). pose proof F as (R' & _). rewrite R in R'. injection R' as <-.
  destruct (async_step _ _ _ _ _ _ _ _ _ _ F K Er Hne) as (t & acc & child & H). exists l, reps, t, acc, child. split; [exact F|exact H].
Qed.

(* ------------------------------------------------------------------ *)
(** ** A history *)
Definition ex_ops : list (env * call) :=
  [(env0 11 1000000, KStartService CNil (of_string "/a") (of_string "10.0.0.1:80"));
   (env0 12 2000000, KStartApiProp (CTrace 0) true (of_string "api") (of_string "h"));
   (env0 13 5000000, KGo (CTrace 0) (of_string "w"));
   (env0 14 6000000, KEndApi (CTrace 0) (Some 1%nat) (Some (of_string "no")));
   (env0 15 7000000, KSetServiceName (CTrace 0) (of_string "/b"));
   (env0 16 9000000, KEndService (CTrace 0));
   (env0 17 9000000, KGoEnd (CTrace 1))].
Definition easy (k : call) : Prop :=
  match k with KStartHttp _ _ | KAddStep _ _ | KInherit _ _ | KGoBegin _ | KActiveCount => False | _ => True end.
Lemma easy_used c ops : Forall (fun nk => good (fst nk) /\ easy (snd nk)) ops -> well_used c ops.
Proof.
  intros F p n k q ->. apply Forall_app in F. destruct F as (_ & F). inversion_clear F as [|? ? (G & E) _]. split; [exact G|].
  unfold sensible. cbn [snd fst] in *. destruct k; try exact I; destruct E.
Qed.
Lemma ex_used : well_used sconf0 ex_ops.
Proof. apply easy_used. unfold ex_ops. repeat (constructor; [split; [apply env0_good|exact I]|]). constructor. Qed.

Example C63_case : well_used sconf0 ex_ops /\ no_removals ex_ops /\
  match a_log (after sconf0 ex_ops) with
  | [EvMeter 0%nat 8 true; EvXlog 0%nat p; EvMeter 1%nat 4 false; EvXlog 1%nat q] =>
      (xl_Service p =? text_id (of_string "/b")) && (xl_Error p =? text_id (of_string "no")) && (xl_ApicallCount p =? 1) && (xl_ApicallTime p =? 4) &&
      (xl_Txid p =? 11) && (xl_Elapsed p =? 8) && (xl_Txid q =? 13) && (xl_Caller q =? 11)
  | _ => false
  end = true.
Proof.
  split; [exact ex_used|]. split; [|vm_compute; reflexivity]. intros n H. unfold ex_ops in H. repeat (destruct H as [H|H]; [discriminate|]). destruct H.
Qed.
Example C72_case : exists rs l reps acc, ledger_run [] (firstn 5 ex_ops) rs l reps /\ nth_error l 0 = Some acc /\ over acc = false /\
  ended_once 0 [] (did acc) /\ Forall typed (firstn 5 ex_ops) /\ profile_kept (after sconf0 (firstn 5 ex_ops)) (env0 16 9000000) acc /\
  finish_numbers 0 (did acc) = [0; 2; 1]%nat.
Proof.
  eexists _, _, _, _. split; [cbn [firstn ex_ops]; repeat (eapply hist_cons; [reflexivity|]); apply hist_nil|].
  split; [reflexivity|]. split; [reflexivity|]. split; [|split; [|split]].
  - vm_compute. auto.
  - cbn [firstn ex_ops]. repeat (constructor; [split; [split; vm_compute; discriminate|exact I]|]). constructor.
  - vm_compute. reflexivity.
  - vm_compute. reflexivity.
Qed.
Example C73_case : match snd (run ex_ops (a_init sconf0)) with Some rs => nth_error rs 1 | None => None end =
  Some (RApi (Some 1%nat) [int_to_xlog_string32 11; int_to_xlog_string32 11; int_to_xlog_string32 12; format_int 10 77]) /\
  Forall (fun nk => n_key (fst nk) <> 0) ex_ops.
Proof. split; [vm_compute; reflexivity|]. repeat (constructor; [discriminate|]). constructor. Qed.
Example C74_case : match snd (run ex_ops (a_init sconf0)) with Some rs => nth_error rs 2 | None => None end = Some (RRun (Some (CTrace 1))).
Proof. vm_compute. reflexivity. Qed.

Print Assumptions C63_ledger.
Print Assumptions C63_every_ledger.
Print Assumptions C63_xlog_describes_account.
Print Assumptions C72_profiles.
Print Assumptions C73_propagation_headers.
Print Assumptions C73_incoming_headers_ignored.
Print Assumptions C74_async_step.
Print Assumptions C63_text_ids.
