(** Properties C37-C39 and the counting part of C40. S_Profile.v defines [finished] (the finished steps in
    finishing order), [each_ended_once], [well_nested] and [enclosing]. *)
From Verif Require Import GoInt L_Codec S_Wire S_Value S_Packs M_Steps S_Steps M_Packs M_Profile S_Profile L_Profile.
From Coq Require Import ZifyBool.

(** steps a Go program can hold, other than dump steps (C13) *)
Definition plain (st : step) : Prop := go_step st = true /\ is_dump st = false.
Definition payload (o : prof_op) : step := match o with OPush st | OPop _ st | OAdd st => st end.

(** ** C37: nothing panics; decoding the packs sent up to and including the final flush gives exactly the
    finished steps, in finishing order, with the contents they had when they finished; the k-th decoded step is the one with
    start number [finish_order]; every pack carries the transaction id. *)
Theorem C37_no_step_lost keep p0 ops e tx :
  1 <= keep -> new_prof keep = Some p0 ->
  Forall (fun eo => good_env (fst eo) /\ e_txid (fst eo) = tx /\ plain (payload (snd eo))) ops ->
  good_env e -> e_txid e = tx -> each_ended_once 0 [] ops ->
  exists p p' ds,
    pr_run ops p0 = Some p /\ close e true p = Some p' /\
    map (fun pk => decode_profile (pp_Profile pk)) (p_sent p') = map Some ds /\
    map strip (concat ds) = map (fun st => strip (view_step st)) (finished ops) /\
    map get_index (concat ds) = map (fun a => int32 (Z.of_nat a)) (finish_order 0 ops) /\
    Forall (fun pk => pp_Txid pk = tx) (p_sent p').
Proof.
  intros Hk Hn F He Ht W. destruct (bulk_bound ops (e_bulk e)) as (B & HB & FB).
  destruct (new_prof_inv B tx keep p0 Hk Hn) as (I0 & H0).
  assert (Forall (op_ok B tx) ops) as Fo.
  { rewrite Forall_forall in *. intros eo Hin. destruct (F eo Hin) as (G1 & G2 & G3). specialize (FB eo Hin). cbn beta in FB.
    split; [exact G1|]. split; [exact FB|]. split; [exact G2|]. destruct eo as [e' [st|a st|st]]; exact G3. }
  destruct (pr_run_inv B tx ops [] [] [] p0 Fo I0) as (p & op' & R & I); [rewrite H0; exact W|]. cbn [app] in I. rewrite H0 in I. cbn [length] in I.
  destruct (close_inv B tx op' _ _ e p He HB Ht I) as (p' & gs & C & S & Fg & Hh & Cc & Tg).
  assert (Forall ok_step (concat gs)) as Ok by (rewrite Cc; apply contents_ok, (bi_ok _ _ (iv_buf _ _ _ _ _ _ I))).
  exists p, p', (map (map view_step) gs). split; [exact R|]. split; [exact C|]. split; [apply sent_decodes; assumption|].
  rewrite <- concat_map, Cc. split; [|split; [|exact Tg]].
  - transitivity (map view_step (map strip (finished ops))); [|rewrite map_map; apply map_ext; intros st; symmetry; apply strip_view].
    rewrite <- (iv_fin _ _ _ _ _ _ I), !map_map. apply map_ext. intros st. apply strip_view.
  - rewrite map_map. pose proof (iv_dn _ _ _ _ _ _ I) as Dn.
    assert (forall i st, nth_error (p_heap p) i = Some st -> get_index st = int32 (Z.of_nat i)) as Ix.
    { apply (run_indices ops p0 p R).
      - rewrite H0. intros i st. destruct i; discriminate.
      - rewrite H0. unfold new_prof in Hn. destruct (keep <? 0); [discriminate|]. injection Hn as <-. symmetry. apply int32_id. unfold in_int32. cbn [length Z.of_nat p_cur p_heap]. lia. }
    clear -Dn Ix. revert Dn. generalize (finish_order 0 ops). intros l Hl. induction l as [|a l IH]; [reflexivity|].
    unfold contents. cbn [flat_map]. fold (contents (p_heap p) l). rewrite map_app, IH by (intros b Hb; apply Hl; right; exact Hb).
    destruct (nth_error (p_heap p) a) as [st|] eqn:Ea; [|apply nth_error_None in Ea; destruct (Hl a (or_introl eq_refl)); lia].
    cbn [map app]. rewrite <- (Ix a st Ea). f_equal. destruct st; reflexivity.
Qed.

(** ending the same method step twice sends it twice *)
Theorem C37_double_end_refuted :
  ~ (forall keep p0 ops e p p' ds, 1 <= keep -> new_prof keep = Some p0 ->
     Forall (fun eo => good_env (fst eo) /\ plain (payload (snd eo))) ops -> good_env e ->
     pr_run ops p0 = Some p -> close e true p = Some p' ->
     map (fun pk => decode_profile (pp_Profile pk)) (p_sent p') = map Some ds ->
     NoDup (map get_index (concat ds))).
Proof.
  intros H. set (e := mkEnv 10 10 1 2 3 4). set (m := SMethod (mk_single 0 0 5) 77 9 0).
  set (ops := [(e, OPush m); (e, OPop 0%nat m); (e, OPop 0%nat m)]).
  specialize (H 10 (mkProf [] 10 [] 0 0 0 0 []) ops e). cbv zeta in H.
  destruct (pr_run ops (mkProf [] 10 [] 0 0 0 0 [])) as [p|] eqn:R; [|vm_compute in R; discriminate R].
  destruct (close e true p) as [p'|] eqn:C; [|vm_compute in R; injection R as <-; vm_compute in C; discriminate C].
  specialize (H p p' [[m; m]]). assert (NoDup [0; 0]) as N.
  { apply H; try reflexivity; try exact R; try exact C; try lia.
    - repeat (constructor; [split; [split; cbn; lia|split; reflexivity]|]). constructor.
    - split; cbn; lia.
    - vm_compute in R. injection R as <-. vm_compute in C. injection C as <-. vm_compute. reflexivity. }
  inversion N as [|? ? Hn _]. apply Hn. left. reflexivity.
Qed.

Example C37_case : let e := mkEnv 2 2 1 2 3 4 in let m h := SMethod (mk_single 0 0 5) h 9 0 in
  let ops := [(e, OPush (m 1)); (e, OAdd (SMessage (mk_single 0 0 1) (of_string "x"))); (e, OPush (m 2)); (e, OPop 2%nat (m 2)); (e, OPop 0%nat (m 3))] in
  each_ended_once 0 [] ops /\ Forall (fun eo => good_env (fst eo) /\ e_txid (fst eo) = 1 /\ plain (payload (snd eo))) ops /\
  finish_order 0 ops = [1; 2; 0]%nat.
Proof.
  cbv zeta. split; [cbn; intuition|]. split; [|reflexivity].
  repeat (constructor; [split; [split; cbn; lia|split; [reflexivity|split; reflexivity]]|]). constructor.
Qed.

(** ** C38 *)

(** every sequence of calls: the n-th step started has index n *)
Theorem C38_indices keep p0 ops p i st : new_prof keep = Some p0 -> pr_run ops p0 = Some p ->
  nth_error (p_heap p) i = Some st -> Z.of_nat i <= 2147483647 -> get_index st = Z.of_nat i.
Proof.
  intros Hn R Hi Hs. rewrite <- (int32_id (Z.of_nat i)) by (unfold in_int32; lia).
  unfold new_prof in Hn. destruct (keep <? 0); [discriminate|]. injection Hn as <-.
  refine (run_indices ops _ p R _ _ i st Hi); cbn [p_heap p_cur length]; [intros j x; destruct j; discriminate|].
  symmetry. apply int32_id. unfold in_int32. cbn [length Z.of_nat p_cur p_heap]. lia.
Qed.

(** well-nested calls: a step's parent is the index of the innermost method open when it started, which is an earlier
    step (0 outside any method) *)
Theorem C38_nesting_partial keep p0 ops p i st : new_prof keep = Some p0 -> pr_run ops p0 = Some p -> well_nested 0 [] ops ->
  Z.of_nat (created ops) <= 2147483647 -> nth_error (p_heap p) i = Some st ->
  exists enc, nth_error (enclosing 0 [] ops) i = Some enc /\
    match enc with
    | Some a => get_parent st = Z.of_nat a /\ (a < i)%nat /\
                exists m, nth_error (p_heap p) a = Some m /\ get_index m = get_parent st
    | None => get_parent st = 0
    end.
Proof.
  intros Hn R W Hs Hi. assert (p_heap p0 = [] /\ p_cur p0 = 0 /\ p_par p0 = 0) as (H0 & H1 & H2).
  { unfold new_prof in Hn. destruct (keep <? 0); [discriminate|]. injection Hn as <-. auto. }
  pose proof (run_parents ops [] p0 p R) as L. rewrite H0 in L. cbn [length map app] in L.
  specialize (L W I H1 H2 Hs).
  assert (length (p_heap p) = created ops) as Ln.
  { apply (f_equal (@length _)) in L. rewrite map_length, combine_length, !map_length, enclosing_length, seq_length in L. lia. }
  assert (i < length (p_heap p))%nat as Hlt by (apply nth_error_Some; congruence).
  destruct (nth_error (enclosing 0 [] ops) i) as [enc|] eqn:Ee.
  2: { apply nth_error_None in Ee. rewrite enclosing_length in Ee. lia. }
  exists enc. split; [reflexivity|].
  assert (get_parent st = match enc with Some a => Z.of_nat a | None => 0 end) as Hp.
  { pose proof (f_equal (fun l => nth_error l i) L) as Li. cbn beta in Li. rewrite nth_error_map, Hi in Li. cbn [option_map] in Li.
    symmetry in Li. apply nth_error_split in Li. destruct Li as (l1 & l2 & Lc & Ll).
    assert (forall (X Y : list Z) k x y, nth_error (combine X Y) k = Some (x, y) -> nth_error X k = Some x) as Hcomb.
    { clear. induction X as [|a X IH]; intros [|b Y] [|k] x y; cbn [combine nth_error]; try discriminate; [intros [= <- <-]; reflexivity|apply IH]. }
    assert (nth_error (combine (map (fun x => match x with Some a => Z.of_nat a | None => 0 end) (enclosing 0 [] ops)) (map Z.of_nat (seq 0 (created ops)))) i = Some (links st)) as Hc.
    { rewrite Lc, nth_error_app2, <- Ll, Nat.sub_diag by lia. reflexivity. }
    unfold links in Hc. apply Hcomb in Hc. rewrite nth_error_map, Ee in Hc. cbn [option_map] in Hc. congruence. }
  destruct enc as [a|]; [|exact Hp]. pose proof (enclosing_earlier ops 0 [] i a (Forall_nil _) Ee) as Ha. cbn [Nat.add] in Ha.
  split; [exact Hp|]. split; [exact Ha|].
  destruct (nth_error (p_heap p) a) as [m|] eqn:Em; [|apply nth_error_None in Em; lia].
  exists m. split; [reflexivity|]. rewrite Hp. eapply C38_indices; try eassumption. lia.
Qed.

(** the first step is its own parent *)
Theorem C38_self_parent_refuted :
  ~ (forall keep p0 ops p i st, new_prof keep = Some p0 -> pr_run ops p0 = Some p -> well_nested 0 [] ops ->
     nth_error (p_heap p) i = Some st -> get_parent st <> get_index st).
Proof.
  intros H. set (e := mkEnv 10 10 1 2 3 4). set (m := SMessage (mk_single 0 0 0) (of_string "goroutine:7")).
  refine (H 10 _ [(e, OAdd m)] _ 0%nat m eq_refl eq_refl I eq_refl _). reflexivity.
Qed.

Example C38_case : let e := mkEnv 9 9 1 2 3 4 in let m := SMethod (mk_single 0 0 5) 7 9 0 in
  let ops := [(e, OPush m); (e, OAdd m); (e, OPush m); (e, OAdd m); (e, OPop 2%nat m); (e, OAdd m); (e, OPop 0%nat m); (e, OAdd m)] in
  well_nested 0 [] ops /\ enclosing 0 [] ops = [None; Some 0%nat; Some 0%nat; Some 2%nat; Some 0%nat; None].
Proof. cbv zeta. split; [cbn; auto|reflexivity]. Qed.

(** ** C39 *)

(** SendProfile cuts any list into consecutive batches of the configured size, the last one possibly smaller *)
Theorem C39_batches_partial {A} (bulk : Z) (l : list A) : 1 <= bulk ->
  exists gs, send_groups bulk l = Some gs /\ concat gs = l /\ Forall (fun g => 1 <= zlen g <= bulk) gs /\
    (forall g, In g (removelast gs) -> zlen g = bulk).
Proof. exact (send_groups_ok bulk l). Qed.

(** every profile pack sent for a transaction decodes to between 1 and the batch size steps *)
Theorem C39_packs_bounded_partial keep p0 ops e B p p' :
  1 <= keep -> new_prof keep = Some p0 ->
  Forall (fun eo => good_env (fst eo) /\ e_bulk (fst eo) <= B /\ plain (payload (snd eo))) ops ->
  good_env e -> e_bulk e <= B -> each_ended_once 0 [] ops ->
  (forall eo, In eo ops -> e_txid (fst eo) = e_txid e) ->
  pr_run ops p0 = Some p -> close e true p = Some p' ->
  Forall (fun pk => exists steps, decode_profile (pp_Profile pk) = Some steps /\ 1 <= zlen steps <= B) (p_sent p').
Proof.
  intros Hk Hn F He HB W Htx R C. destruct (new_prof_inv B (e_txid e) keep p0 Hk Hn) as (I0 & H0).
  assert (Forall (op_ok B (e_txid e)) ops) as Fo.
  { rewrite Forall_forall in *. intros eo Hin. destruct (F eo Hin) as (G1 & G2 & G3).
    split; [exact G1|]. split; [exact G2|]. split; [apply Htx; exact Hin|]. destruct eo as [e' [st|a st|st]]; exact G3. }
  destruct (pr_run_inv B (e_txid e) ops [] [] [] p0 Fo I0) as (q & op' & R' & I); [rewrite H0; exact W|]. cbn [app] in I.
  rewrite R in R'. injection R' as <-. destruct (close_inv B (e_txid e) op' _ _ e p He HB eq_refl I) as (q' & gs & C' & S & Fg & Hh & Cc & Tg).
  rewrite C in C'. injection C' as <-.
  assert (Forall ok_step (concat gs)) as Ok by (rewrite Cc; apply contents_ok, (bi_ok _ _ (iv_buf _ _ _ _ _ _ I))).
  pose proof (sent_decodes gs p' S Ok) as D. clear -D Fg. revert D. generalize (p_sent p'). intros pks. revert pks.
  induction Fg as [|g gs Hg Fg IH]; intros [|pk pks] D; try discriminate D; constructor.
  - cbn [map] in D. injection D as D1 D2. exists (map view_step g). split; [exact D1|]. unfold zlen in *. rewrite map_length. exact Hg.
  - cbn [map] in D. injection D as D1 D2. apply IH. exact D2.
Qed.

(** a batch size below 1 is not rejected: 0 panics and a negative one loses steps *)
Theorem C39_nonpositive_refuted :
  @send_groups nat 0 [1; 2; 3]%nat = None /\ @send_groups nat (-2) [1; 2; 3; 4; 5]%nat = Some [[5]]%nat.
Proof. split; reflexivity. Qed.

Example C39_case : send_groups 2 [1; 2; 3; 4; 5] = Some [[1; 2]; [3; 4]; [5]].
Proof. reflexivity. Qed.

(** ** C40 (counting part): at every moment the context's counters equal what was sent so far *)
Theorem C40_counters_exact_partial keep p0 ops tx :
  1 <= keep -> new_prof keep = Some p0 ->
  Forall (fun eo => good_env (fst eo) /\ e_txid (fst eo) = tx /\ plain (payload (snd eo))) ops -> each_ended_once 0 [] ops ->
  exists p ds, pr_run ops p0 = Some p /\
    map (fun pk => decode_profile (pp_Profile pk)) (p_sent p) = map Some ds /\
    p_count p = zlen (concat ds) /\ p_size p = fold_right Z.add 0 (map (fun pk => zlen (pp_Profile pk)) (p_sent p)).
Proof.
  intros Hk Hn F W. destruct (bulk_bound ops 0) as (B & _ & FB). destruct (new_prof_inv B tx keep p0 Hk Hn) as (I0 & H0).
  assert (Forall (op_ok B tx) ops) as Fo.
  { rewrite Forall_forall in *. intros eo Hin. destruct (F eo Hin) as (G1 & G2 & G3). specialize (FB eo Hin). cbn beta in FB.
    split; [exact G1|]. split; [exact FB|]. split; [exact G2|]. destruct eo as [e' [st|a st|st]]; exact G3. }
  destruct (pr_run_inv B tx ops [] [] [] p0 Fo I0) as (p & op' & R & I); [rewrite H0; exact W|].
  destruct (iv_gs _ _ _ _ _ _ I) as (gs & S & _ & M).
  assert (Forall ok_step (concat gs)) as Ok.
  { pose proof (contents_ok (p_heap p) (finish_order (length (p_heap p0)) ops) (bi_ok _ _ (iv_buf _ _ _ _ _ _ I))) as X.
    cbn [app] in M. rewrite <- M in X. apply Forall_app in X. exact (proj1 X). }
  exists p, (map (map view_step) gs). split; [exact R|]. split; [apply sent_decodes; assumption|]. split.
  - rewrite (si_count _ _ S), <- concat_map. unfold zlen. rewrite map_length. reflexivity.
  - rewrite (si_size _ _ S). clear. induction (p_sent p) as [|pk l IH]; [reflexivity|]. cbn [map sum_len fold_right]. fold (sum_len (map pp_Profile l)). rewrite IH. reflexivity.
Qed.

Print Assumptions C37_no_step_lost.
Print Assumptions C37_double_end_refuted.
Print Assumptions C38_indices.
Print Assumptions C38_nesting_partial.
Print Assumptions C38_self_parent_refuted.
Print Assumptions C39_batches_partial.
Print Assumptions C39_packs_bounded_partial.
Print Assumptions C39_nonpositive_refuted.
Print Assumptions C40_counters_exact_partial.
