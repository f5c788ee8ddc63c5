(** Property C88, second part: the counter packs reach the collector as sent. *)
From Coq Require Import Floats.SpecFloat.
From Flocq Require Import Core.Core IEEE754.BinarySingleNaN.
From Verif Require Import GoInt M_Float M_OutX M_Value S_Wire S_Value M_Packs S_Packs P_Packs M_Access M_Cache M_Sampler M_Trace M_Meter M_Tasks S_Meter L_Meter L_MeterFloat S_Trace
  L_TraceInv L_TraceSafe L_TraceHist P_Trace P_Trace3 S_Tasks P_Meter L_Tasks P_Tasks.
From Coq Require Import Lia ZifyBool Permutation.
Open Scope Z_scope.

(** ** Bit patterns of floats *)
Lemma digits_bounds m : 2 ^ (Zpos (SpecFloat.digits2_pos m) - 1) <= Zpos m < 2 ^ Zpos (SpecFloat.digits2_pos m).
Proof.
  induction m as [m IH|m IH|]; cbn [SpecFloat.digits2_pos]; [| |cbn; lia];
  rewrite Pos2Z.inj_succ; replace (Z.succ (Zpos (SpecFloat.digits2_pos m)) - 1) with (Z.succ (Zpos (SpecFloat.digits2_pos m) - 1)) by lia;
  rewrite !Z.pow_succ_r by lia; lia.
Qed.
Lemma bits_range x : SpecFloat.valid_binary 24 128 x = true -> 0 <= f32_bits x < 2 ^ 32.
Proof.
  destruct x as [s|s| |s m e]; intros V; unfold f32_bits; [destruct s; lia|destruct s; lia|lia|].
  cbn [SpecFloat.valid_binary] in V. unfold SpecFloat.bounded, SpecFloat.canonical_mantissa, SpecFloat.fexp, SpecFloat.emin in V.
  apply andb_prop in V as (V1 & V2). apply Zeq_bool_eq in V1. apply Z.leb_le in V2. pose proof (digits_bounds m) as D. set (d := Zpos (SpecFloat.digits2_pos m)) in *.
  change (2 ^ 31) with 2147483648. change (2 ^ 32) with 4294967296. change (2 ^ 23) with 8388608.
  assert (d <= 24) as Hd by lia.
  assert (Zpos m < 16777216) as Hm. { change 16777216 with (2 ^ 24). eapply Z.lt_le_trans; [apply D|]. apply Z.pow_le_mono_r; lia. }
  destruct (Z.leb_spec 8388608 (Zpos m)) as [Hb|Hb]; destruct s; lia.
Qed.
Lemma bits_mean x : SpecFloat.valid_binary 24 128 x = true -> ieee32 (f32_bits x) = x.
Proof.
  destruct x as [s|s| |s m e]; intros V; [destruct s; reflexivity|destruct s; reflexivity|reflexivity|].
  cbn [SpecFloat.valid_binary] in V. unfold SpecFloat.bounded, SpecFloat.canonical_mantissa, SpecFloat.fexp, SpecFloat.emin in V.
  apply andb_prop in V as (V1 & V2). apply Zeq_bool_eq in V1. apply Z.leb_le in V2. pose proof (digits_bounds m) as D. set (d := Zpos (SpecFloat.digits2_pos m)) in *.
  assert (d <= 24) as Hd by lia.
  assert (Zpos m < 16777216) as Hm. { change 16777216 with (2 ^ 24). eapply Z.lt_le_trans; [apply D|]. apply Z.pow_le_mono_r; lia. }
  unfold f32_bits. change (2 ^ 31) with 2147483648. change (2 ^ 23) with 8388608.
  destruct (Z.leb_spec 8388608 (Zpos m)) as [Hb|Hb].
  - assert (-149 <= e <= 104) as He by lia. unfold ieee32. change (2 ^ 31) with 2147483648. change (2 ^ 23) with 8388608. change (2 ^ 8) with 256. cbv zeta.
    set (w := (if s then 2147483648 else 0) + (e + 150) * 8388608 + (Zpos m - 8388608)).
    assert (w mod 8388608 = Zpos m - 8388608) as Wf.
    { unfold w. symmetry. apply Z.mod_unique with ((if s then 256 else 0) + (e + 150)); [lia|destruct s; lia]. }
    assert (w / 8388608 = (if s then 256 else 0) + (e + 150)) as Wq.
    { unfold w. symmetry. apply Z.div_unique with (Zpos m - 8388608); [lia|destruct s; lia]. }
    assert ((w / 8388608) mod 256 = e + 150) as We.
    { rewrite Wq. symmetry. apply Z.mod_unique with (if s then 1 else 0); [lia|destruct s; lia]. }
    rewrite We, Wf. replace (e + 150 =? 255) with false by lia. replace (e + 150 =? 0) with false by lia.
    replace (Zpos m - 8388608 + 8388608) with (Zpos m) by lia. replace (e + 150 - 150) with e by lia.
    replace (2147483648 <=? w) with s by (unfold w; destruct s; lia). reflexivity.
  - assert (e = -149) as ->.
    { assert (d <= 23); [|lia]. destruct (Z.le_gt_cases d 23) as [|H]; [assumption|exfalso].
      assert (2 ^ 23 <= 2 ^ (d - 1)) by (apply Z.pow_le_mono_r; lia). change (2 ^ 23) with 8388608 in *. lia. }
    unfold ieee32. change (2 ^ 31) with 2147483648. change (2 ^ 23) with 8388608. change (2 ^ 8) with 256. cbv zeta.
    set (w := (if s then 2147483648 else 0) + Zpos m).
    assert (w mod 8388608 = Zpos m) as Wf by (unfold w; symmetry; apply Z.mod_unique with (if s then 256 else 0); [lia|destruct s; lia]).
    assert (w / 8388608 = (if s then 256 else 0)) as Wq by (unfold w; symmetry; apply Z.div_unique with (Zpos m); [lia|destruct s; lia]).
    assert ((w / 8388608) mod 256 = 0) as We by (rewrite Wq; destruct s; reflexivity).
    rewrite We, Wf. cbn [Z.eqb]. replace (2147483648 <=? w) with s by (unfold w; destruct s; lia). reflexivity.
Qed.
Lemma valid_round s m e : SpecFloat.valid_binary 24 128 (SpecFloat.binary_round 24 128 s m e) = true.
Proof. rewrite br_equiv. apply (binary_round_correct 24 128 Hp32 Hm32 mode_NE s m e). Qed.
Lemma valid_narrow x : 0 <= f32_bits (f32_of_f64 x) < 2 ^ 32.
Proof. apply bits_range. destruct x as [s|s| |s m e]; try reflexivity. apply valid_round. Qed.
Lemma valid_int z : exists y : binary_float 24 128, f32_of_int z = B2SF y.
Proof. eexists. unfold f32_of_int. rewrite (bn_equiv 24 128 Hp32 Hm32). reflexivity. Qed.
Lemma valid_B (y : binary_float 24 128) : SpecFloat.valid_binary 24 128 (B2SF y) = true.
Proof. destruct y; [reflexivity..|]. cbn. assumption. Qed.
Lemma valid_ratio a b : exists y : binary_float 24 128, f32_div (f32_of_int a) (f32_of_int b) = B2SF y.
Proof. destruct (valid_int a) as (x & ->), (valid_int b) as (y & ->). eexists. unfold f32_div. apply div_equiv. Qed.
Lemma counters_valid p s : 0 <= f32_bits (sc_tps (counter_of p s)) < 2 ^ 32 /\ 0 <= f32_bits (sc_error_rate (counter_of p s)) < 2 ^ 32 /\ in_int64 (sc_elapsed (counter_of p s)).
Proof.
  unfold counter_of. cbn [sc_tps sc_error_rate sc_elapsed]. split; [|split].
  - destruct (valid_ratio (sb_count s) p) as (y & ->). apply bits_range, valid_B.
  - destruct (sb_count s =? 0); [cbn; lia|]. destruct (valid_ratio (sb_error s) (sb_count s)) as (y & ->), (valid_int 100) as (z & ->).
    unfold f32_mul. rewrite (mul_equiv 24 128 Hp32 Hm32). apply bits_range, valid_B.
  - destruct (sb_count s =? 0); [unfold in_int64; lia|]. apply int64_range.
Qed.
(** Every float a counter pack carries is written as the pattern that stands for it: requests per second, error rates, and the values narrowed from float64. *)
Theorem C36_float_bits : (forall x, ieee32 (f32_bits (f32_of_f64 x)) = f32_of_f64 x) /\
  forall p s, ieee32 (f32_bits (sc_tps (counter_of p s))) = sc_tps (counter_of p s) /\ ieee32 (f32_bits (sc_error_rate (counter_of p s))) = sc_error_rate (counter_of p s).
Proof.
  split.
  - intro x. apply bits_mean. destruct x as [s|s| |s m e]; try reflexivity. apply valid_round.
  - intros p s. unfold counter_of. cbn [sc_tps sc_error_rate]. split.
    + destruct (valid_ratio (sb_count s) p) as (y & ->). apply bits_mean, valid_B.
    + destruct (sb_count s =? 0); [reflexivity|]. destruct (valid_ratio (sb_error s) (sb_count s)) as (y & ->), (valid_int 100) as (z & ->).
      unfold f32_mul. rewrite (mul_equiv 24 128 Hp32 Hm32). apply bits_mean, valid_B.
Qed.
Example C36_float_bits_case : f32_bits (f32_of_int 3) = 1077936128 /\ ieee32 1077936128 = S754_finite false 12582912 (-22) /\ ieee32 1 = S754_finite false 1 (-149).
Proof. repeat split; vm_compute; reflexivity. Qed.
Lemma service_valid now p m sc m' : service_counters now p m = Some (sc, m') ->
  0 <= f32_bits (sc_tps sc) < 2 ^ 32 /\ 0 <= f32_bits (sc_error_rate sc) < 2 ^ 32 /\ in_int64 (sc_elapsed sc).
Proof. unfold service_counters. destruct (search sbucket0 now p m) as [[[q bs] m1]|]; [|discriminate]. intros [= <- <-]. apply counters_valid. Qed.

(** ** The counts *)
Lemma loop_small n vs : forall count c0 c1 c2 a b d0 d1 d2, active_loop n count vs c0 c1 c2 a = (b, Some (d0, d1, d2)) ->
  0 <= c0 -> 0 <= c1 -> 0 <= c2 -> c0 + c1 + c2 <= count -> count <= 2000 -> 0 <= d0 /\ 0 <= d1 /\ 0 <= d2 /\ d0 + d1 + d2 <= 2000.
Proof.
  induction vs as [|h vs IH]; intros count c0 c1 c2 a b d0 d1 d2 E H0 H1 H2 Hs Hc; cbn [active_loop] in E.
  - injection E as _ <- <- <-. lia.
  - destruct (Z.ltb_spec 2000 (count + 1)) as [Hl|Hl]; [injection E as _ <- <- <-; lia|].
    unfold bind at 1 in E. destruct (read h _ a) as [a1 [el|]]; [|discriminate].
    destruct (if el <=? cf_yellow (n_conf n) then (c0 + 1, c1, c2) else if el <=? cf_red (n_conf n) then (c0, c1 + 1, c2) else (c0, c1, c2 + 1)) as [[e0 e1] e2] eqn:Ee.
    assert (0 <= e0 /\ 0 <= e1 /\ 0 <= e2 /\ e0 + e1 + e2 <= count + 1) as (K0 & K1 & K2 & Ks).
    { destruct (el <=? cf_yellow (n_conf n)); [|destruct (el <=? cf_red (n_conf n))]; injection Ee as <- <- <-; lia. }
    unfold bind at 1 in E.
    match type of E with (let (_, _) := ?x in _) = _ => destruct x as [a2 [u|]]; [|discriminate] end.
    eapply IH; [exact E|lia..].
Qed.
Lemma counts_small n a b a0 a1 a2 : get_active_count n a = (b, Some (a0, a1, a2)) -> 0 <= a0 <= 2000 /\ 0 <= a1 <= 2000 /\ 0 <= a2 <= 2000.
Proof. intros E. destruct (loop_small _ _ _ _ _ _ _ _ _ _ _ E) as (H0 & H1 & H2 & Hs); lia. Qed.

(** ** The packs *)
(** what the runtime tells has the types of Go *)
Definition typed_stats (t : task) : Prop := match t with TReal _ r _ => in_int64 (rt_goroutines r) /\ in_int64 (rt_cgo r) | _ => True end.

Lemma int_ok z : in_int64 z -> go_value (VDec z) = true.
Proof. unfold in_int64. cbn [go_value]. intros H. apply andb_true_intro. split; apply Z.leb_le; lia. Qed.
Lemma float_ok z : 0 <= z < 2 ^ 32 -> go_value (VFloat z) = true.
Proof. cbn [go_value]. intros H. apply andb_true_intro. split; [apply Z.leb_le|apply Z.ltb_lt]; lia. Qed.
Lemma is_map_by t : zlen t <=? 9223372036854775807 = true -> nodupb (map fst t) = true -> forallb (fun k => zlen k <=? 2147483647) (map fst t) = true ->
  forallb go_value (map snd t) = true -> is_map t = true.
Proof.
  intros H1 H2 H3 H4. unfold is_map. cbn [go_value]. rewrite H1, H2. cbn [andb]. clear H1 H2. induction t as [|[k v] t IH]; [reflexivity|]. cbn [map forallb fst snd] in *.
  apply andb_prop in H3 as (-> & H3). apply andb_prop in H4 as (-> & H4). cbn [andb]. auto.
Qed.

Lemma real_table now r a0 a1 a2 s t s' : all_counters now r (a0, a1, a2) s = Some (t, s') -> in_int64 (rt_goroutines r) -> in_int64 (rt_cgo r) ->
  0 <= a0 <= 2000 -> 0 <= a1 <= 2000 -> 0 <= a2 <= 2000 -> is_map t = true.
Proof.
  unfold all_counters. intros E Hg Hc H0 H1 H2.
  destruct (service_counters now 30 (ct_service s)) as [[sc ms]|] eqn:E1; [|discriminate]. pose proof (service_valid _ _ _ _ _ E1) as (V1 & V2 & V3).
  destruct (value_add now (f64_of_int (int64 (a0 + a1 + a2))) (ct_active s)) as [mv|] eqn:E2; [|discriminate].
  destruct (value_counters now 30 mv) as [[vm mv']|] eqn:E3; [|discriminate].
  set (g := get_gocounter (ct_prev s) r) in *.
  assert (in_int64 (gc_goroutines g) /\ in_int64 (gc_cgocalls g) /\ in_int64 (gc_heap g)) as (G1 & G2 & G3).
  { split; [exact Hg|]. split; [exact Hc|]. apply int64_range. }
  clearbody g. injection E as <- _. clear E1 E2 E3.
  apply is_map_by; [reflexivity..|].
  match goal with |- forallb go_value (map snd ?t) = true =>
    change (map snd t) with [VDec (gc_goroutines g); VDec (gc_cgocalls g); VFloat (f32_bits (f32_of_f64 (gc_per_sec g))); VFloat (f32_bits (f32_of_f64 (gc_pause_per_sec g)));
      VDec (gc_heap g); VFloat (f32_bits (sc_tps sc)); VDec (sc_elapsed sc); VFloat (f32_bits (sc_error_rate sc)); VFloat (f32_bits (f32_of_f64 (vm_avg vm))); VList [VDec a0; VDec a1; VDec a2]] end.
  cbn [forallb]. rewrite !int_ok by (first [assumption|unfold in_int64; lia]). rewrite !float_ok by (first [assumption|apply valid_narrow]).
  assert (forall z, 0 <= z <= 2000 -> go_value (VDec z) = true) as Hz by (intros z ?; apply int_ok; unfold in_int64; lia).
  change (go_value (VList [VDec a0; VDec a1; VDec a2])) with ((zlen [VDec a0; VDec a1; VDec a2] <=? 9223372036854775807) && forallb go_value [VDec a0; VDec a1; VDec a2]).
  cbn [forallb]. rewrite !Hz by assumption. reflexivity.
Qed.
Lemma five_table now s t s' : five_min_counters now s = Some (t, s') -> is_map t = true.
Proof.
  unfold five_min_counters. intros E.
  destruct (service_counters now 300 (ct_service s)) as [[sc ms]|] eqn:E1; [|discriminate]. pose proof (service_valid _ _ _ _ _ E1) as (V1 & V2 & V3).
  destruct (value_counters now 300 (ct_active s)) as [[vm mv]|] eqn:E3; [|discriminate]. injection E as <- _. clear E1 E3.
  apply is_map_by; [reflexivity..|].
  match goal with |- forallb go_value (map snd ?t) = true =>
    change (map snd t) with [VFloat (f32_bits (sc_tps sc)); VDec (sc_elapsed sc); VFloat (f32_bits (sc_error_rate sc)); VFloat (f32_bits (f32_of_f64 (vm_avg vm)))] end.
  cbn [forallb]. rewrite !int_ok by assumption. rewrite !float_ok by (first [assumption|apply valid_narrow]). reflexivity.
Qed.
Lemma task_packs t w ps w' : do_task t w = Some (ps, w') -> typed_stats t -> Forall (fun p => go_pack p = true) ps.
Proof.
  destruct t as [n k|n r obj|n obj]; cbn [do_task typed_stats]; intros E T.
  - destruct (w_call n k w); [|discriminate]. injection E as <- _. constructor.
  - unfold real_tick in E. change (unix n) with (second n) in E. destruct (get_active_count n (w_agent w)) as [b [[[a0 a1] a2]|]] eqn:Eg; [|discriminate].
    destruct (all_counters (second n) r (a0, a1, a2) (w_ct w)) as [[tb s]|] eqn:Ec; [|discriminate]. destruct (add_samples _ _ _); [|discriminate]. injection E as <- _.
    constructor; [|constructor]. destruct (counts_small _ _ _ _ _ _ Eg) as (H0 & H1 & H2). cbn [go_pack]. unfold go_perf_pack. cbn [pc_Time pc_Timetype pc_Data].
    rewrite (real_table _ _ _ _ _ _ _ _ Ec (proj1 T) (proj2 T) H0 H1 H2). reflexivity.
  - unfold five_tick in E. change (unix n) with (second n) in E. destruct (five_min_counters (second n) (w_ct w)) as [[tb s]|] eqn:Ec; [|discriminate]. injection E as <- _.
    constructor; [|constructor]. cbn [go_pack]. unfold go_perf_pack. cbn [pc_Time pc_Timetype pc_Data]. rewrite (five_table _ _ _ _ Ec). reflexivity.
Qed.
Lemma tasks_packs ts : forall w ps w', tasks ts w = Some (ps, w') -> Forall typed_stats ts -> Forall (fun p => go_pack p = true) ps.
Proof.
  induction ts as [|t ts IH]; intros w ps w' E F; cbn [tasks] in E; [injection E as <- _; constructor|].
  destruct (do_task t w) as [[qs w1]|] eqn:Et; [|discriminate]. destruct (tasks ts w1) as [[rs w2]|] eqn:Ets; [|discriminate]. injection E as <- <-.
  inversion F as [|? ? Ft Fr]; subst. apply Forall_app. split; [eapply task_packs; eassumption|eapply IH; eassumption].
Qed.

(** Every pack that the loops send is decoded by the collector to that pack (an over-long object name replaced, C05), whatever follows it. *)
Theorem C88_decodable c t0 t1 ts ps w : Forall typed_stats ts -> tasks ts (world0 c t0 t1) = Some (ps, w) ->
  Forall (fun p => exists q, p = PPerf q /\ forall rest, p_pack (needs_v2 p) (buf (write_pack p new_dout) ++ rest) = Some (PPerf (view_perf_pack q), rest)) ps.
Proof.
  intros F E. pose proof (tasks_packs _ _ _ _ E F) as G.
  assert (forall ts w ps w', tasks ts w = Some (ps, w') -> Forall (fun p => exists q, p = PPerf q) ps) as K.
  { clear. induction ts as [|t ts IH]; intros w ps w' E; cbn [tasks] in E; [injection E as <- _; constructor|].
    destruct (do_task t w) as [[qs w1]|] eqn:Et; [|discriminate]. destruct (tasks ts w1) as [[rs w2]|] eqn:Ets; [|discriminate]. injection E as <- <-.
    apply Forall_app. split; [|eapply IH; eassumption]. destruct t as [n k|n r obj|n obj]; cbn [do_task] in Et.
    - destruct (w_call n k w); [|discriminate]. injection Et as <- _. constructor.
    - unfold real_tick in Et. change (unix n) with (second n) in Et. destruct (get_active_count n (w_agent w)) as [b [act|]]; [|discriminate]. destruct (all_counters _ _ _ _) as [[tb s]|]; [|discriminate].
      destruct (add_samples _ _ _); [|discriminate]. injection Et as <- _. constructor; [eauto|constructor].
    - unfold five_tick in Et. change (unix n) with (second n) in Et. destruct (five_min_counters _ _) as [[tb s]|]; [|discriminate]. injection Et as <- _. constructor; [eauto|constructor]. }
  specialize (K _ _ _ _ E). rewrite Forall_forall in *. intros p Hp. destruct (K p Hp) as (q & ->). exists q. split; [reflexivity|]. intros rest.
  rewrite (C11_pack_decodable _ rest (G _ Hp)). reflexivity.
Qed.

Example C88_wire_case : Forall typed_stats (case_calls ++ [case_real; case_five]) /\
  match tasks (case_calls ++ [case_real; case_five]) (world0 sconf0 99 99) with Some ([_; _], _) => true | _ => false end = true.
Proof. split; [repeat (constructor; [try exact I; split; split; vm_compute; discriminate|]); constructor|vm_compute; reflexivity]. Qed.

Print Assumptions C88_decodable.
Print Assumptions C36_float_bits.
