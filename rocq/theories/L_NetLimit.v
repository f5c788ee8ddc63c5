From Verif Require Import GoInt M_OutX L_Codec M_Value S_Wire S_Value L_Value M_Packs S_Packs L_Packs M_Udp S_Udp L_Udp M_Net S_Net L_Net P_Net M_NetLimit S_NetLimit.
From Coq Require Import ZifyBool Permutation.

Lemma same_limits max pkids s : sender_step2 max max pkids s = sender_step max pkids s.
Proof. reflexivity. Qed.

(* ------------------------------------------------------------------ *)
(** * Parcels, each with the limit it was made under *)
Definition tparcel : Type := Z * parcel.
Definition tgrams (c : tparcel) : list bytes := grams (fst c) (snd c).
Definition tbufs (c : tparcel) : list bytes := bufs (snd c).
Definition tkey (c : tparcel) : list Z := parcel_key (snd c).
Definition tok (c : tparcel) : Prop := 0 < fst c <= 2147483647 /\ parcel_ok (fst c) (snd c).
Definition tholds (c : tparcel) (ps : list pack) : Prop := holds (snd c) ps.

Lemma tparcels_bring R cs : forall pss r, Forall tok cs -> Forall2 tholds cs pss ->
  (forall c d f, In c cs -> In d R -> as_fragment d = Some f -> tkey c = [f_pkid f] -> In d (tgrams c)) ->
  some_of r (flat_map tgrams cs) -> some_of (flat_map (brings R) r) (map collector_pack (concat pss)) /\
    (incl (flat_map tgrams cs) R -> Permutation r (flat_map tgrams cs) -> Permutation (flat_map (brings R) r) (map collector_pack (concat pss))).
Proof.
  intros pss r O H. revert r. induction H as [|c ps cs pss Hc H IH]; intros r Own (q & Q).
  - cbn [flat_map] in Q. apply Permutation_sym, Permutation_nil, app_eq_nil in Q as (-> & ->). split; [apply some_nil|]. intros _ _. reflexivity.
  - inversion_clear O as [|? ? O1 O2]. destruct O1 as (Hm & O1). cbn [flat_map] in Q. apply perm_split in Q. destruct Q as (r1 & r2 & q1 & q2 & E1 & E2 & E3 & E4).
    destruct (parcel_brings (fst c) (snd c) ps R r1 Hm O1 Hc) as (S1 & T1); [intros d f; apply Own; left; reflexivity|exists q1; symmetry; exact E3|].
    destruct (IH O2 r2) as (S2 & T2); [intros c' d f I; apply Own; right; exact I|exists q2; symmetry; exact E4|].
    cbn [concat]. rewrite map_app. split.
    + eapply some_perm; [|reflexivity|apply some_app; [exact S1|exact S2]]. rewrite <- flat_map_app. apply flat_map_perm. symmetry. exact E1.
    + cbn [flat_map]. intros I P. assert (q1 ++ q2 = []) as Eq.
      { pose proof (Permutation_length P) as L. pose proof (Permutation_length E1) as L1. pose proof (Permutation_length E3) as L3. pose proof (Permutation_length E4) as L4.
        rewrite !app_length in *. destruct (q1 ++ q2) eqn:Z; [reflexivity|]. apply (f_equal (@length bytes)) in Z. rewrite app_length in Z. cbn [length] in Z. lia. }
      apply app_eq_nil in Eq as (-> & ->). rewrite app_nil_r in E3, E4.
      rewrite (flat_map_perm _ _ _ E1), flat_map_app. apply Permutation_app.
      * apply T1; [intros d I'; apply I, in_or_app; left; exact I'|symmetry; exact E3].
      * apply T2; [intros d I'; apply I, in_or_app; right; exact I'|symmetry; exact E4].
Qed.
Lemma tcollector_reads cs pss received : Forall tok cs -> Forall2 tholds cs pss -> NoDup (flat_map tkey cs) ->
  some_of received (flat_map tgrams cs) ->
  some_of (collector received) (map collector_pack (concat pss)) /\
  (Permutation received (flat_map tgrams cs) -> Permutation (collector received) (map collector_pack (concat pss))).
Proof.
  intros O H N S. unfold collector.
  assert (forall c d f, In c cs -> In d received -> as_fragment d = Some f -> tkey c = [f_pkid f] -> In d (tgrams c)) as Own.
  { intros c d f Ic Id Ef Ek. pose proof (some_in _ _ _ S Id) as I. apply in_flat_map in I as (c' & Ic' & Id'). rewrite Forall_forall in O.
    destruct (O c' Ic') as (Hm & Oc). pose proof (gram_key (fst c') (snd c') d f Hm Oc Id' Ef) as Ek'. fold (tkey c') in Ek'.
    assert (c = c') as ->; [|exact Id']. clear - N Ic Ic' Ek Ek'. induction cs as [|x cs IH]; [destruct Ic|]. cbn [flat_map] in N.
    assert (forall c, In c cs -> tkey c = [f_pkid f] -> In (f_pkid f) (flat_map tkey cs)) as M by (intros c0 I0 E0; apply in_flat_map; exists c0; rewrite E0; split; [exact I0|left; reflexivity]).
    destruct Ic as [<- | Ic], Ic' as [<- | Ic']; try reflexivity.
    - rewrite Ek in N. cbn [app] in N. apply NoDup_cons_iff in N as (N & _). destruct (N (M c' Ic' Ek')).
    - rewrite Ek' in N. cbn [app] in N. apply NoDup_cons_iff in N as (N & _). destruct (N (M c Ic Ek)).
    - apply IH; try assumption. clear - N. induction (tkey x) as [|k l IH]; [exact N|]. cbn [app] in N. apply NoDup_cons_iff in N as (_ & N). apply IH, N. }
  destruct (tparcels_bring received cs pss received O H Own S) as (A & B). split; [exact A|]. intros P. apply B; [|exact P].
  intros d I. eapply Permutation_in; [symmetry; exact P|exact I].
Qed.

(* ------------------------------------------------------------------ *)
(** * Lists of buffers larger than the limit allows *)
Lemma good_mono lo max b : 0 < lo -> lo <= max -> good lo b -> good max b.
Proof. intros H0 H (N & L). split; [exact N|]. nia. Qed.
Lemma loop_parcels max bs : 0 < max <= 2147483647 -> Forall (good max) bs ->
  forall pkids out g, (forall n, in_int64 (pkids n)) -> buf out = concat g -> written out = zlen (buf out) -> zlen (buf out) <= max ->
    Forall (fun b => b <> []) g -> zlen g + zlen bs <= 32767 ->
  exists ds o g' cs k, buffer_loop max pkids bs out (zlen g) = Some (ds, o, zlen g') /\ ds = flat_map (grams max) cs /\
    buf o = concat g' /\ written o = zlen (buf o) /\ zlen (buf o) <= max /\ Forall (fun b => b <> []) g' /\ zlen g' <= 32767 /\
    Permutation (flat_map bufs cs ++ g') (g ++ bs) /\ Forall (parcel_ok max) cs /\ flat_map parcel_key cs = map pkids (seq 0 k) /\ (k <= length bs)%nat.
Proof.
  intros Hm. induction bs as [|b bs IH]; intros Hg pkids out g Hpk Hb Hw Hmax Hgne Hlen; cbn [buffer_loop].
  - exists [], out, g, [], 0%nat. cbn [flat_map app seq map length]. rewrite app_nil_r. change (zlen []) with 0 in Hlen.
    repeat (split; [first [reflexivity|assumption|lia|constructor]|]). lia.
  - inversion_clear Hg as [|? ? Gb Hg']. pose proof Gb as (Gn & Gl). rewrite zlen_cons in Hlen. pose proof (zlen_nonneg bs) as Hbs. pose proof (zlen_nonneg g) as Hgz.
    destruct (max <? zlen b) eqn:E1.
    + rewrite write_mtu_map by lia.
      destruct (IH Hg' (fun n => pkids (S n)) out g (fun n => Hpk (S n)) Hb Hw Hmax Hgne ltac:(lia)) as (ds & o & g' & cs & k & -> & Hds & H1 & H2 & H3 & H4 & H5 & H6 & H7 & H8 & H9).
      eexists. exists o, g', (Cut (pkids O) b :: cs), (S k). split; [reflexivity|]. split; [cbn [flat_map grams]; rewrite Hds; reflexivity|].
      split; [exact H1|]. split; [exact H2|]. split; [exact H3|]. split; [exact H4|]. split; [exact H5|]. split.
      { cbn [flat_map bufs app]. rewrite H6. apply Permutation_middle. }
      split; [constructor; [split; [apply Hpk|split; [exact Gn|split; [apply good_frags; [lia|exact Gb]|lia]]]|exact H7]|].
      split; [cbn [flat_map parcel_key app seq map]; rewrite H8, <- seq_shift, map_map; reflexivity|cbn [length]; lia].
    + unfold get_write_size. rewrite Hw. destruct (max <? zlen b + zlen (buf out)) eqn:E2.
      * assert (1 <= zlen g) as Hg1. { destruct g; [rewrite Hb in E2; cbn [concat] in E2; change (zlen []) with 0 in E2; lia|]. rewrite zlen_cons. pose proof (zlen_nonneg g). lia. }
        destruct (IH Hg' pkids (write_raw b new_dout) [b] Hpk) as (ds & o & g' & cs & k & E & Hds & H1 & H2 & H3 & H4 & H5 & H6 & H7 & H8 & H9).
        { rewrite write_raw_buf. cbn [new_dout buf concat app]. rewrite app_nil_r. reflexivity. }
        { rewrite write_raw_buf. apply write_raw_size; [reflexivity|]. cbn [new_dout buf]. change (zlen []) with 0. lia. }
        { rewrite write_raw_buf. cbn [new_dout buf app]. lia. }
        { constructor; [exact Gn|constructor]. }
        { change (zlen [b]) with 1. lia. }
        change (zlen [b]) with 1 in E. rewrite E. eexists. exists o, g', (Many g :: cs), k. split; [reflexivity|].
        split; [cbn [flat_map grams app]; rewrite list_datagram_bytes, Hb, Hds; reflexivity|].
        split; [exact H1|]. split; [exact H2|]. split; [exact H3|]. split; [exact H4|]. split; [exact H5|].
        split; [cbn [flat_map bufs]; rewrite <- app_assoc, H6; reflexivity|]. split; [constructor; [cbn [parcel_ok]; lia|exact H7]|].
        split; [exact H8|cbn [length]; lia].
      * replace (int16 (zlen g + 1)) with (zlen (g ++ [b])).
        2: { rewrite zlen_app. change (zlen [b]) with 1. rewrite int16_id; [reflexivity|]. unfold in_int16. lia. }
        destruct (IH Hg' pkids (write_raw b out) (g ++ [b]) Hpk) as (ds & o & g' & cs & k & E & Hds & H1 & H2 & H3 & H4 & H5 & H6 & H7 & H8 & H9).
        { rewrite write_raw_buf, concat_snoc, Hb. reflexivity. }
        { rewrite write_raw_buf. apply write_raw_size; [assumption|]. lia. }
        { rewrite write_raw_buf, zlen_app. lia. }
        { apply Forall_app. split; [assumption|constructor; [assumption|constructor]]. }
        { rewrite zlen_app. change (zlen [b]) with 1. lia. }
        exists ds, o, g', cs, k. rewrite E. repeat (split; [first [reflexivity|assumption]|]).
        split; [rewrite H6, <- app_assoc; reflexivity|]. split; [exact H7|]. split; [exact H8|cbn [length]; lia].
Qed.
Lemma any_list max pkids held : 0 < max <= 2147483647 -> (forall n, in_int64 (pkids n)) -> Forall (good max) held -> zlen held <= 32767 ->
  exists cs k, write_buffer_list max pkids held = Some (flat_map (grams max) cs) /\ Permutation (flat_map bufs cs) held /\ Forall (parcel_ok max) cs /\
    flat_map parcel_key cs = map pkids (seq 0 k) /\ (k <= length held)%nat.
Proof.
  intros Hm Hp G Hl. unfold write_buffer_list.
  destruct (loop_parcels max held Hm G pkids new_dout [] Hp) as (ds & o & g' & cs & k & E & Hds & H1 & H2 & H3 & H4 & H5 & H6 & H7 & H8 & H9);
    try reflexivity; try constructor; try (change (zlen (@nil bytes)) with 0; lia).
  { cbn [new_dout buf]. change (zlen []) with 0. lia. }
  change (zlen []) with 0 in E. rewrite E. unfold get_write_size. rewrite H2. cbn [app] in H6. destruct (0 <? zlen (buf o)) eqn:E0.
  - exists (cs ++ [Many g']), k. rewrite !flat_map_app. cbn [flat_map grams bufs parcel_key]. rewrite !app_nil_r. split; [rewrite list_datagram_bytes, H1, Hds; reflexivity|].
    split; [exact H6|]. split; [apply Forall_app; split; [exact H7|constructor; [exact H5|constructor]]|]. split; [exact H8|exact H9].
  - assert (g' = []) as ->.
    { destruct g' as [|b g']; [reflexivity|]. inversion_clear H4 as [|? ? Hb Hr]. rewrite H1 in E0. cbn [concat] in E0. rewrite zlen_app in E0.
      destruct b; [congruence|]. rewrite zlen_cons in E0. pose proof (zlen_nonneg b). pose proof (zlen_nonneg (concat g')). lia. }
    rewrite app_nil_r in H6. exists cs, k. rewrite Hds. auto.
Qed.
Lemma any_send max pkids held : 0 < max <= 2147483647 -> (forall n, in_int64 (pkids n)) -> Forall (good max) held -> zlen held <= 32767 ->
  exists cs k, send_list max pkids held = Some (flat_map (grams max) cs) /\ Permutation (flat_map bufs cs) held /\ Forall (parcel_ok max) cs /\
    flat_map parcel_key cs = map pkids (seq 0 k) /\ (k <= length held)%nat.
Proof.
  intros Hm Hp G Hl. destruct held as [|b [|b' held]]; cbn [send_list]; [| |apply any_list; assumption].
  - exists [], 0%nat. repeat split; [constructor|constructor|cbn; lia].
  - inversion_clear G as [|? ? Gb _]. destruct (single_parcel max (pkids O) b Hm (Hp O) Gb) as (c & E & B & O & K).
    exists [c]. cbn [flat_map]. rewrite !app_nil_r. destruct K as [K|K].
    + exists 0%nat. split; [exact E|]. split; [rewrite B; reflexivity|]. split; [constructor; [exact O|constructor]|]. split; [exact K|cbn; lia].
    + exists 1%nat. split; [exact E|]. split; [rewrite B; reflexivity|]. split; [constructor; [exact O|constructor]|]. split; [exact K|cbn; lia].
Qed.

(* ------------------------------------------------------------------ *)
(** * The sender goroutine *)
Record uinv2 (qcap lo : Z) (s : usys) : Prop := {
  u2_good : Forall (good lo) (held_of s ++ queue s);
  u2_cap : zlen (queue s) <= Z.max 0 qcap;
  u2_st : match snd_state s with Idle => True | Sending n h _ => (n <= length (queue s))%nat /\ zlen h + Z.of_nat n <= Z.max 0 qcap end }.
Lemma u2_0 qcap lo : uinv2 qcap lo usys0.
Proof. constructor; [constructor|cbn [usys0 queue]; change (zlen []) with 0; lia|exact I]. Qed.
Lemma u2_add qcap lo b s : good lo b -> uinv2 qcap lo s -> uinv2 qcap lo (add_buffer qcap b s).
Proof.
  intros Gb [G C St]. unfold add_buffer. destruct (zlen (queue s) <? qcap) eqn:E; constructor; unfold held_of in *; cbn [snd_state queue]; try assumption.
  - rewrite app_assoc. apply Forall_app. split; [exact G|constructor; [exact Gb|constructor]].
  - rewrite zlen_app. change (zlen [b]) with 1. lia.
  - destruct (snd_state s); [exact I|]. rewrite app_length. lia.
Qed.
Lemma u2_step qcap lo thr max pkids s : 0 < lo -> lo <= max <= 2147483647 -> qcap <= 32767 -> (forall n, in_int64 (pkids n)) -> uinv2 qcap lo s ->
  exists s' cs k, sender_step2 thr max pkids s = Some s' /\ uinv2 qcap lo s' /\ wire s' = wire s ++ flat_map (grams max) cs /\
    Permutation (held_of s ++ queue s) (flat_map bufs cs ++ held_of s' ++ queue s') /\ Forall (parcel_ok max) cs /\
    flat_map parcel_key cs = map pkids (seq 0 k) /\ Z.of_nat k < 32768 /\ accepted s' = accepted s /\ dropped s' = dropped s /\
    ((queue s <> [] \/ snd_state s <> Idle) -> (effort s' < effort s)%nat).
Proof.
  intros H0 Hm Hq Hp [G C St]. assert (0 < max <= 2147483647) as Hm' by lia.
  assert (forall l, Forall (good lo) l -> Forall (good max) l) as Up by (intros l; apply Forall_impl; intros b; apply good_mono; lia).
  unfold sender_step2. unfold held_of in *. unfold effort. destruct (snd_state s) as [|[|n] held size] eqn:Es.
  - destruct (queue s) as [|b [|b' q]] eqn:Eq.
    + exists s, [], 0%nat. rewrite Es, Eq. cbn [flat_map app seq map]. rewrite app_nil_r. split; [reflexivity|].
      split; [constructor; unfold held_of; rewrite ?Es, ?Eq; assumption|]. repeat (split; [first [reflexivity|lia|solve [constructor]]|]). intros [X|X]; congruence.
    + cbn [app] in *. apply Up in G as G'. inversion_clear G' as [|? ? Gb _]. destruct (single_parcel max (pkids O) b Hm' (Hp O) Gb) as (c & E & B & O & K). rewrite E.
      eexists. exists [c]. exists (match parcel_key c with [] => 0%nat | _ => 1%nat end). split; [reflexivity|]. cbn [wire queue snd_state accepted dropped flat_map app length].
      split; [constructor; unfold held_of; cbn [snd_state queue app]; [constructor|change (zlen []) with 0; lia|exact I]|]. rewrite !app_nil_r.
      split; [reflexivity|]. split; [rewrite B; reflexivity|]. split; [constructor; [exact O|constructor]|].
      split; [destruct K as [-> | ->]; reflexivity|]. split; [destruct (parcel_key c); lia|]. split; [reflexivity|]. split; [reflexivity|]. intros _. lia.
    + eexists. exists [], 0%nat. split; [reflexivity|]. cbn [wire queue snd_state accepted dropped flat_map app seq map]. rewrite app_nil_r.
      split; [constructor; unfold held_of; cbn [snd_state queue app]; [exact G|exact C|]|].
      { split; [lia|]. change (zlen []) with 0. unfold zlen in C. lia. }
      repeat (split; [first [reflexivity|lia|solve [constructor]]|]). intros _. cbn [length]. lia.
  - destruct St as (S1 & S2). apply Forall_app in G as [G1 G2]. destruct (any_list max pkids held Hm' Hp (Up _ G1) ltac:(lia)) as (cs & k & E & B & O & K & L). rewrite E.
    eexists. exists cs, k. split; [reflexivity|]. cbn [wire queue snd_state accepted dropped app].
    split; [constructor; unfold held_of; cbn [snd_state queue app]; [exact G2|exact C|exact I]|]. split; [reflexivity|]. split; [rewrite B; reflexivity|].
    split; [exact O|]. split; [exact K|]. unfold zlen in *. split; [lia|]. split; [reflexivity|]. split; [reflexivity|]. intros _. lia.
  - destruct St as (S1 & S2). apply Forall_app in G as [G1 G2]. destruct (queue s) as [|b q] eqn:Eq; [cbn [length] in S1; lia|].
    inversion_clear G2 as [|? ? Gb Gq]. cbn [length] in S1. rewrite zlen_cons in C. pose proof (zlen_nonneg held) as Hh. destruct (thr <=? size + zlen b).
    + destruct (any_send max pkids held Hm' Hp (Up _ G1) ltac:(lia)) as (cs & k & E & B & O & K & L). rewrite E.
      eexists. exists cs, k. split; [reflexivity|]. cbn [wire queue snd_state accepted dropped].
      split; [constructor; unfold held_of; cbn [snd_state queue app]; [constructor; assumption|lia|change (zlen [b]) with 1; split; lia]|].
      split; [reflexivity|]. split; [cbn [app]; rewrite B; reflexivity|]. split; [exact O|]. split; [exact K|]. unfold zlen in *. split; [lia|]. split; [reflexivity|]. split; [reflexivity|].
      intros _. cbn [length]. lia.
    + eexists. exists [], 0%nat. split; [reflexivity|]. cbn [wire queue snd_state accepted dropped flat_map app seq map]. rewrite app_nil_r.
      split; [constructor; unfold held_of; cbn [snd_state queue]; [|lia|rewrite zlen_app; change (zlen [b]) with 1; split; lia]|].
      { apply Forall_app; split; [apply Forall_app; split; [exact G1|constructor; [exact Gb|constructor]]|exact Gq]. }
      split; [reflexivity|]. split; [rewrite <- app_assoc; reflexivity|]. repeat (split; [first [reflexivity|lia|solve [constructor]]|]). intros _. cbn [length]. lia.
Qed.
