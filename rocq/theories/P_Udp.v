(** Properties C29-C32. S_Udp.v specifies the collector: [reassemble], [carries], [delivers]. *)
From Verif Require Import GoInt M_OutX L_Codec S_Wire M_Udp S_Udp L_Udp.
From Coq Require Import ZifyBool Permutation.

(** ** C29 *)
Theorem C29_fragments_reassemble_partial pk data ps :
  in_int64 pk -> 0 < ps <= 2147483647 -> data <> [] -> zlen data <= 32767 * ps ->
  exists fs, write_mtu pk data ps = Some fs /\
    (forall received, incl fs received ->
       (forall d f, In d received -> as_fragment d = Some f -> f_pkid f = pk -> In d fs) ->
       reassemble pk received = Some data) /\
    (forall i d, nth_error fs i = Some d -> exists f, as_fragment d = Some f /\
       f_pkid f = pk /\ f_total f = zlen fs /\ f_num f = Z.of_nat i /\ zlen (f_data f) <= ps).
Proof.
  intros Hpk Hps Hne Hl.
  assert (0 < zlen data) as H0 by (destruct data; [congruence|rewrite zlen_cons; pose proof (zlen_nonneg data); lia]).
  pose proof (n_frags_bounds (zlen data) ps ltac:(lia) ltac:(lia)) as (B1 & B2 & B3). replace (zlen data =? 0) with false in B1 by lia.
  assert (n_frags (zlen data) ps <= 32767) as HN by nia.
  destruct (mtu_carries_pk pk data ps Hpk Hps Hne HN) as (fs & E & Hz & H). exists fs. split; [assumption|]. split; [exact H|].
  rewrite write_mtu_map in E by lia. injection E as E. intros i d Hi. rewrite <- E in Hi. rewrite nth_error_map in Hi.
  destruct (nth_error (seq 0 (Z.to_nat (n_frags (zlen data) ps))) i) as [j|] eqn:Ej; [|discriminate]. injection Hi as <-.
  assert (j = i /\ (i < Z.to_nat (n_frags (zlen data) ps))%nat) as [-> Hi].
  { assert (i < length (seq 0 (Z.to_nat (n_frags (zlen data) ps))))%nat as Hlt by (apply nth_error_Some; congruence). rewrite seq_length in Hlt.
    split; [|assumption]. pose proof (nth_error_nth _ _ O Ej) as Hn. rewrite seq_nth in Hn by assumption. lia. }
  pose proof (chunk_len data ps i ltac:(lia)) as Hc.
  rewrite mtu_parse by (assumption || lia). eexists. split; [reflexivity|]. cbn [f_pkid f_total f_num f_data].
  rewrite Hz, !int16_id by (unfold in_int16; lia). auto.
Qed.

(** more than 32767 fragments: the announced total wraps around and nothing can be reassembled *)
Theorem C29_many_fragments_refuted :
  ~ (forall pk data ps, in_int64 pk -> 0 < ps -> data <> [] -> exists fs, write_mtu pk data ps = Some fs /\ carries fs data).
Proof.
  intros H. assert (exists data : bytes, zlen data = 32768) as (data & Hz) by (exists (repeat 7 (Z.to_nat 32768)); unfold zlen; rewrite repeat_length; apply Z2Nat.id; lia).
  destruct (H 5 data 1) as (fs & E & pk & Hc); [unfold in_int64; lia|lia| |].
  - intros ->. discriminate Hz.
  - specialize (Hc fs (incl_refl fs) (fun d f Hd _ _ => Hd)).
    rewrite write_mtu_map in E by lia. 
    assert (n_frags (zlen data) 1 = 32768) as HN by (rewrite Hz; reflexivity).
    set (N := n_frags (zlen data) 1) in *. clearbody N. injection E as <-.
    assert (forall i ds f, piece pk i ds = Some f -> exists d, In d ds /\ as_fragment d = Some f) as Hin.
    { clear. intros i ds f. induction ds as [|d ds IH]; cbn [piece]; [discriminate|]. destruct (as_fragment d) eqn:E.
      - destruct ((f_pkid f0 =? pk) && (f_num f0 =? i)); [intros [= ->]; exists d; split; [left; reflexivity|assumption]|].
        intros H. destruct (IH H) as (d' & Hd & Ed). exists d'. split; [right; assumption|assumption].
      - intros H. destruct (IH H) as (d' & Hd & Ed). exists d'. split; [right; assumption|assumption]. }
    unfold reassemble in Hc. destruct (piece pk 0 _) as [f|] eqn:Ep in Hc; [|discriminate].
    apply Hin in Ep as (d & Hd & Ed). apply in_map_iff in Hd as (i & <- & _).
    rewrite mtu_parse in Ed; [|unfold in_int64; lia|pose proof (chunk_len data 1 i ltac:(lia)); lia].
    injection Ed as <-. cbn [f_total] in Hc. rewrite HN in Hc. replace (0 <? int16 32768) with false in Hc by (vm_compute; reflexivity). discriminate.
Qed.

(** a limit of zero panics (integer divide by zero) *)
Theorem C29_zero_limit_panics pk b : b <> [] -> write_buffer 0 pk b = None.
Proof.
  intros H. unfold write_buffer. destruct b; [congruence|]. rewrite zlen_cons. pose proof (zlen_nonneg b).
  replace (0 <? 1 + zlen b) with true by lia. reflexivity.
Qed.

Example C29_case : exists fs, write_mtu 77 (of_string "abcdefg") 3 = Some fs /\ length fs = 3%nat /\ reassemble 77 (rev fs) = Some (of_string "abcdefg").
Proof. eexists. split; [vm_compute; reflexivity|]. split; [reflexivity|vm_compute; reflexivity]. Qed.

(** ** C30 *)
Theorem C30_exactly_once_partial max pkids bs :
  0 < max <= 2147483647 -> (forall n, in_int64 (pkids n)) ->
  Forall (fun b => b <> [] /\ zlen b <= 32767 * max) bs -> zlen bs <= 32767 ->
  exists ds order, write_buffer_list max pkids bs = Some ds /\ delivers ds order /\ Permutation order bs /\
    filter (fun b => zlen b <=? max) order = filter (fun b => zlen b <=? max) bs /\
    (Forall (fun b => zlen b <= max) bs -> order = bs).
Proof.
  intros Hm Hpk Hg Hl.
  assert (Forall (fun b => b <> []) bs) as Hne by (eapply Forall_impl; [|exact Hg]; intros b Hb; apply Hb).
  destruct (write_buffer_list_items max pkids bs Hm Hpk Hne Hl) as (items & E & Hok & Hs & Hb & Hz).
  assert (filter (small max) (flat_map item_bufs items) = flat_map item_small items) as Hfs.
  { clear - Hok. induction items as [|it items IH]; [reflexivity|]. inversion Hok as [|? ? Hit Hr]; subst. cbn [flat_map]. rewrite filter_app, IH by assumption. f_equal.
    destruct it as [g|fs b]; cbn [item_bufs item_small item_ok] in *.
    - apply filter_all. intros x Hx. destruct Hit as (_ & _ & Hf). rewrite Forall_forall in Hf. specialize (Hf x Hx). unfold small. lia.
    - cbn [filter]. unfold small. replace (zlen b <=? max) with false by lia. reflexivity. }
  assert (filter (fun b => negb (small max b)) (flat_map item_bufs items) = flat_map item_big items) as Hfb.
  { clear - Hok. induction items as [|it items IH]; [reflexivity|]. inversion Hok as [|? ? Hit Hr]; subst. cbn [flat_map]. rewrite filter_app, IH by assumption. f_equal.
    destruct it as [g|fs b]; cbn [item_bufs item_big item_ok] in *.
    - apply filter_none. intros x Hx. destruct Hit as (_ & _ & Hf). rewrite Forall_forall in Hf. specialize (Hf x Hx). unfold small. lia.
    - cbn [filter]. unfold small. replace (zlen b <=? max) with false by lia. reflexivity. }
  assert (forall (f : bytes -> bool) l, Permutation (filter f l ++ filter (fun b => negb (f b)) l) l) as Hpart.
  { clear. intros f l. induction l as [|x l IH]; [constructor|]. cbn [filter]. destruct (f x); cbn [negb app]; [constructor; assumption|].
    etransitivity; [symmetry; apply Permutation_middle|]. constructor. assumption. }
  exists (flat_map item_wire items), (flat_map item_bufs items). split; [assumption|].
  assert (Permutation (flat_map item_bufs items) bs) as Hperm.
  { rewrite <- (Hpart (small max) (flat_map item_bufs items)), Hfs, Hfb, Hs, Hb. apply Hpart. }
  split; [|split; [assumption|split]].
  - apply (items_deliver max items Hm Hok Hz) with (ds := []) (bs := []); [|constructor].
    apply Forall_forall. intros x Hx. rewrite Forall_forall in Hg. apply Hg. eapply Permutation_in; eassumption.
  - change (filter (small max) (flat_map item_bufs items) = filter (small max) bs). congruence.
  - intros Hall. rewrite Forall_forall in Hall.
    rewrite (items_only_small max items Hok).
    + rewrite Hs. apply filter_all. intros x Hx. specialize (Hall x Hx). unfold small. lia.
    + rewrite Hb. apply filter_none. intros x Hx. specialize (Hall x Hx). unfold small. lia.
Qed.

(** missing: empty buffers. A list of empty buffers only is silently not sent *)
Theorem C30_empty_buffers_refuted : exists bs ds, bs <> [] /\ write_buffer_list 60000 (fun _ => 0) bs = Some ds /\ ds = [] /\ ~ exists order, Permutation order bs /\ delivers ds order.
Proof.
  exists [[]], []. split; [discriminate|]. split; [vm_compute; reflexivity|]. split; [reflexivity|].
  intros (order & P & D). apply Permutation_sym, Permutation_length_1_inv in P. subst order.
  assert (forall ds bs, delivers ds bs -> ds = [] -> bs = []) as Hnil.
  { clear. intros ds bs D. induction D as [|ds bs b D IH|ds bs g d D IH Hg _ E|ds bs fs b D IH C]; intros E0.
    - reflexivity.
    - destruct ds; discriminate.
    - destruct ds; discriminate.
    - apply app_eq_nil in E0 as [-> ->]. exfalso. destruct C as (pk & C). specialize (C [] (incl_nil_l _)).
      assert (reassemble pk [] = Some b) as R by (apply C; intros d f []). discriminate R. }
  specialize (Hnil _ _ D eq_refl). discriminate.
Qed.

(** an oversized buffer overtakes the smaller ones queued before it *)
Theorem C30_oversized_overtakes : exists ds, write_buffer_list 4 (fun _ => 9) [of_string "ab"; of_string "abcde"] = Some ds /\
  delivers ds [of_string "abcde"; of_string "ab"].
Proof.
  eexists. split; [vm_compute; reflexivity|].
  match goal with |- delivers [?a; ?b; ?c] _ => change (delivers (([] ++ [a; b]) ++ [c]) (([] ++ [of_string "abcde"]) ++ [of_string "ab"])) end.
  apply dl_many; [|discriminate|vm_compute; discriminate|reflexivity].
  apply dl_frags; [constructor|]. apply (mtu_carries 9 _ 4); [unfold in_int64; lia|lia|reflexivity|vm_compute; discriminate|reflexivity].
Qed.

Example C30_case : exists ds, write_buffer_list 4 (fun _ => 9) [of_string "ab"; of_string "c"; of_string "def"] = Some ds /\ length ds = 2%nat.
Proof. eexists. split; [vm_compute; reflexivity|reflexivity]. Qed.

(** ** C31: reachable states of the queue and sender under any interleaving with producers. [good] buffers
    are non-empty and need at most 32767 fragments (every pack the agent builds is non-empty, C10) *)
Theorem C31_delivered_once_in_order qcap max s : 0 < max <= 2147483647 -> qcap <= 32767 -> ureach qcap max s ->
  exists done, delivers (wire s) done /\ accepted s = done ++ held_of s ++ queue s.
Proof. intros Hm Hq R. destruct (ureach_inv qcap max s Hm Hq R) as (done & [D A _ _ _ _]). exists done. split; assumption. Qed.

(** the sender never panics or blocks for ever: left alone it delivers everything accepted so far *)
Theorem C31_drains qcap max s pkids : 0 < max <= 2147483647 -> qcap <= 32767 -> (forall n, in_int64 (pkids n)) -> ureach qcap max s ->
  exists n s', sender_steps n max pkids s = Some s' /\ delivers (wire s') (accepted s).
Proof.
  intros Hm Hq Hpk R. destruct (ureach_inv qcap max s Hm Hq R) as (done & I).
  destruct (sender_drains qcap max pkids Hm Hq Hpk _ s done I (le_n _)) as (n & s' & d' & E & I' & Q & Id & Ac).
  exists n, s'. split; [assumption|]. rewrite <- Ac. rewrite (ui_acc _ _ _ _ I'), Q. unfold held_of. rewrite Id. rewrite !app_nil_r. apply I'.
Qed.

(** a buffer is dropped exactly when the queue is full at that moment *)
Theorem C31_dropped_only_when_full qcap b s :
  (zlen (queue s) < qcap -> accepted (add_buffer qcap b s) = accepted s ++ [b] /\ dropped (add_buffer qcap b s) = dropped s) /\
  (qcap <= zlen (queue s) -> accepted (add_buffer qcap b s) = accepted s /\ dropped (add_buffer qcap b s) = dropped s ++ [b] /\ queue (add_buffer qcap b s) = queue s).
Proof.
  unfold add_buffer. split; intros H.
  - replace (zlen (queue s) <? qcap) with true by lia. split; reflexivity.
  - replace (zlen (queue s) <? qcap) with false by lia. auto.
Qed.

(** the sender itself loses nothing and accepts nothing: what it takes from the queue it holds or has given to the socket *)
Theorem C31_sender_loses_nothing max pkids s s' : sender_step max pkids s = Some s' -> dropped s' = dropped s /\ accepted s' = accepted s.
Proof.
  unfold sender_step. destruct (snd_state s) as [|n held size].
  - destruct (queue s) as [|b [|b' q]]; [intros [= <-]; auto| |intros [= <-]; auto]. destruct (write_buffer _ _ _); [|discriminate]. intros [= <-]. auto.
  - destruct n as [|n]; [destruct (write_buffer_list _ _ _); [|discriminate]; intros [= <-]; auto|]. destruct (queue s) as [|b q]; [intros [= <-]; auto|].
    destruct (_ <=? _); [|intros [= <-]; auto]. destruct (send_list _ _ _); [|discriminate]. intros [= <-]. auto.
Qed.

Theorem C31_queue_bounded qcap max s : 0 < max <= 2147483647 -> 0 <= qcap <= 32767 -> ureach qcap max s -> zlen (queue s) <= qcap.
Proof. intros Hm Hq R. destruct (ureach_inv qcap max s Hm ltac:(lia) R) as (done & I). pose proof (ui_cap _ _ _ _ I). lia. Qed.

Lemma ureach_steps qcap max n : forall s s', ureach qcap max s -> sender_steps n max (fun _ => 1) s = Some s' -> ureach qcap max s'.
Proof.
  induction n as [|n IH]; intros s s' R; cbn [sender_steps]; [intros [= <-]; assumption|].
  destruct (sender_step max (fun _ => 1) s) as [s1|] eqn:E; [|discriminate]. apply IH. eapply ur_send; [|exact R|exact E]. intros; unfold in_int64; lia.
Qed.
Definition C31_start : usys :=
  fold_left (fun s b => add_buffer 3 (of_string b) s) ["pack"; "longer pack"; "pack"; "x"]%string usys0.
Example C31_case : exists s, ureach 3 8 s /\ wire s <> [] /\ dropped s = [of_string "x"].
Proof.
  assert (ureach 3 8 C31_start) as R.
  { unfold C31_start; cbn [fold_left]. repeat (apply ur_add; [split; [discriminate|vm_compute; discriminate]|]). apply ur_init. }
  destruct (sender_steps 3 8 (fun _ => 1) C31_start) as [s|] eqn:E; [|vm_compute in E; discriminate].
  exists s. split; [exact (ureach_steps _ _ _ _ _ R E)|]. vm_compute in E. injection E as <-. split; [discriminate|reflexivity].
Qed.

(** ** C32 *)
Theorem C32_single_bound max pk b ds : 0 < max -> write_buffer max pk b = Some ds -> Forall (fun d => zlen d <= max + 25) ds.
Proof.
  intros Hm. unfold write_buffer. destruct (max <? zlen b) eqn:E; [apply mtu_size; assumption|]. intros [= <-].
  apply Forall_cons; [|constructor]. change (zlen (CAFE ++ b) <= max + 25). rewrite zlen_app. change (zlen CAFE) with 4. lia.
Qed.

Theorem C32_list_bound max pkids bs ds : 0 < max <= 2147483647 -> write_buffer_list max pkids bs = Some ds -> Forall (fun d => zlen d <= max + 25) ds.
Proof.
  intros Hm.
  assert (forall bs pkids out c ds o c', written out = zlen (buf out) -> zlen (buf out) <= max ->
    buffer_loop max pkids bs out c = Some (ds, o, c') -> Forall (fun d => zlen d <= max + 25) ds /\ zlen (buf o) <= max) as H.
  { clear - Hm. induction bs as [|b bs IH]; intros pkids out c ds o c' Hw Hl; cbn [buffer_loop]; [intros [= <- <- <-]; split; [constructor|assumption]|].
    destruct (max <? zlen b) eqn:E1.
    - destruct (write_mtu (pkids O) b max) as [fs|] eqn:Ef; [|discriminate].
      destruct (buffer_loop max (fun n => pkids (S n)) bs out c) as [[[ds' o'] c1]|] eqn:Eb; [|discriminate]. intros [= <- <- <-].
      destruct (IH _ _ _ _ _ _ Hw Hl Eb) as [F L]. split; [|assumption]. apply Forall_app. split; [|assumption]. eapply mtu_size; [|eassumption]. lia.
    - unfold get_write_size. rewrite Hw. destruct (max <? zlen b + zlen (buf out)) eqn:E2.
      + destruct (buffer_loop max pkids bs (write_raw b new_dout) 1) as [[[ds' o'] c1]|] eqn:Eb; [|discriminate]. intros [= <- <- <-].
        assert (written (write_raw b new_dout) = zlen (buf (write_raw b new_dout))) as W1.
        { rewrite write_raw_buf. apply write_raw_size; [reflexivity|]. cbn [new_dout buf]. change (zlen []) with 0. lia. }
        assert (zlen (buf (write_raw b new_dout)) <= max) as L1 by (rewrite write_raw_buf; cbn [new_dout buf app]; lia).
        destruct (IH _ _ _ _ _ _ W1 L1 Eb) as [F L].
        split; [|assumption]. apply Forall_cons; [|assumption]. rewrite list_datagram_bytes, !zlen_app, be_zlen. change (zlen CAFE_N) with 4. lia.
      + intros Eb. refine (IH _ _ _ _ _ _ _ _ Eb).
        * rewrite write_raw_buf. apply write_raw_size; [assumption|lia].
        * rewrite write_raw_buf, zlen_app. lia. }
  unfold write_buffer_list. destruct (buffer_loop max pkids bs new_dout 0) as [[[ds' o] c]|] eqn:E; [|discriminate].
  destruct (H _ _ _ _ _ _ _ (eq_refl : written new_dout = zlen (buf new_dout)) ltac:(cbn [new_dout buf]; change (zlen []) with 0; lia) E) as [F L].
  intros [= <-]. destruct (0 <? get_write_size o); [|assumption]. apply Forall_app. split; [assumption|]. apply Forall_cons; [|constructor].
  rewrite list_datagram_bytes, !zlen_app, be_zlen. change (zlen CAFE_N) with 4. lia.
Qed.

Example C32_case : exists ds, write_buffer 10 3 (of_string "a text longer than ten bytes") = Some ds /\ length ds = 3%nat.
Proof. eexists. split; [vm_compute; reflexivity|reflexivity]. Qed.

Print Assumptions C29_fragments_reassemble_partial.
Print Assumptions C29_many_fragments_refuted.
Print Assumptions C29_zero_limit_panics.
Print Assumptions C30_exactly_once_partial.
Print Assumptions C30_empty_buffers_refuted.
Print Assumptions C30_oversized_overtakes.
Print Assumptions C31_delivered_once_in_order.
Print Assumptions C31_drains.
Print Assumptions C31_dropped_only_when_full.
Print Assumptions C31_sender_loses_nothing.
Print Assumptions C31_queue_bounded.
Print Assumptions C32_single_bound.
Print Assumptions C32_list_bound.
