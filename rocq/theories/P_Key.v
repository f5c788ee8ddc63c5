(** C79: ids. *)
From Verif Require Import GoInt M_Packs M_Udp S_Udp L_Udp M_Net S_Net L_Net P_Net M_Key S_Key.
From Coq Require Import Permutation.

Section Keys.
  Context (G : generator).
  Variable seed : Z.
  Let src n := gen_after G n (gen_seed G seed).
  Lemma after_S n : forall st, gen_after G (S n) st = snd (gen_next G (gen_after G n st)).
  Proof. induction n as [|n IH]; intros st; [reflexivity|]. cbn [gen_after]. apply IH. Qed.
  Definition holds (p : kphase G) : bool := match p with KWant _ => false | _ => true end.
  (** What the callers and the source look like after [n] keys. *)
  Definition kinv (s : keys G) : Prop :=
    let n := length (k_out s) in
    map snd (k_out s) = map (draw G seed) (seq 0 n) /\
    ( (k_mutex s = false /\ k_src s = src n /\ Forall (fun p => holds p = false) (k_callers s))
      \/ (k_mutex s = true /\ exists a p b, k_callers s = a ++ p :: b /\ Forall (fun p => holds p = false) a /\ Forall (fun p => holds p = false) b /\
            match p with
            | KWant _ => False
            | KLocked _ => k_src s = src n
            | KDrawn _ v st => k_src s = src n /\ v = draw G seed n /\ st = src (S n)
            | KLeave _ v => v = draw G seed n /\ k_src s = src (S n)
            end)).
  Lemma split_nth {A} (a : list A) p b i x : nth_error (a ++ p :: b) i = Some x ->
    (i = length a /\ x = p) \/ In x a \/ In x b.
  Proof.
    intros H. destruct (Nat.lt_trichotomy i (length a)) as [L|[->|L]].
    - rewrite nth_error_app1 in H by exact L. right. left. eapply nth_error_In, H.
    - rewrite nth_error_app2, Nat.sub_diag in H by lia. injection H as ->. auto.
    - rewrite nth_error_app2 in H by lia. destruct (i - length a)%nat as [|m] eqn:E; [lia|]. right. right. eapply nth_error_In. exact H.
  Qed.
  Lemma set_split {A} (l : list A) i x : nth_error l i = Some x -> exists a b, l = a ++ x :: b /\ length a = i.
  Proof. intros H. destruct (nth_error_split l i H) as (a & b & E & L). eauto. Qed.
  Lemma set_at a p b x : caller_set (a ++ p :: b) (length a) x = a ++ x :: b :> list (kphase G).
  Proof. unfold caller_set. rewrite firstn_app, firstn_all, Nat.sub_diag, app_nil_r. rewrite skipn_app, skipn_all2 by lia. replace (S (length a) - length a)%nat with 1%nat by lia. reflexivity. Qed.
  Lemma draws_snoc n : map (draw G seed) (seq 0 (S n)) = map (draw G seed) (seq 0 n) ++ [draw G seed n].
  Proof. rewrite seq_S, map_app. reflexivity. Qed.
  Lemma kinv_step i s : kinv s -> kinv (key_step i s).
  Proof.
    intros (Hd & Hc). unfold key_step. destruct (nth_error (k_callers s) i) as [p|] eqn:E; [|split; assumption].
    destruct Hc as [(Hm & Hs & Hf)|(Hm & a & q & b & Ec & Fa & Fb & Hq)].
    - assert (holds p = false) as Hp by (eapply Forall_forall in Hf; [exact Hf|eapply nth_error_In, E]). destruct p as [[|n]|n|n v st|n v]; try discriminate; [split; [exact Hd|left; auto]|].
      rewrite Hm. destruct (set_split _ _ _ E) as (a & b & Ec & <-). split; [exact Hd|]. right. split; [reflexivity|]. cbn [k_callers k_src k_out]. rewrite Ec, set_at.
      rewrite Ec in Hf. apply Forall_app in Hf as (Fa & Fb). inversion Fb; subst. exists a, (KLocked n), b. auto.
    - rewrite Ec in E. destruct (split_nth _ _ _ _ _ E) as [(-> & ->)|Hi].
      + destruct q as [n|n|n v st|n v]; [contradiction| | |].
        * destruct (gen_next G (k_src s)) as [v st] eqn:Eg. split; [exact Hd|]. right. split; [exact Hm|]. cbn [k_callers k_src k_out]. rewrite Ec, set_at. exists a, (KDrawn n v st), b.
          split; [reflexivity|]. split; [exact Fa|]. split; [exact Fb|]. split; [exact Hq|]. rewrite Hq in Eg. unfold draw, src in *. rewrite after_S, Eg. auto.
        * destruct Hq as (Hs & Hv & Hst). split; [exact Hd|]. right. split; [exact Hm|]. cbn [k_callers k_src k_out]. rewrite Ec, set_at. exists a, (KLeave n v), b. auto.
        * destruct Hq as (Hv & Hs). split.
          -- cbn [k_out]. rewrite map_app, app_length, Nat.add_1_r, draws_snoc, Hd. cbn [map snd]. rewrite Hv. reflexivity.
          -- left. cbn [k_mutex k_src k_out k_callers]. rewrite app_length, Nat.add_1_r. split; [reflexivity|]. split; [exact Hs|]. rewrite Ec, set_at. apply Forall_app. split; [exact Fa|].
             constructor; [reflexivity|exact Fb].
      + assert (holds p = false) as Hp by (destruct Hi as [Hi|Hi]; [eapply Forall_forall in Fa|eapply Forall_forall in Fb]; eassumption).
        destruct p as [[|n]|n|n v st|n v]; try discriminate; [|rewrite Hm]; (split; [exact Hd|right; split; [exact Hm|exists a, q, b; auto]]).
  Qed.
  Lemma kinv_run sched : forall s, kinv s -> kinv (key_run sched s).
  Proof. unfold key_run. induction sched as [|i sched IH]; intros s H; [exact H|]. cbn [fold_left]. apply IH, kinv_step, H. Qed.
  Lemma kinv_init now calls : unix_seconds now = seed -> kinv (key_init G now calls).
  Proof.
    intros E. split; [reflexivity|]. left. cbn. rewrite E. split; [reflexivity|]. split; [reflexivity|]. apply Forall_forall. intros p H. apply in_map_iff in H as (n & <- & _). reflexivity.
  Qed.
End Keys.

(** However many goroutines call Next and however they interleave, the keys returned, taken together, are the numbers of the source one by one: none is skipped,
    none is given to two callers. *)
Theorem C79_each_draw_once G now calls sched : let s := key_run sched (key_init G now calls) in
  map snd (k_out s) = map (draw G (in_second now)) (seq 0 (length (k_out s))).
Proof. cbv zeta. apply (kinv_run G (in_second now) sched _ (kinv_init G _ now calls eq_refl)). Qed.

(** So the keys of a process are different as long as its source does not repeat itself... *)
Theorem C79_different_partial G now calls sched : let s := key_run sched (key_init G now calls) in
  unrepeated G (in_second now) (length (k_out s)) -> NoDup (map snd (k_out s)).
Proof.
  cbv zeta. rewrite C79_each_draw_once. generalize (length (k_out (key_run sched (key_init G now calls)))). intros n U.
  assert (forall a m, (a + m <= n)%nat -> NoDup (map (draw G (in_second now)) (seq a m))) as K; [|apply K; lia].
  intros a m. revert a. induction m as [|m IH]; intros a L; [constructor|]. cbn [seq map]. constructor; [|apply IH; lia].
  intros H. apply in_map_iff in H as (j & E & I). apply in_seq in I. assert (j = a) by (apply U; [lia|lia|exact E]). lia.
Qed.
(** ... non-negative, and of 63 bits. *)
Theorem C79_range G now calls sched i v : int63 G -> In (i, v) (k_out (key_run sched (key_init G now calls))) -> 0 <= v < 2 ^ 63.
Proof.
  intros R H. assert (In v (map snd (k_out (key_run sched (key_init G now calls))))) as K by (apply in_map_iff; exists (i, v); auto).
  rewrite C79_each_draw_once in K. apply in_map_iff in K as (n & <- & _). apply R.
Qed.

(** A call returns: whoever gets on with it, the lock comes free; when nobody can get on, every call has returned. *)
Definition key_done {G} (s : keys G) : Prop := Forall (fun p => p = KWant 0) (k_callers s).
Theorem C79_no_deadlock G now calls sched : let s := key_run sched (key_init G now calls) in key_done s \/ exists i, key_step i s <> s.
Proof.
  cbv zeta. destruct (kinv_run G (in_second now) sched _ (kinv_init G _ now calls eq_refl)) as (_ & [(Hm & _ & Hf)|(Hm & a & q & b & Ec & _ & _ & Hq)]);
  set (s := key_run sched (key_init G now calls)) in *; clearbody s.
  - assert (key_done s \/ exists i n, nth_error (k_callers s) i = Some (KWant (S n))) as [D|(i & n & E)]; [|left; exact D|].
    { unfold key_done. clear - Hf. induction (k_callers s) as [|p l IH]; [left; constructor|]. inversion Hf; subst. destruct p as [[|n]|n|n v st|n v]; try discriminate.
      - destruct (IH H2) as [D|(i & n & E)]; [left; constructor; auto|right; exists (S i), n; exact E].
      - right. exists O, n. reflexivity. }
    right. exists i. unfold key_step. rewrite E, Hm. intros F. apply (f_equal k_mutex) in F. cbn [k_mutex] in F. congruence.
  - right. exists (length a). unfold key_step. rewrite Ec, nth_error_app2, Nat.sub_diag by lia. cbn [nth_error].
    destruct q as [n|n|n v st|n v]; [contradiction| | |].
    + destruct (gen_next G (k_src s)) as [v st]. intros F. apply (f_equal k_callers) in F. cbn [k_callers] in F. rewrite set_at in F. rewrite Ec in F. apply app_inv_head in F. discriminate.
    + intros F. apply (f_equal k_callers) in F. cbn [k_callers] in F. rewrite set_at in F. rewrite Ec in F. apply app_inv_head in F. discriminate.
    + intros F. apply (f_equal k_mutex) in F. cbn [k_mutex] in F. congruence.
Qed.

(** The histories of the sender with keys from the generator are histories in the sense of C76 and C77: fragments of different packs have different keys. *)
Lemma draws_int64 G seed i : int63 G -> in_int64 (draw G seed i).
Proof. intros R. pose proof (R (gen_after G i (gen_seed G seed))) as H. unfold draw, in_int64. lia. Qed.
Lemma key_of_parcels max cs k : 0 < max <= 2147483647 -> Forall (parcel_ok max) cs -> In k (keys_of (flat_map (grams max) cs)) -> In k (flat_map parcel_key cs).
Proof.
  intros Hm O H. unfold keys_of in H. apply in_flat_map in H as (d & Hd & Hk). apply in_flat_map in Hd as (c & Hc & Hd). destruct (as_fragment d) as [f|] eqn:Ef; [|destruct Hk].
  destruct Hk as [<-|[]]. apply in_flat_map. exists c. split; [exact Hc|]. rewrite Forall_forall in O. rewrite (gram_key max c d f Hm (O c Hc) Hd Ef). left. reflexivity.
Qed.
Lemma direct_key qcap max qs ps pkid p s s' k : 0 < max <= 2147483647 -> qcap <= 32767 -> history qcap max qs ps s -> proper max p -> in_int64 pkid ->
  net_direct max pkid p s = Some s' -> In k (keys_of (made_now s s')) -> k = pkid.
Proof.
  intros Hm Hq H (Gp & V & L) Hk E I. assert (L_Udp.good max (bytes_of p)) as Gb by (split; [apply bytes_nonempty; assumption|exact L]).
  destruct (single_parcel max pkid _ Hm Hk Gb) as (c & Ec & _ & Oc & Kc). unfold net_direct in E. rewrite Ec in E. injection E as <-.
  unfold made_now in I. cbn [x_made] in I. rewrite skip_app in I. replace (grams max c) with (flat_map (grams max) [c]) in I by (cbn; apply app_nil_r).
  apply key_of_parcels in I; [|exact Hm|constructor; [exact Oc|constructor]]. cbn [flat_map] in I. rewrite app_nil_r in I. destruct Kc as [Kc|Kc]; rewrite Kc in I; [destruct I|]. destruct I as [<-|[]]. reflexivity.
Qed.
Lemma sender_key qcap max qs ps pkids s s' k : 0 < max <= 2147483647 -> qcap <= 32767 -> history qcap max qs ps s -> (forall i, in_int64 (pkids i)) ->
  net_sender max pkids s = Some s' -> In k (keys_of (made_now s s')) -> k = pkids O.
Proof.
  intros Hm Hq H Hk E I. destruct (history_inv _ _ _ _ _ Hm Hq H) as (cq & cd & kept & [(done & U) _ _ _ _ _ _ _ _ _ _ _ _]). unfold net_sender in E.
  destruct (x_uout s) as [|? ?].
  - destruct (sender_step max pkids (x_u s)) as [u|] eqn:Eu; [|discriminate]. injection E as <-.
    destruct (sender_parcels qcap max pkids _ _ _ Hm Hq Hk U Eu) as (cs & Ew & _ & Oc & Kc). unfold made_now in I. cbn [x_made] in I. rewrite skip_app, Ew, skip_app in I.
    apply key_of_parcels in I; [|exact Hm|exact Oc]. destruct Kc as [Kc|Kc]; rewrite Kc in I; [destruct I|]. destruct I as [<-|[]]. reflexivity.
  - injection E as <-. unfold made_now in I. rewrite skipn_all in I. destruct I.
Qed.
Lemma made_on max pkid p s s' : net_direct max pkid p s = Some s' -> x_made s' = x_made s ++ made_now s s'.
Proof. unfold net_direct, made_now. destruct (write_buffer _ _ _); [|discriminate]. intros E. injection E as <-. cbn [x_made]. rewrite skip_app. reflexivity. Qed.
Lemma made_on_sender max pkids s s' : net_sender max pkids s = Some s' -> x_made s' = x_made s ++ made_now s s'.
Proof.
  unfold net_sender, made_now. destruct (x_uout s); [|intros E; injection E as <-; rewrite skipn_all, app_nil_r; reflexivity]. destruct (sender_step _ _ _); [|discriminate].
  intros E. injection E as <-. cbn [x_made]. rewrite skip_app. reflexivity.
Qed.
Theorem C79_fragment_keys G seed qcap max n qs ps s : 0 < max <= 2147483647 -> qcap <= 32767 -> int63 G -> unrepeated G seed n -> drawn G seed qcap max n qs ps s -> history qcap max qs ps s.
Proof.
  intros Hm Hq R U D.
  assert (history qcap max qs ps s /\ forall k, In k (keys_of (x_made s)) -> exists j, (j < n)%nat /\ k = draw G seed j) as (K & _); [|exact K].
  induction D as [conn|n qs ps p s D IH Pp|n i n' qs ps p s s' D IH Pp Hi Hn E Hk|n i n' qs ps s s' D IH Hi Hn E Hk|n qs ps s D IH|n qs ps i s D IH|n qs ps conn s D IH|n qs ps c s D IH].
  - split; [constructor|intros k []].
  - destruct (IH U) as (H & K). split; [constructor; assumption|exact K].
  - destruct IH as (H & K); [intros a b La Lb; apply U; lia|].
    assert (forall k, In k (keys_of (made_now s s')) -> k = draw G seed i /\ (i < n')%nat) as N.
    { intros k I. split; [eapply direct_key; try eassumption; apply draws_int64, R|]. apply Hk. intros F. rewrite F in I. destruct I. }
    split.
    + eapply hi_direct; [exact H|exact Pp|apply draws_int64, R|exact E|]. intros k I J. destruct (N k I) as (-> & Li). destruct (K _ J) as (j & Lj & Ej). assert (i = j) by (apply U; [lia|lia|exact Ej]). lia.
    + intros k I. rewrite (made_on _ _ _ _ _ E) in I. unfold keys_of in I. rewrite flat_map_app in I. apply in_app_or in I as [I|I].
      * destruct (K k I) as (j & Lj & Ej). exists j. split; [lia|exact Ej].
      * destruct (N k I) as (-> & Li). exists i. auto.
  - destruct IH as (H & K); [intros a b La Lb; apply U; lia|].
    assert (forall k, In k (keys_of (made_now s s')) -> k = draw G seed (i O) /\ (i O < n')%nat) as N.
    { intros k I. split; [eapply (sender_key _ _ _ _ (fun j => draw G seed (i j))); try eassumption; intros j; apply draws_int64, R|]. apply Hk. intros F. rewrite F in I. destruct I. }
    specialize (Hi O). split.
    + eapply hi_sender; [exact H|intros j; apply draws_int64, R|exact E|]. intros k I J. destruct (N k I) as (-> & Li). destruct (K _ J) as (j & Lj & Ej). assert (i O = j) by (apply U; [lia|lia|exact Ej]). lia.
    + intros k I. rewrite (made_on_sender _ _ _ _ E) in I. unfold keys_of in I. rewrite flat_map_app in I. apply in_app_or in I as [I|I].
      * destruct (K k I) as (j & Lj & Ej). exists j. split; [lia|exact Ej].
      * destruct (N k I) as (-> & Li). exists (i O). auto.
  - destruct (IH U) as (H & K). split; [constructor; assumption|]. intros k I. apply K. revert I. unfold net_write_sender. destruct (x_uout s) as [|cd more]; [auto|].
    rewrite (proj1 (proj2 (proj2 (proj2 (put_rest _ _))))). auto.
  - destruct (IH U) as (H & K). split; [constructor; assumption|]. intros k I. apply K. revert I. unfold net_write_job. destruct (nth_error (x_jobs s) i) as [[|cd more]|]; auto.
    rewrite (proj1 (proj2 (proj2 (proj2 (put_rest _ _))))). auto.
  - destruct (IH U) as (H & K). split; [constructor; assumption|exact K].
  - destruct (IH U) as (H & K). split; [constructor; assumption|]. intros k I. apply K. revert I. unfold net_close. destruct (c <? current s)%nat; [|auto]. destruct (nth_error (x_clients s) c); auto.
Qed.

(** Two agents started in the same second are given the same keys, whatever the source: transaction ids of different services collide. *)
Theorem C79_processes_refuted G now1 now2 calls1 calls2 sched1 sched2 :
  in_second now1 = in_second now2 ->
  let s1 := key_run sched1 (key_init G now1 calls1) in let s2 := key_run sched2 (key_init G now2 calls2) in
  (length (k_out s1) <= length (k_out s2))%nat -> map snd (k_out s1) = firstn (length (k_out s1)) (map snd (k_out s2)).
Proof.
  intros E. cbv zeta. rewrite !C79_each_draw_once, E. intros L. rewrite firstn_map. f_equal.
  assert (forall a n m, (n <= m)%nat -> firstn n (seq a m) = seq a n) as K; [|symmetry; apply K, L].
  intros a n. revert a. induction n as [|n IH]; intros a m H; [reflexivity|]. destruct m as [|m]; [lia|]. cbn [seq firstn]. f_equal. apply IH. lia.
Qed.

(** A source (a linear congruential one), two callers with two calls each, interleaved, and a second process half a second later with one call. *)
Definition lcg : generator := mkGen Z (fun seed => seed mod 2 ^ 63) (fun st => let st' := (st * 6364136223846793005 + 1442695040888963407) mod 2 ^ 63 in (st', st')).
Definition some_time : Z := 1700000000100000000.
Example C79_case :
  let s := key_run [0; 1; 0; 1; 0; 0; 1; 0; 1; 1; 0; 1; 0; 0; 0; 0; 1; 1; 1; 1]%nat (key_init lcg some_time [2; 2]%nat) in
  let s2 := key_run [0; 0; 0; 0]%nat (key_init lcg (some_time + 500000000) [1]%nat) in
  int63 lcg /\ unrepeated lcg (in_second some_time) (length (k_out s)) /\ map fst (k_out s) = [0; 1; 0; 1]%nat /\ key_done s /\
  in_second some_time = in_second (some_time + 500000000) /\ map snd (k_out s2) = [nth 0 (map snd (k_out s)) 0].
Proof.
  cbv zeta. split; [intros st; apply Z.mod_pos_bound; reflexivity|]. split.
  - replace (length _) with 4%nat by (vm_compute; reflexivity). intros i j Hi Hj.
    assert (forall k, (k < 4)%nat -> k = 0 \/ k = 1 \/ k = 2 \/ k = 3)%nat as K by (intros; lia).
    destruct (K i Hi) as [->|[->|[->| ->]]], (K j Hj) as [->|[->|[->| ->]]]; intros E; try reflexivity; exfalso; vm_compute in E; discriminate.
  - split; [vm_compute; reflexivity|]. split.
    { unfold key_done. match goal with |- Forall _ ?l => assert (forallb (fun p => match p with KWant O => true | _ => false end) l = true) as F by (vm_compute; reflexivity); generalize dependent l end.
      intros l F. apply Forall_forall. intros p I. rewrite forallb_forall in F. specialize (F p I). destruct p as [[|n]|n|n v st|n v]; try discriminate. reflexivity. }
    split; vm_compute; reflexivity.
Qed.

(** Two texts sent directly, each cut in pieces, with the first two numbers of the source. *)
Example C79_fragment_case : exists s, drawn lcg 5 8 16 2 [] [demo_text 1; demo_text 2] s /\ unrepeated lcg 5 2 /\ (length (keys_of (x_made s)) > 2)%nat.
Proof.
  destruct (net_direct 16 (draw lcg 5 0) (demo_text 1) (net0 true)) as [s1|] eqn:E1; [|exfalso; revert E1; vm_compute; discriminate].
  destruct (net_direct 16 (draw lcg 5 1) (demo_text 2) s1) as [s2|] eqn:E2; [|exfalso; revert E2; vm_compute in E1; injection E1 as <-; vm_compute; discriminate].
  exists s2. split; [|split].
  - eapply (dr_direct lcg 5 8 16 1 1 2 [] [demo_text 1]); [|apply proper_ok; vm_compute; reflexivity|lia|lia|exact E2|lia].
    eapply (dr_direct lcg 5 8 16 0 0 1 [] [] (demo_text 1)); [apply (dr_start _ _ _ _ true)|apply proper_ok; vm_compute; reflexivity|lia|lia|exact E1|lia].
  - intros i j Hi Hj. assert (forall k, (k < 2)%nat -> k = 0 \/ k = 1)%nat as K by (intros; lia).
    destruct (K i Hi) as [->| ->], (K j Hj) as [->| ->]; intros E; try reflexivity; exfalso; vm_compute in E; discriminate.
  - assert ((2 <? length (keys_of (x_made s2)))%nat = true) as X by (vm_compute in E1; injection E1 as <-; vm_compute in E2; injection E2 as <-; vm_compute; reflexivity).
    apply Nat.ltb_lt in X. lia.
Qed.

Print Assumptions C79_each_draw_once.
Print Assumptions C79_different_partial.
Print Assumptions C79_range.
Print Assumptions C79_no_deadlock.
Print Assumptions C79_fragment_keys.
Print Assumptions C79_processes_refuted.
