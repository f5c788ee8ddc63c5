From Verif Require Import GoInt M_OutX L_Codec S_Wire S_Value S_Packs M_Steps S_Steps M_Packs L_Packs L_Udp M_Profile S_Profile.
From Coq Require Import ZifyBool.

(* ------------------------------------------------------------------ *)
(** * Batches *)

Section Batches.
Context {A : Type}.
Implicit Type l : list A.

Lemma bulk_loop_concat (bulk : Z) l n : 0 < bulk -> forall i, 0 <= i -> (i + Z.of_nat n) * bulk <= zlen l ->
  concat (bulk_loop bulk l i n) = slice (i * bulk) ((i + Z.of_nat n) * bulk) l /\
  Forall (fun g => zlen g = bulk) (bulk_loop bulk l i n).
Proof.
  intros Hb. induction n as [|n IH]; intros i Hi Hl.
  - cbn [bulk_loop concat]. split; [|constructor]. unfold slice. replace ((i + Z.of_nat 0) * bulk - i * bulk) with 0 by lia. reflexivity.
  - cbn [bulk_loop concat]. destruct (IH (i + 1)) as (C & F); [lia|rewrite Nat2Z.inj_succ in Hl; lia|].
    rewrite C. assert (i * bulk + bulk <= zlen l) as Hle by nia. split.
    + unfold slice. replace (Z.to_nat (i * bulk + bulk - i * bulk)) with (Z.to_nat bulk) by lia.
      replace (Z.to_nat ((i + 1) * bulk)) with (Z.to_nat bulk + Z.to_nat (i * bulk))%nat by nia.
      rewrite <- skipn_skipn'. set (t := skipn (Z.to_nat (i * bulk)) l).
      replace (Z.to_nat ((i + Z.of_nat (S n)) * bulk - i * bulk)) with (Z.to_nat bulk + Z.to_nat ((i + 1 + Z.of_nat n) * bulk - (i + 1) * bulk))%nat by nia.
      rewrite <- (firstn_skipn (Z.to_nat bulk) t) at 3.
      rewrite firstn_app, firstn_firstn.
      assert (length (firstn (Z.to_nat bulk) t) = Z.to_nat bulk) as Lt.
      { rewrite firstn_length. unfold t. rewrite skipn_length. unfold zlen in Hle. lia. }
      rewrite Lt. f_equal; [f_equal; lia|f_equal; lia].
    + constructor; [|exact F]. unfold slice, zlen in *. rewrite firstn_length, skipn_length. lia.
Qed.

Lemma send_groups_ok (bulk : Z) l : 1 <= bulk -> exists gs, send_groups bulk l = Some gs /\ concat gs = l /\
  Forall (fun g => 1 <= zlen g <= bulk) gs /\
  (forall g, In g (removelast gs) -> zlen g = bulk).
Proof.
  intros Hb. unfold send_groups. destruct l as [|x l0]; [exists []; split; [reflexivity|]; split; [reflexivity|]; split; [constructor|intros g []]|].
  set (l := x :: l0). assert (1 <= zlen l) as Hn by (unfold l; rewrite zlen_cons; pose proof (zlen_nonneg l0); lia).
  destruct (Z.eqb_spec bulk 0); [lia|]. rewrite Z.quot_div_nonneg, Z.rem_mod_nonneg by lia.
  pose proof (Z.div_mod (zlen l) bulk ltac:(lia)) as Hdm. pose proof (Z.mod_pos_bound (zlen l) bulk ltac:(lia)) as Hm.
  pose proof (Z.div_pos (zlen l) bulk ltac:(lia) ltac:(lia)) as Hd.
  destruct (Z.eqb_spec (zlen l / bulk) 0) as [E|E].
  - exists [l]. split; [reflexivity|]. split; [cbn [concat]; rewrite app_nil_r; reflexivity|]. split; [constructor; [nia|constructor]|intros g []].
  - destruct (bulk_loop_concat bulk l (Z.to_nat (zlen l / bulk)) ltac:(lia) 0 ltac:(lia)) as (C & F); [rewrite Z2Nat.id by lia; nia|].
    rewrite Z2Nat.id in C by lia. cbn [Z.mul Z.add] in C.
    eexists. split; [reflexivity|]. set (q := zlen l / bulk) in *. set (r := zlen l mod bulk) in *.
    assert (Forall (fun g => 1 <= zlen g <= bulk) (bulk_loop bulk l 0 (Z.to_nat q))) as F'.
    { eapply Forall_impl; [|exact F]. cbn beta. intros g Hg. lia. }
    destruct (Z.ltb_spec 0 r).
    + rewrite concat_app, C. cbn [concat]. rewrite app_nil_r. split; [|split].
      * unfold slice. cbn [skipn Z.to_nat]. rewrite Z.sub_0_r. rewrite <- (firstn_skipn (Z.to_nat (q * bulk)) l) at 3. f_equal.
        apply firstn_all2. rewrite skipn_length. unfold zlen in *. nia.
      * apply Forall_app. split; [exact F'|]. constructor; [|constructor].
        unfold slice, zlen in *. rewrite firstn_length, skipn_length. nia.
      * intros g Hg. rewrite removelast_app in Hg by discriminate. cbn [removelast] in Hg. rewrite app_nil_r in Hg.
        rewrite Forall_forall in F. apply F. exact Hg.
    + rewrite app_nil_r, C. split; [|split].
      * unfold slice. cbn [skipn Z.to_nat]. apply firstn_all2. unfold zlen in *. nia.
      * exact F'.
      * intros g Hg. rewrite Forall_forall in F. apply F. clear -Hg. induction (bulk_loop bulk l 0 (Z.to_nat q)) as [|y gs IH]; [destruct Hg|].
        cbn [removelast] in Hg. destruct gs; [destruct Hg|]. destruct Hg as [->|Hg]; [left; reflexivity|right; apply IH; exact Hg].
Qed.
End Batches.

(* ------------------------------------------------------------------ *)
(** * Step links *)

Lemma set_links_single p i st : step_single (set_links p i st) = mk_single p i (ss_StartTime (step_single st)).
Proof. destruct st; reflexivity. Qed.
Lemma strip_set_links p i st : strip (set_links p i st) = strip st.
Proof. destruct st; reflexivity. Qed.
Lemma strip_view st : strip (view_step st) = view_step (strip st).
Proof. destruct st; reflexivity. Qed.
Lemma set_links_go p i st : in_int32 p -> in_int32 i -> go_step st = true -> go_step (set_links p i st) = true.
Proof.
  intros Hp Hi H. unfold go_step in *. rewrite set_links_single. apply andb_prop in H. destruct H as (H1 & H2).
  apply andb_true_intro. split.
  - unfold go_single, is_i32 in *. cbn [ss_Parent ss_Index ss_StartTime]. unfold in_int32 in *. lia.
  - destruct st; exact H2.
Qed.
Lemma set_links_dump p i st : is_dump (set_links p i st) = is_dump st.
Proof. destruct st; reflexivity. Qed.

Definition ok_step (st : step) : Prop := go_step st = true /\ is_dump st = false.
Lemma go_links st : go_step st = true -> in_int32 (get_parent st) /\ in_int32 (get_index st).
Proof.
  unfold go_step, go_single, get_parent, get_index, is_i32, in_int32. intros H. apply andb_prop in H. destruct H as (H & _). lia.
Qed.
Lemma set_links_ok p i st : in_int32 p -> in_int32 i -> ok_step st -> ok_step (set_links p i st).
Proof. intros Hp Hi (G & D). split; [apply set_links_go; assumption|rewrite set_links_dump; exact D]. Qed.

Lemma heap_set_nth heap a st b : nth_error (heap_set heap a st) b =
  if Nat.eqb a b then match nth_error heap a with Some _ => Some st | None => None end else nth_error heap b.
Proof.
  revert a b. induction heap as [|x heap IH]; intros a b; cbn [heap_set].
  - destruct a, b; cbn; try reflexivity; destruct (Nat.eqb a b); reflexivity.
  - destruct a as [|a], b as [|b]; cbn [heap_set nth_error Nat.eqb]; try reflexivity. apply IH.
Qed.
Lemma heap_set_length heap a st : length (heap_set heap a st) = length heap.
Proof. revert a. induction heap as [|x heap IH]; intros a; [reflexivity|]. destruct a; cbn [heap_set length]; [reflexivity|]. rewrite IH. reflexivity. Qed.
Lemma heap_set_forall (P : step -> Prop) heap a st : Forall P heap -> P st -> Forall P (heap_set heap a st).
Proof.
  intros F Hs. revert a. induction F as [|x heap Hx F IH]; intros a; [constructor|].
  destruct a; cbn [heap_set]; constructor; auto.
Qed.

(* ------------------------------------------------------------------ *)
(** * The invariant. [gs]: contents of the packs sent, [B]: contents of the buffer, [fin]: finished steps. *)

Definition sum_len (l : list bytes) : Z := fold_right (fun b s => zlen b + s) 0 l.
Lemma sum_len_app a b : sum_len (a ++ b) = sum_len a + sum_len b.
Proof. induction a as [|x a IH]; [reflexivity|]. cbn [app sum_len fold_right]. fold (sum_len (a ++ b)). fold (sum_len a). lia. Qed.

Definition pack_data (g : list step) : bytes := steps_to_bytes (map Some g).

Record sent_inv (gs : list (list step)) (p : prof) : Prop := mkSent {
  si_packs : map pp_Profile (p_sent p) = map pack_data gs;
  si_nonempty : Forall (fun g => g <> []) gs;
  si_count : p_count p = zlen (concat gs);
  si_size : p_size p = sum_len (map pp_Profile (p_sent p)) }.

Record buf_inv (opened : list nat) (p : prof) : Prop := mkBuf {
  bi_len : zlen (p_buf p) < p_len p;
  bi_ok : Forall ok_step (p_heap p);
  bi_cur : in_int32 (p_cur p) /\ in_int32 (p_par p);
  bi_buf : forall a, In a (p_buf p) -> (a < length (p_heap p))%nat /\ ~ In a opened;
  bi_open : forall a, In a opened -> (a < length (p_heap p))%nat;
  bi_nodup : NoDup opened }.

Definition contents (heap : list step) (l : list nat) : list step :=
  flat_map (fun a => match nth_error heap a with Some st => [st] | None => [] end) l.

Lemma contents_deref heap l : (forall a, In a l -> (a < length heap)%nat) -> map (deref heap) l = map Some (contents heap l).
Proof.
  induction l as [|a l IH]; intros H; [reflexivity|]. cbn [map contents flat_map]. rewrite map_app. fold (contents heap l).
  rewrite <- IH by (intros b Hb; apply H; right; exact Hb). unfold deref at 1.
  destruct (nth_error heap a) eqn:E; [reflexivity|]. apply nth_error_None in E. specialize (H a (or_introl eq_refl)). lia.
Qed.
Lemma contents_length heap l : (forall a, In a l -> (a < length heap)%nat) -> length (contents heap l) = length l.
Proof. intros H. pose proof (f_equal (@length _) (contents_deref heap l H)) as E. rewrite !map_length in E. congruence. Qed.
Lemma contents_app heap l l' : contents heap (l ++ l') = contents heap l ++ contents heap l'.
Proof. unfold contents. rewrite flat_map_app. reflexivity. Qed.
Lemma contents_grow heap x l : (forall a, In a l -> (a < length heap)%nat) -> contents (heap ++ x) l = contents heap l.
Proof.
  intros H. unfold contents. induction l as [|a l IH]; [reflexivity|]. cbn [flat_map]. rewrite IH by (intros b Hb; apply H; right; exact Hb).
  rewrite nth_error_app1 by (apply H; left; reflexivity). reflexivity.
Qed.
Lemma contents_set heap a st l : ~ In a l -> contents (heap_set heap a st) l = contents heap l.
Proof.
  intros H. unfold contents. induction l as [|b l IH]; [reflexivity|]. cbn [flat_map]. rewrite IH by (intros Hb; apply H; right; exact Hb).
  rewrite heap_set_nth. destruct (Nat.eqb_spec a b) as [->|]; [exfalso; apply H; left; reflexivity|reflexivity].
Qed.
Lemma contents_ok heap l : Forall ok_step heap -> Forall ok_step (contents heap l).
Proof.
  intros F. apply Forall_forall. intros st H. apply in_flat_map in H. destruct H as (a & _ & Ha).
  destruct (nth_error heap a) as [x|] eqn:E; [|destruct Ha]. destruct Ha as [<-|[]]. rewrite Forall_forall in F. apply F. eapply nth_error_In. exact E.
Qed.

(** sending one group *)
Lemma send_profile0_sent e g p gs : g <> [] -> (forall a, In a g -> (a < length (p_heap p))%nat) -> sent_inv gs p ->
  let p' := send_profile0 e g p in
  sent_inv (gs ++ [contents (p_heap p) g]) p' /\
  p_heap p' = p_heap p /\ p_len p' = p_len p /\ p_buf p' = p_buf p /\ p_cur p' = p_cur p /\ p_par p' = p_par p /\
  exists pk, p_sent p' = p_sent p ++ [pk] /\ pp_Txid pk = e_txid e /\ pp_ObjHash pk = e_obj e /\ pp_Service pk = e_service e.
Proof.
  intros Hg Hlt [S1 S2 S3 S4]. unfold send_profile0. destruct g as [|a g0]; [congruence|]. set (g := a :: g0) in *.
  cbn zeta. split.
  - rewrite contents_deref by exact Hlt. constructor; cbn [p_sent p_count p_size].
    + rewrite !map_app, S1. reflexivity.
    + apply Forall_app. split; [exact S2|]. constructor; [|constructor]. intros H. apply (f_equal (@length _)) in H.
      rewrite contents_length in H by exact Hlt. discriminate H.
    + rewrite concat_app, zlen_app, S3. cbn [concat]. rewrite app_nil_r. unfold zlen at 2. unfold zlen at 3. rewrite contents_length by exact Hlt. reflexivity.
    + rewrite map_app, sum_len_app, S4. cbn [map pp_Profile sum_len fold_right]. lia.
  - cbn [p_heap p_len p_buf p_cur p_par p_sent]. repeat (split; [reflexivity|]). eexists. split; [reflexivity|]. repeat (split; [reflexivity|]). reflexivity.
Qed.

Lemma send_all_sent e gs0 : Forall (fun g : list nat => g <> []) gs0 -> forall p gs,
  (forall a, In a (concat gs0) -> (a < length (p_heap p))%nat) -> sent_inv gs p ->
  let p' := fold_left (fun p g => send_profile0 e g p) gs0 p in
  sent_inv (gs ++ map (contents (p_heap p)) gs0) p' /\
  p_heap p' = p_heap p /\ p_len p' = p_len p /\ p_buf p' = p_buf p /\ p_cur p' = p_cur p /\ p_par p' = p_par p /\
  exists pks, p_sent p' = p_sent p ++ pks /\ Forall (fun pk => pp_Txid pk = e_txid e /\ pp_ObjHash pk = e_obj e /\ pp_Service pk = e_service e) pks.
Proof.
  induction 1 as [|g gs0 Hg F IH]; intros p gs Hlt S.
  - cbn [fold_left map]. rewrite app_nil_r. repeat (split; [first [exact S|reflexivity]|]). exists []. rewrite app_nil_r. split; [reflexivity|constructor].
  - cbn [fold_left concat] in *. destruct (send_profile0_sent e g p gs Hg) as (S' & H1 & H2 & H3 & H4 & H5 & pk & Hk & T1 & T2 & T3);
      [intros a Ha; apply Hlt, in_or_app; left; exact Ha|exact S|].
    destruct (IH (send_profile0 e g p) (gs ++ [contents (p_heap p) g])) as (S'' & G1 & G2 & G3 & G4 & G5 & pks & Hks & T);
      [intros a Ha; rewrite H1; apply Hlt, in_or_app; right; exact Ha|exact S'|].
    rewrite H1 in S''. cbn zeta. split; [cbn [map]; rewrite <- app_assoc in S''; exact S''|].
    repeat (split; [congruence|]). exists (pk :: pks). split; [rewrite Hks, Hk, <- app_assoc; reflexivity|]. constructor; [auto|exact T].
Qed.

Lemma concat_contents heap gs : concat (map (contents heap) gs) = contents heap (concat gs).
Proof. induction gs as [|g gs IH]; [reflexivity|]. cbn [map concat]. rewrite contents_app, IH. reflexivity. Qed.

Lemma send_profile_sent e l p gs : 1 <= e_bulk e -> (forall a, In a l -> (a < length (p_heap p))%nat) -> sent_inv gs p ->
  exists p' new, send_profile e l p = Some p' /\ sent_inv (gs ++ new) p' /\ concat new = contents (p_heap p) l /\
  Forall (fun g => 1 <= zlen g <= e_bulk e) new /\
  p_heap p' = p_heap p /\ p_len p' = p_len p /\ p_buf p' = p_buf p /\ p_cur p' = p_cur p /\ p_par p' = p_par p /\
  exists pks, p_sent p' = p_sent p ++ pks /\ Forall (fun pk => pp_Txid pk = e_txid e /\ pp_ObjHash pk = e_obj e /\ pp_Service pk = e_service e) pks.
Proof.
  intros Hb Hlt S. unfold send_profile. destruct (send_groups_ok (e_bulk e) l Hb) as (gs0 & -> & C & F & _).
  assert (Forall (fun g : list nat => g <> []) gs0) as Hne.
  { eapply Forall_impl; [|exact F]. cbn beta. intros g Hg ->. unfold zlen in Hg. cbn in Hg. lia. }
  destruct (send_all_sent e gs0 Hne p gs) as (S' & R); [intros a Ha; apply Hlt; rewrite <- C; exact Ha|exact S|].
  exists (fold_left (fun p g => send_profile0 e g p) gs0 p), (map (contents (p_heap p)) gs0). split; [reflexivity|]. split; [exact S'|].
  split; [rewrite concat_contents, C; reflexivity|]. split; [|exact R].
  apply Forall_forall. intros g Hg. apply in_map_iff in Hg. destruct Hg as (g0 & <- & Hg0).
  rewrite Forall_forall in F. specialize (F g0 Hg0). unfold zlen in *. rewrite contents_length; [exact F|].
  intros a Ha. apply Hlt. rewrite <- C. apply in_concat. exists g0. split; assumption.
Qed.

(** one step enters the buffer *)
Lemma process_inv e a p gs opened : good_env e -> sent_inv gs p -> buf_inv opened p -> (a < length (p_heap p))%nat -> ~ In a opened ->
  exists p' new, process e a p = Some p' /\ sent_inv (gs ++ new) p' /\ buf_inv opened p' /\
    Forall (fun g => 1 <= zlen g <= e_bulk e) new /\
    concat new ++ contents (p_heap p) (p_buf p') = contents (p_heap p) (p_buf p ++ [a]) /\
    p_heap p' = p_heap p /\ p_cur p' = p_cur p /\ p_par p' = p_par p /\
    exists pks, p_sent p' = p_sent p ++ pks /\ Forall (fun pk => pp_Txid pk = e_txid e /\ pp_ObjHash pk = e_obj e /\ pp_Service pk = e_service e) pks.
Proof.
  intros (Hk & Hb) S [B1 B2 B3 B4 B5 B6] Ha Hna. unfold process.
  destruct (Z.leb_spec (p_len p) (zlen (p_buf p))); [lia|].
  destruct (Z.leb_spec (p_len p) (zlen (p_buf p ++ [a]))) as [Hfull|Hroom].
  - destruct (Z.ltb_spec (e_keep e) 0); [lia|].
    set (q := mkProf (p_heap p) (e_keep e) [] (p_cur p) (p_par p) (p_count p) (p_size p) (p_sent p)).
    assert (sent_inv gs q) as Sq by (destruct S; constructor; assumption).
    destruct (send_profile_sent e (p_buf p ++ [a]) q gs Hb) as (p' & new & E & S' & C & F & H1 & H2 & H3 & H4 & H5 & pks & Hks & T); [|exact Sq|].
    { intros b Hin. apply in_app_or in Hin. destruct Hin as [Hin|[<-|[]]]; [apply B4; exact Hin|exact Ha]. }
    exists p', new. split; [exact E|]. split; [exact S'|]. cbn [q p_heap p_len p_buf p_cur p_par p_sent] in *. split.
    + constructor; rewrite ?H1, ?H2, ?H3, ?H4, ?H5; try assumption; [unfold zlen; cbn [length]; lia|intros b []].
    + split; [exact F|]. split; [rewrite H3, app_nil_r; exact C|]. repeat (split; [assumption|]). exists pks. split; assumption.
  - exists (mkProf (p_heap p) (p_len p) (p_buf p ++ [a]) (p_cur p) (p_par p) (p_count p) (p_size p) (p_sent p)), [].
    split; [reflexivity|]. split; [rewrite app_nil_r; destruct S; constructor; assumption|]. split.
    + constructor; cbn [p_heap p_len p_buf p_cur p_par]; try assumption.
      intros b Hin. apply in_app_or in Hin. destruct Hin as [Hin|[<-|[]]]; [apply B4; exact Hin|split; [exact Ha|exact Hna]].
    + split; [constructor|]. cbn [concat app p_buf p_heap p_cur p_par p_sent]. repeat (split; [reflexivity|]). exists []. rewrite app_nil_r. split; [reflexivity|constructor].
Qed.

Definition tagged (tx : Z) (pk : profile_pack) : Prop := pp_Txid pk = tx.

Record inv (B tx : Z) (opened : list nat) (dn : list nat) (fin : list step) (p : prof) : Prop := mkInv {
  iv_gs : exists gs, sent_inv gs p /\ Forall (fun g => 1 <= zlen g <= B) gs /\
            concat gs ++ contents (p_heap p) (p_buf p) = contents (p_heap p) dn;
  iv_fin : map strip (contents (p_heap p) dn) = map strip fin;
  iv_dn : forall a, In a dn -> (a < length (p_heap p))%nat /\ ~ In a opened;
  iv_buf : buf_inv opened p;
  iv_tag : Forall (tagged tx) (p_sent p) }.

Definition op_ok (B tx : Z) (eo : penv * prof_op) : Prop :=
  good_env (fst eo) /\ e_bulk (fst eo) <= B /\ e_txid (fst eo) = tx /\
    match snd eo with OPush st | OPop _ st | OAdd st => ok_step st end.

Lemma int32_in z : in_int32 (int32 z).
Proof. apply int32_range. Qed.

Lemma remove_notin (a b : nat) l : In b (remove Nat.eq_dec a l) <-> In b l /\ b <> a.
Proof. split; [apply in_remove|intros (H1 & H2); apply in_in_remove; assumption]. Qed.
Lemma remove_nodup (a : nat) l : NoDup l -> NoDup (remove Nat.eq_dec a l).
Proof.
  induction 1 as [|x l Hn Hd IH]; [constructor|]. cbn [remove]. destruct (Nat.eq_dec a x); [assumption|].
  constructor; [|assumption]. rewrite remove_notin. intuition.
Qed.

Lemma process_step B tx opened dn fin st e a p : good_env e -> e_bulk e <= B -> e_txid e = tx ->
  inv B tx opened dn fin p -> (a < length (p_heap p))%nat -> ~ In a opened ->
  option_map strip (nth_error (p_heap p) a) = Some (strip st) ->
  exists p', process e a p = Some p' /\ inv B tx opened (dn ++ [a]) (fin ++ [st]) p' /\
    p_heap p' = p_heap p /\ p_cur p' = p_cur p /\ p_par p' = p_par p.
Proof.
  intros He HB Ht [(gs & S & F & M) Fi Dn Bi Tg] Ha Hna Hs.
  destruct (process_inv e a p gs opened He S Bi Ha Hna) as (p' & new & E & S' & Bi' & F' & C & H1 & H2 & H3 & pks & Hks & T).
  exists p'. split; [exact E|]. split; [|auto]. constructor.
  - exists (gs ++ new). split; [exact S'|]. split.
    + apply Forall_app. split; [exact F|]. eapply Forall_impl; [|exact F']. cbn beta. intros g Hg. lia.
    + rewrite concat_app, H1, <- app_assoc, C, !contents_app, app_assoc, M. reflexivity.
  - rewrite H1, contents_app, !map_app, Fi. f_equal. unfold contents. cbn [flat_map].
    destruct (nth_error (p_heap p) a) as [x|]; [|discriminate Hs]. cbn in Hs. injection Hs as Hs. cbn [app map]. rewrite Hs. reflexivity.
  - rewrite H1. intros b Hb. apply in_app_or in Hb. destruct Hb as [Hb|[<-|[]]]; [apply Dn; exact Hb|split; assumption].
  - exact Bi'.
  - rewrite Hks. apply Forall_app. split; [exact Tg|]. eapply Forall_impl; [|exact T]. cbn beta. intros pk (T1 & T2 & _). unfold tagged. congruence.
Qed.

Lemma pr_step_inv B tx eo ops opened dn fin p : op_ok B tx eo -> inv B tx opened dn fin p ->
  each_ended_once (length (p_heap p)) opened (eo :: ops) ->
  exists p' opened', pr_step eo p = Some p' /\ inv B tx opened' (dn ++ finish_order (length (p_heap p)) [eo]) (fin ++ finished [eo]) p' /\
    each_ended_once (length (p_heap p')) opened' ops /\ length (p_heap p') = (length (p_heap p) + created [eo])%nat.
Proof.
  destruct eo as [e [st|a st|st]]; intros (He & HB & Ht & Hok) I W; cbn [fst snd] in *; unfold pr_step;
    cbn [fst snd finished finish_order created flat_map app each_ended_once] in *.
  - (* push *)
    destruct I as [(gs & S & F & M) Fi Dn Bi Tg]. destruct Bi as [B1 B2 B3 B4 B5 B6].
    exists (push st p), (length (p_heap p) :: opened). split; [reflexivity|]. rewrite !app_nil_r.
    assert (forall x, length (p_heap p ++ [x]) = Datatypes.S (length (p_heap p))) as Lh by (intros x; rewrite app_length; cbn [length]; lia). split; [|split].
    + constructor.
      * exists gs. split; [destruct S; constructor; assumption|]. split; [exact F|].
        cbn [push p_heap p_buf]. rewrite !contents_grow; [exact M|intros b Hb; apply Dn; exact Hb|intros b Hb; apply B4; exact Hb].
      * cbn [push p_heap]. rewrite contents_grow by (intros b Hb; apply Dn; exact Hb). exact Fi.
      * cbn [push p_heap]. rewrite Lh. intros b Hb. destruct (Dn b Hb). split; [lia|]. intros [<-|Hi]; [lia|contradiction].
      * constructor; cbn [push p_heap p_len p_buf p_cur p_par].
        -- exact B1.
        -- apply Forall_app. split; [exact B2|]. constructor; [|constructor]. apply set_links_ok; [apply B3|apply B3|exact Hok].
        -- split; [apply int32_in|apply B3].
        -- rewrite Lh. intros b Hb. destruct (B4 b Hb). split; [lia|]. intros [<-|Hi]; [lia|contradiction].
        -- rewrite Lh. intros b [<-|Hb]; [lia|]. specialize (B5 b Hb). lia.
        -- constructor; [|exact B6]. intros Hi. specialize (B5 _ Hi). lia.
      * exact Tg.
    + cbn [push p_heap]. rewrite Lh. exact W.
    + cbn [push p_heap]. rewrite Lh. lia.
  - (* pop *)
    destruct W as (Hin & W). pose proof (iv_buf _ _ _ _ _ _ I) as Bi. pose proof (bi_open _ _ Bi a Hin) as Hlt.
    unfold pop, deref. destruct (nth_error (p_heap p) a) as [old|] eqn:Eo; [|apply nth_error_None in Eo; lia].
    set (st' := set_links (get_parent old) (get_index old) st).
    set (q := mkProf (heap_set (p_heap p) a st') (p_len p) (p_buf p) (p_cur p) (get_parent old) (p_count p) (p_size p) (p_sent p)).
    assert (ok_step old) as Hold by (destruct Bi as [_ B2 _ _ _ _]; rewrite Forall_forall in B2; apply B2; eapply nth_error_In; exact Eo).
    pose proof (go_links old (proj1 Hold)) as (Lp & Li).
    assert (inv B tx (remove Nat.eq_dec a opened) dn fin q) as Iq.
    { destruct I as [(gs & S & F & M) Fi Dn _ Tg]. destruct Bi as [B1 B2 B3 B4 B5 B6].
      assert (~ In a dn) as Nd by (intros Hb; destruct (Dn a Hb); contradiction). constructor.
      - exists gs. split; [destruct S; constructor; assumption|]. split; [exact F|].
        cbn [q p_heap p_buf]. rewrite !contents_set; [exact M|exact Nd|intros Hb; destruct (B4 a Hb); contradiction].
      - cbn [q p_heap]. rewrite contents_set by exact Nd. exact Fi.
      - cbn [q p_heap]. rewrite heap_set_length. intros b Hb. destruct (Dn b Hb). split; [assumption|]. rewrite remove_notin. intuition.
      - constructor; cbn [q p_heap p_len p_buf p_cur p_par]; rewrite ?heap_set_length.
        + exact B1.
        + apply heap_set_forall; [exact B2|]. apply set_links_ok; assumption.
        + split; [apply B3|exact Lp].
        + intros b Hb. destruct (B4 b Hb). split; [assumption|]. rewrite remove_notin. intuition.
        + intros b Hb. apply remove_notin in Hb. apply B5. apply Hb.
        + apply remove_nodup; exact B6.
      - exact Tg. }
    destruct (process_step B tx _ dn fin st e a q He HB Ht Iq) as (p' & E & I' & H1 & _).
    + cbn [q p_heap]. rewrite heap_set_length. exact Hlt.
    + rewrite remove_notin. intuition.
    + cbn [q p_heap]. rewrite heap_set_nth, Nat.eqb_refl, Eo. cbn [option_map]. unfold st'. rewrite strip_set_links. reflexivity.
    + exists p', (remove Nat.eq_dec a opened). split; [exact E|]. split; [exact I'|]. rewrite H1. cbn [q p_heap]. rewrite heap_set_length. split; [exact W|lia].
  - (* add *)
    unfold add. set (st' := set_links (p_par p) (p_cur p) st).
    set (q := mkProf (p_heap p ++ [st']) (p_len p) (p_buf p) (int32 (p_cur p + 1)) (p_par p) (p_count p) (p_size p) (p_sent p)).
    assert (length (p_heap q) = Datatypes.S (length (p_heap p))) as Lq by (cbn [q p_heap]; rewrite app_length; cbn [length]; lia).
    assert (inv B tx opened dn fin q) as Iq.
    { destruct I as [(gs & S & F & M) Fi Dn [B1 B2 B3 B4 B5 B6] Tg]. constructor.
      - exists gs. split; [destruct S; constructor; assumption|]. split; [exact F|].
        cbn [q p_heap p_buf]. rewrite !contents_grow; [exact M|intros b Hb; apply Dn; exact Hb|intros b Hb; apply B4; exact Hb].
      - cbn [q p_heap]. rewrite contents_grow by (intros b Hb; apply Dn; exact Hb). exact Fi.
      - rewrite Lq. intros b Hb. destruct (Dn b Hb). split; [lia|assumption].
      - constructor; rewrite ?Lq; cbn [q p_heap p_len p_buf p_cur p_par].
        + exact B1.
        + apply Forall_app. split; [exact B2|]. constructor; [|constructor]. apply set_links_ok; [apply B3|apply B3|exact Hok].
        + split; [apply int32_in|apply B3].
        + intros b Hb. destruct (B4 b Hb). split; [lia|assumption].
        + intros b Hb. specialize (B5 b Hb). lia.
        + exact B6.
      - exact Tg. }
    destruct (process_step B tx opened dn fin st e (length (p_heap p)) q He HB Ht Iq) as (p' & E & I' & H1 & _).
    + lia.
    + intros Hi. pose proof (bi_open _ _ (iv_buf _ _ _ _ _ _ I) _ Hi). lia.
    + cbn [q p_heap]. rewrite nth_error_app2, Nat.sub_diag by lia. cbn [nth_error option_map]. unfold st'. rewrite strip_set_links. reflexivity.
    + exists p', opened. split; [exact E|]. split; [exact I'|]. rewrite H1, Lq. split; [exact W|lia].
Qed.

Lemma finish_order_cons n eo ops : finish_order n (eo :: ops) = finish_order n [eo] ++ finish_order (n + created [eo]) ops.
Proof. destruct eo as [e [st|a st|st]]; cbn [finish_order created app]; rewrite ?Nat.add_0_r; try reflexivity; f_equal; f_equal; lia. Qed.
Lemma finished_cons eo ops : finished (eo :: ops) = finished [eo] ++ finished ops.
Proof. unfold finished. cbn [flat_map]. rewrite app_nil_r. reflexivity. Qed.

Lemma pr_run_inv B tx ops : forall opened dn fin p, Forall (op_ok B tx) ops -> inv B tx opened dn fin p ->
  each_ended_once (length (p_heap p)) opened ops ->
  exists p' opened', pr_run ops p = Some p' /\ inv B tx opened' (dn ++ finish_order (length (p_heap p)) ops) (fin ++ finished ops) p'.
Proof.
  induction ops as [|eo ops IH]; intros opened dn fin p F I W.
  - exists p, opened. cbn [finished finish_order flat_map]. rewrite !app_nil_r. split; [reflexivity|exact I].
  - inversion F as [|? ? Ho Fs]; subst. destruct (pr_step_inv B tx eo ops opened dn fin p Ho I W) as (p1 & o1 & E1 & I1 & W1 & L1).
    destruct (IH o1 _ _ p1 Fs I1 W1) as (p' & o' & E' & I'). exists p', o'. cbn [pr_run]. rewrite E1. split; [exact E'|].
    rewrite finish_order_cons, finished_cons, !app_assoc, <- L1. exact I'.
Qed.

Lemma new_prof_inv B tx keep p : 1 <= keep -> new_prof keep = Some p -> inv B tx [] [] [] p /\ p_heap p = [].
Proof.
  intros Hk. unfold new_prof. destruct (Z.ltb_spec keep 0); [lia|]. intros [= <-]. split; [|reflexivity]. constructor.
  - exists []. split; [constructor; [reflexivity|constructor|reflexivity|reflexivity]|]. split; [constructor|reflexivity].
  - reflexivity.
  - intros a [].
  - constructor; cbn.
    + unfold zlen; cbn; lia.
    + constructor.
    + unfold in_int32. lia.
    + intros a [].
    + intros a [].
    + constructor.
  - constructor.
Qed.

(** Close(true) empties the buffer *)
Lemma close_inv B tx opened dn fin e p : good_env e -> e_bulk e <= B -> e_txid e = tx -> inv B tx opened dn fin p ->
  exists p' gs, close e true p = Some p' /\ sent_inv gs p' /\ Forall (fun g => 1 <= zlen g <= B) gs /\
    p_heap p' = p_heap p /\ concat gs = contents (p_heap p) dn /\ Forall (tagged tx) (p_sent p').
Proof.
  intros (Hk & Hb) HB Ht [(gs & S & F & M) Fi Dn [B1 B2 B3 B4 B5 B6] Tg]. unfold close. destruct (p_buf p) as [|a l] eqn:El.
  - exists p, gs. split; [reflexivity|]. split; [exact S|]. split; [exact F|]. split; [reflexivity|]. split; [|exact Tg]. unfold contents at 1 in M. cbn [flat_map] in M. rewrite app_nil_r in M. exact M.
  - rewrite <- El in *. destruct (send_profile_sent e (p_buf p) p gs Hb) as (p' & new & E & S' & C & F' & H1 & H2 & H3 & H4 & H5 & pks & Hks & T); [intros b Hin; apply B4; exact Hin|exact S|].
    exists p', (gs ++ new). split; [exact E|]. split; [exact S'|]. split; [|split; [exact H1|split]].
    + apply Forall_app. split; [exact F|]. eapply Forall_impl; [|exact F']. cbn beta. intros g Hg. lia.
    + rewrite concat_app, C. exact M.
    + rewrite Hks. apply Forall_app. split; [exact Tg|]. eapply Forall_impl; [|exact T]. cbn beta. intros pk (T1 & T2 & _). unfold tagged. congruence.
Qed.

(* ------------------------------------------------------------------ *)
(** * Links, for every sequence of calls that does not panic *)

Lemma send_profile0_frame e g p : let p' := send_profile0 e g p in p_heap p' = p_heap p /\ p_cur p' = p_cur p /\ p_par p' = p_par p.
Proof. unfold send_profile0. destruct g; repeat split. Qed.
Lemma send_profile_frame e l p p' : send_profile e l p = Some p' -> p_heap p' = p_heap p /\ p_cur p' = p_cur p /\ p_par p' = p_par p.
Proof.
  unfold send_profile. destruct (send_groups (e_bulk e) l) as [gs|]; [|discriminate]. intros [= <-]. revert p.
  induction gs as [|g gs IH]; intros p; [auto|]. cbn [fold_left]. destruct (IH (send_profile0 e g p)) as (A & B & C).
  destruct (send_profile0_frame e g p) as (A' & B' & C'). cbn zeta in *. intuition congruence.
Qed.
Lemma process_frame e a p p' : process e a p = Some p' -> p_heap p' = p_heap p /\ p_cur p' = p_cur p /\ p_par p' = p_par p.
Proof.
  unfold process. destruct (p_len p <=? zlen (p_buf p)); [discriminate|]. destruct (p_len p <=? _).
  - destruct (e_keep e <? 0); [discriminate|]. intros H. apply send_profile_frame in H. exact H.
  - intros [= <-]. auto.
Qed.

Definition links (st : step) : Z * Z := (get_parent st, get_index st).
Lemma links_set p i st : links (set_links p i st) = (p, i).
Proof. destruct st; reflexivity. Qed.
Lemma links_heap_set heap a old st : nth_error heap a = Some old -> links st = links old -> map links (heap_set heap a st) = map links heap.
Proof.
  revert a. induction heap as [|x heap IH]; intros [|a]; cbn [nth_error heap_set map]; try discriminate.
  - intros [= ->] ->. reflexivity.
  - intros H1 H2. rewrite (IH a H1 H2). reflexivity.
Qed.

(** indices: the n-th step started gets index n *)
Lemma run_indices ops : forall p p', pr_run ops p = Some p' ->
  (forall i st, nth_error (p_heap p) i = Some st -> get_index st = int32 (Z.of_nat i)) -> p_cur p = int32 (Z.of_nat (length (p_heap p))) ->
  forall i st, nth_error (p_heap p') i = Some st -> get_index st = int32 (Z.of_nat i).
Proof.
  induction ops as [|[e o] ops IH]; intros p p'; cbn [pr_run]; [intros [= <-]; auto|].
  intros R Hi Hc. destruct (pr_step (e, o) p) as [p1|] eqn:E; [|discriminate]. unfold pr_step in E. cbn [fst snd] in E.
  assert (forall x par i st, nth_error (p_heap p ++ [set_links par (p_cur p) x]) i = Some st -> get_index st = int32 (Z.of_nat i)) as Hnew.
  { intros x par i st. destruct (Nat.lt_ge_cases i (length (p_heap p))) as [Hlt|Hge].
    - rewrite nth_error_app1 by exact Hlt. apply Hi.
    - rewrite nth_error_app2 by exact Hge. destruct (i - length (p_heap p))%nat as [|k] eqn:Ek; [|destruct k; discriminate].
      cbn [nth_error]. intros [= <-]. unfold get_index. rewrite set_links_single. cbn [ss_Index]. rewrite Hc. f_equal. lia. }
  assert (int32 (p_cur p + 1) = int32 (Z.of_nat (length (p_heap p) + 1))) as Hc1.
  { rewrite Hc, int32_plus_l. f_equal. lia. }
  destruct o as [st|a st|st].
  - injection E as <-. apply (IH _ _ R); cbn [push p_heap p_cur]; [intros; eapply Hnew; eassumption|]. rewrite app_length. exact Hc1.
  - unfold pop, deref in E. destruct (nth_error (p_heap p) a) as [old|] eqn:Eo; [|injection E as <-; exact (IH _ _ R Hi Hc)].
    apply process_frame in E. destruct E as (E1 & E2 & E3). cbn [p_heap p_cur p_par] in *. apply (IH _ _ R).
    + rewrite E1. intros i x. rewrite heap_set_nth. destruct (Nat.eqb_spec a i) as [<-|]; [|apply Hi].
      rewrite Eo. intros [= <-]. rewrite <- (Hi a old Eo). unfold get_index. rewrite set_links_single. reflexivity.
    + rewrite E1, E2, heap_set_length. exact Hc.
  - unfold add in E. apply process_frame in E. destruct E as (E1 & E2 & E3). cbn [p_heap p_cur p_par] in *. apply (IH _ _ R).
    + rewrite E1. intros i x. apply Hnew.
    + rewrite E1, E2, app_length. exact Hc1.
Qed.

Definition top_parent (opened : list nat) : Z := match opened with a :: _ => Z.of_nat a | [] => 0 end.
(** the stack's methods have the stack below them as parent *)
Fixpoint stack_ok (heap : list step) (opened : list nat) : Prop :=
  match opened with
  | [] => True
  | a :: rest => option_map links (nth_error heap a) = Some (top_parent rest, Z.of_nat a) /\ stack_ok heap rest
  end.
Lemma stack_ok_links heap heap' opened : map links heap' = map links heap -> stack_ok heap opened -> stack_ok heap' opened.
Proof.
  intros H. induction opened as [|a opened IH]; [auto|]. cbn [stack_ok]. intros (H1 & H2). split; [|auto].
  rewrite <- nth_error_map in *. rewrite H. exact H1.
Qed.
Lemma stack_ok_grow heap x opened : stack_ok heap opened -> stack_ok (heap ++ [x]) opened.
Proof.
  induction opened as [|a opened IH]; [auto|]. cbn [stack_ok]. intros (H1 & H2). split; [|auto].
  destruct (nth_error heap a) as [y|] eqn:E; [|discriminate]. rewrite nth_error_app1, E; [exact H1|].
  apply nth_error_Some. congruence.
Qed.

Lemma int32_small z : 0 <= z <= 2147483647 -> int32 z = z.
Proof. intros H. apply int32_id. unfold in_int32. lia. Qed.

Lemma run_parents ops : forall opened p p', pr_run ops p = Some p' -> well_nested (length (p_heap p)) opened ops ->
  stack_ok (p_heap p) opened -> p_cur p = Z.of_nat (length (p_heap p)) -> p_par p = top_parent opened ->
  Z.of_nat (length (p_heap p) + created ops) <= 2147483647 ->
  map links (p_heap p') = map links (p_heap p) ++
    combine (map (fun x => match x with Some a => Z.of_nat a | None => 0 end) (enclosing (length (p_heap p)) opened ops))
            (map Z.of_nat (seq (length (p_heap p)) (created ops))).
Proof.
  induction ops as [|[e o] ops IH]; intros opened p p'; cbn [pr_run].
  - intros [= <-] _ _ _ _ _. cbn [enclosing created map combine]. rewrite app_nil_r. reflexivity.
  - intros R W So Hc Hp Hsz. destruct (pr_step (e, o) p) as [p1|] eqn:E; [|discriminate]. unfold pr_step in E. cbn [fst snd] in E.
    destruct o as [st|a st|st]; cbn [well_nested enclosing created] in *.
    + injection E as <-. specialize (IH (length (p_heap p) :: opened) _ _ R). cbn [push p_heap p_cur p_par] in IH.
      rewrite app_length in IH. cbn [length] in IH. rewrite Nat.add_1_r in IH. rewrite IH.
      * rewrite map_app, <- app_assoc. f_equal. cbn [seq map app combine]. f_equal. rewrite links_set, Hp, Hc. f_equal.
        destruct opened; reflexivity.
      * exact W.
      * cbn [stack_ok]. split; [|apply stack_ok_grow; exact So]. rewrite nth_error_app2, Nat.sub_diag by lia. cbn [nth_error option_map].
        rewrite links_set, Hp, Hc. reflexivity.
      * rewrite Hc. rewrite int32_small by lia. lia.
      * exact Hc.
      * lia.
    + destruct opened as [|b opened]; [destruct W|]. destruct W as (-> & W). cbn [tl]. destruct So as (So1 & So).
      unfold pop, deref in E. destruct (nth_error (p_heap p) b) as [old|] eqn:Eo; [|discriminate So1].
      cbn [option_map] in So1. injection So1 as Sp Si.
      apply process_frame in E. destruct E as (E1 & E2 & E3). cbn [p_heap p_cur p_par] in *.
      assert (map links (p_heap p1) = map links (p_heap p)) as El.
      { rewrite E1. eapply links_heap_set; [exact Eo|]. rewrite links_set. reflexivity. }
      assert (length (p_heap p1) = length (p_heap p)) as Ln by (rewrite E1; apply heap_set_length).
      specialize (IH opened _ _ R). rewrite Ln in IH. rewrite IH.
      * rewrite El. reflexivity.
      * exact W.
      * eapply stack_ok_links; eassumption.
      * congruence.
      * congruence.
      * exact Hsz.
    + unfold add in E. apply process_frame in E. destruct E as (E1 & E2 & E3). cbn [p_heap p_cur p_par] in *.
      specialize (IH opened _ _ R). rewrite E1, app_length in IH. cbn [length] in IH. rewrite Nat.add_1_r in IH. rewrite IH.
      * rewrite map_app, <- app_assoc. f_equal. cbn [seq map app combine]. f_equal. rewrite links_set, Hp, Hc. f_equal.
        destruct opened; reflexivity.
      * exact W.
      * apply stack_ok_grow; exact So.
      * rewrite E2, Hc. rewrite int32_small by lia. lia.
      * congruence.
      * lia.
Qed.

Lemma sent_decodes gs p : sent_inv gs p -> Forall ok_step (concat gs) ->
  map (fun pk => decode_profile (pp_Profile pk)) (p_sent p) = map Some (map (map view_step) gs).
Proof.
  intros [S1 _ _ _] O. rewrite <- (map_map pp_Profile decode_profile), S1. clear S1. rewrite !map_map.
  induction gs as [|g gs IH]; [reflexivity|]. cbn [concat] in O. apply Forall_app in O. destruct O as (O1 & O2).
  cbn [map]. rewrite (IH O2). f_equal. unfold pack_data. rewrite profile_decodes.
  - f_equal. f_equal. clear. induction g as [|x g IH]; [reflexivity|]. cbn [map present]. rewrite IH. reflexivity.
  - rewrite Forall_map. eapply Forall_impl; [|exact O1]. intros a H. exact H.
Qed.

Lemma bulk_bound (ops : list (penv * prof_op)) (b : Z) : exists B, b <= B /\ Forall (fun eo => e_bulk (fst eo) <= B) ops.
Proof.
  induction ops as [|o ops (B & H1 & H2)]; [exists b; split; [lia|constructor]|]. exists (Z.max B (e_bulk (fst o))). split; [lia|].
  constructor; [lia|]. eapply Forall_impl; [|exact H2]. cbn beta. intros x Hx. lia.
Qed.

Lemma enclosing_earlier ops : forall n opened i a, Forall (fun b => (b < n)%nat) opened ->
  nth_error (enclosing n opened ops) i = Some (Some a) -> (a < n + i)%nat.
Proof.
  assert (forall n (opened : list nat) a, Forall (fun b => (b < n)%nat) opened -> hd_error opened = Some a -> (a < n)%nat) as Hh.
  { intros n [|b l] a F; cbn [hd_error]; [discriminate|]. intros [= <-]. inversion F; assumption. }
  assert (forall n (opened : list nat), Forall (fun b => (b < n)%nat) opened -> Forall (fun b => (b < S n)%nat) opened) as Hs.
  { intros n opened F. eapply Forall_impl; [|exact F]. cbn beta. lia. }
  induction ops as [|[e [st|b st|st]] ops IH]; intros n opened i a F; cbn [enclosing]; [destruct i; discriminate| | |].
  - destruct i as [|i]; cbn [nth_error]; [intros [= H]; rewrite Nat.add_0_r; eapply Hh; eassumption|].
    intros H. apply IH in H; [lia|]. constructor; [lia|apply Hs; exact F].
  - intros H. apply IH in H; [exact H|]. destruct opened; [constructor|]. inversion F; assumption.
  - destruct i as [|i]; cbn [nth_error]; [intros [= H]; rewrite Nat.add_0_r; eapply Hh; eassumption|].
    intros H. apply IH in H; [lia|]. apply Hs; exact F.
Qed.
Lemma enclosing_length ops : forall n opened, length (enclosing n opened ops) = created ops.
Proof. induction ops as [|[e [st|b st|st]] ops IH]; intros n opened; cbn [enclosing created length]; rewrite ?IH; reflexivity. Qed.

Lemma nested_once ops : forall n opened, Forall (fun b => (b < n)%nat) opened -> NoDup opened -> well_nested n opened ops -> each_ended_once n opened ops.
Proof.
  assert (forall n (opened : list nat), Forall (fun b => (b < n)%nat) opened -> Forall (fun b => (b < S n)%nat) opened) as Hs.
  { intros n opened F. eapply Forall_impl; [|exact F]. cbn beta. lia. }
  induction ops as [|[e [st|b st|st]] ops IH]; intros n opened F N; cbn [well_nested each_ended_once]; [auto| | |].
  - apply IH; [constructor; [lia|apply Hs; exact F]|]. constructor; [|exact N]. intros Hi. rewrite Forall_forall in F. specialize (F n Hi). lia.
  - destruct opened as [|c opened]; [intros []|]. intros (-> & W). split; [left; reflexivity|].
    inversion F; subst. inversion N; subst. cbn [remove]. destruct (Nat.eq_dec c c); [|congruence]. rewrite notin_remove by assumption. apply IH; assumption.
  - apply IH; [apply Hs; exact F|exact N].
Qed.
