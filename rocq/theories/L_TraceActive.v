(** Counting active services. *)
From Verif Require Import GoInt M_Util M_Hash M_StrMatch M_Packs M_Steps M_Cache L_Cache M_Text M_Sampler M_Profile L_Profile S_Profile M_Trace L_Trace L_TraceRel S_Trace L_TraceInv L_TraceStart L_TraceSafe.
From Coq Require Import ZifyBool Permutation.

Lemma discard_error n a x : x_Error x <> 0 -> discard_of n a x = DISCARD_NONE.
Proof. intros H. unfold discard_of, find_xlog_discard. destruct (Z.eqb_spec (x_Error x) 0); [contradiction|cbn [negb]; destruct (is_pattern _ _ _); reflexivity]. Qed.

Definition stuck_msg : gostring := of_string "This stuck service currently may running, not finished!".
Lemma stuck_hash : text_hash stuck_msg <> 0.
Proof. vm_compute. discriminate. Qed.

(** a stuck service is closed with an error and reported *)
Lemma end_stuck_spec n h a x : good n -> cf_stuck_remove (n_conf n) = true -> nth_error (a_ctx a) h = Some x -> x_Closed x = false -> room (x_Profile x) ->
  exists b y p el, end_stuck n h a = (b, Some tt) /\ a_ctx b = list_set (a_ctx a) h y /\ x_Closed y = true /\ x_Error y <> 0 /\
    (x_Error x <> 0 -> x_Error y = x_Error x) /\ x_Txid y = x_Txid x /\
    a_log b = a_log a ++ [EvMeter h el true; EvXlog h p] /\ xl_Txid p = x_Txid x /\ xl_Error p = x_Error y.
Proof.
  intros G Hr E C R. unfold end_stuck. rewrite Hr. pose proof stuck_hash as SH. unfold stuck_msg in SH.
  set (sm := of_string "This stuck service currently may running, not finished!") in *. clearbody sm.
  set (hm := of_string "Service currently may running, not finished!"). clearbody hm.
  set (m := bind _ _).
  enough (exists b y p el, m a = (b, Some tt) /\ a_ctx b = list_set (a_ctx a) h y /\ x_Closed y = true /\ x_Error y <> 0 /\
    (x_Error x <> 0 -> x_Error y = x_Error x) /\ x_Txid y = x_Txid x /\
    a_log b = a_log a ++ [EvMeter h el true; EvXlog h p] /\ xl_Txid p = x_Txid x /\ xl_Error p = x_Error y) as (b & y & p & el & Em & Rest).
  { exists b, y, p, el. split; [unfold recovered; rewrite Em; reflexivity|exact Rest]. }
  unfold m, millis. rewrite (bind_some _ _ _ _ _ (read_eq _ _ _ _ E)). rewrite (bind_some _ _ _ _ _ (send_text_eq _ _ _ _)).
  set (a1 := set_text _ a). assert (nth_error (a_ctx a1) h = Some x) as E1 by exact E.
  set (st := SPMessage _ _ _ _ _).
  destruct (add_room (env_of n x) st (x_Profile x) (good_env_of n x G) R) as (pr & Ea & Rp).
  assert (profile_add n h st a1 = (upd a1 h (set_Profile pr x), Some tt)) as Ep.
  { unfold profile_add, profile_op. rewrite E1, Ea. reflexivity. }
  rewrite (bind_some _ _ _ _ _ Ep). set (x1 := set_Profile pr x). set (a2 := upd a1 h x1).
  assert (nth_error (a_ctx a2) h = Some x1) as E2 by (eapply nth_upd; exact E1).
  rewrite (bind_some _ _ _ _ _ (read_eq _ _ _ _ E2)). change (x_Error x1) with (x_Error x).
  assert (exists a3 x3, (forall f : unit -> M unit, bind (if x_Error x =? 0 then e <- send_text n KError sm ;; modify h (set_Error e) else ret tt) f a2 = f tt a3)
    /\ nth_error (a_ctx a3) h = Some x3 /\ a_ctx a3 = list_set (a_ctx a) h x3 /\ x_Closed x3 = false /\ x_Error x3 <> 0 /\ (x_Error x <> 0 -> x_Error x3 = x_Error x) /\
    x_Txid x3 = x_Txid x /\ a_log a3 = a_log a /\ room (x_Profile x3)) as (a3 & x3 & Hb & E3 & C3 & Cl & Er & Er' & Tx & Lg & R3).
  { destruct (Z.eqb_spec (x_Error x) 0) as [Z0|Z0].
    - exists (set_ctxs (list_set (a_ctx a) h (set_Error (text_hash sm) x1)) (set_text (after_send n KError sm (a_text a2)) a2)), (set_Error (text_hash sm) x1).
      split.
      + intros f. rewrite bind_assoc, (bind_some _ _ _ _ _ (send_text_eq _ _ _ _)).
        set (a2' := set_text _ a2). assert (nth_error (a_ctx a2') h = Some x1) as E2' by exact E2.
        rewrite (bind_some _ _ _ _ _ (modify_eq _ _ _ _ E2')). f_equal. unfold a2'. cbn [set_text a_ctx]. unfold a2 at 1. cbn [upd set_ctxs a_ctx a1 set_text].
        rewrite list_set_twice. reflexivity.
      + assert (h < length (a_ctx a))%nat as Hh by (apply nth_error_Some; congruence).
        split; [apply list_set_same; exact Hh|]. split; [reflexivity|]. split; [exact C|]. split; [exact SH|]. split; [congruence|].
        split; [reflexivity|]. split; [reflexivity|exact Rp].
    - exists a2, x1. split; [intros f; apply bind_ret|]. split; [exact E2|]. split; [reflexivity|]. split; [exact C|]. split; [exact Z0|].
      split; [reflexivity|]. split; [reflexivity|]. split; [reflexivity|exact Rp]. }
  rewrite Hb. rewrite (end_open _ _ _ _ E3 Cl). cbv zeta. rewrite (discard_error n a3 x3 Er).
  destruct (close_room (env_of n (closed_ctx x3)) (DISCARD_NONE =? DISCARD_NONE) (x_Profile x3) (good_env_of n _ G) R3) as (pc & -> & _).
  eexists _, _, _, _. split; [reflexivity|]. unfold end_state. cbn [a_ctx a_log]. rewrite C3, list_set_twice, Lg.
  split; [reflexivity|]. split; [reflexivity|]. split; [exact Er|]. split; [exact Er'|]. split; [exact Tx|].
  split; [unfold end_events, sends; destruct (Z.eqb_spec (x_Error x3) 0); [contradiction|]; cbn [negb]; reflexivity|].
  split; [exact Tx|reflexivity].
Qed.

(** the loop *)
Definition count_b (n : env) (a : agent) (vs : list nat) (b : Z) : Z :=
  zlen (filter (fun h => match nth_error (a_ctx a) h with Some x => bucket n x =? b | None => false end) vs).

Lemma count_b_cons n a h vs b : count_b n a (h :: vs) b =
  (match nth_error (a_ctx a) h with Some x => if bucket n x =? b then 1 else 0 | None => 0 end) + count_b n a vs b.
Proof.
  unfold count_b. cbn [filter]. destruct (nth_error (a_ctx a) h) as [x|]; [|reflexivity]. destruct (bucket n x =? b); [rewrite zlen_cons; lia|reflexivity].
Qed.
Lemma count_b_ext n a a' vs b : (forall h, In h vs -> nth_error (a_ctx a') h = nth_error (a_ctx a) h) -> count_b n a' vs b = count_b n a vs b.
Proof.
  intros H. unfold count_b. f_equal. apply filter_ext_in. intros h Hin. rewrite (H h Hin). reflexivity.
Qed.

Lemma loop_spec n vs : good n -> forall count c0 c1 c2 a, count + zlen vs <= 2000 -> NoDup vs ->
  (forall h, In h vs -> exists x, nth_error (a_ctx a) h = Some x /\ x_Closed x = false /\ room (x_Profile x)) ->
  exists b, active_loop n count vs c0 c1 c2 a = (b, Some (c0 + count_b n a vs 0, c1 + count_b n a vs 1, c2 + count_b n a vs 2)) /\
    (forall k x, nth_error (a_ctx a) k = Some x -> ~ (In k vs /\ stuck n x /\ cf_stuck_remove (n_conf n) = true) -> nth_error (a_ctx b) k = Some x) /\
    (forall k x, nth_error (a_ctx a) k = Some x -> In k vs -> stuck n x -> cf_stuck_remove (n_conf n) = true ->
       exists y p, nth_error (a_ctx b) k = Some y /\ x_Closed y = true /\ x_Error y <> 0 /\ x_Txid y = x_Txid x /\ (x_Error x <> 0 -> x_Error y = x_Error x) /\
         In (EvXlog k p) (a_log b) /\ xl_Txid p = x_Txid x /\ xl_Error p = x_Error y) /\
    exists l, a_log b = a_log a ++ l.
Proof.
  intros G. induction vs as [|h vs IH]; intros count c0 c1 c2 a Hc Nd Hv.
  { exists a. cbn [active_loop]. unfold count_b. cbn. rewrite !Z.add_0_r. split; [reflexivity|]. split; [auto|]. split; [intros k x _ []|].
    exists []. rewrite app_nil_r. reflexivity. }
  rewrite zlen_cons in Hc. assert (0 <= zlen vs) as Hz by (unfold zlen; lia).
  inversion_clear Nd as [|? ? Hn Nd']. destruct (Hv h (or_introl eq_refl)) as (x & E & C & R).
  cbn [active_loop]. destruct (Z.ltb_spec 2000 (count + 1)); [lia|].
  rewrite (bind_some _ _ _ _ _ (read_eq _ _ _ _ E)). fold (running_ms n x).
  set (d0 := c0 + (if bucket n x =? 0 then 1 else 0)). set (d1 := c1 + (if bucket n x =? 1 then 1 else 0)). set (d2 := c2 + (if bucket n x =? 2 then 1 else 0)).
  assert ((if running_ms n x <=? cf_yellow (n_conf n) then (c0 + 1, c1, c2) else if running_ms n x <=? cf_red (n_conf n) then (c0, c1 + 1, c2) else (c0, c1, c2 + 1))
    = (d0, d1, d2)) as ->.
  { unfold d0, d1, d2, bucket. destruct (running_ms n x <=? cf_yellow (n_conf n)); [cbn [Z.eqb]; rewrite !Z.add_0_r; reflexivity|].
    destruct (running_ms n x <=? cf_red (n_conf n)); cbn [Z.eqb Pos.eqb]; rewrite !Z.add_0_r; reflexivity. }
  (* the state after this service *)
  assert (exists a', (forall f : unit -> M (Z * Z * Z), bind (if cf_stuck_ms (n_conf n) <? running_ms n x then
       (end_stuck n h ;; emit (EvAlert (if cf_stuck_alert (n_conf n) then 2 else 1) (of_string "STUCK_SERVICE"))) else ret tt) f a = f tt a') /\
     (forall k, k <> h -> nth_error (a_ctx a') k = nth_error (a_ctx a) k) /\
     (~ (stuck n x /\ cf_stuck_remove (n_conf n) = true) -> nth_error (a_ctx a') h = Some x) /\
     (stuck n x -> cf_stuck_remove (n_conf n) = true -> exists y p, nth_error (a_ctx a') h = Some y /\ x_Closed y = true /\ x_Error y <> 0 /\ x_Txid y = x_Txid x /\
        (x_Error x <> 0 -> x_Error y = x_Error x) /\ In (EvXlog h p) (a_log a') /\ xl_Txid p = x_Txid x /\ xl_Error p = x_Error y) /\
     exists l, a_log a' = a_log a ++ l) as (a' & Hb & Ho & Hs0 & Hs1 & (l1 & Hl1)).
  { unfold stuck. destruct (Z.ltb_spec (cf_stuck_ms (n_conf n)) (running_ms n x)) as [Hst|Hst].
    - destruct (cf_stuck_remove (n_conf n)) eqn:Hr.
      + destruct (end_stuck_spec n h a x G Hr E C R) as (b & y & p & el & Eb & Cb & Cy & Ey & Ey' & Ty & Lb & Tp & Ep).
        eexists. split; [intros f; rewrite bind_assoc, (bind_some _ _ _ _ _ Eb); unfold emit, bind; reflexivity|]. cbn [add_log a_ctx a_log]. rewrite Cb.
        assert (h < length (a_ctx a))%nat as Hh by (apply nth_error_Some; congruence).
        split; [intros k Hk; apply list_set_other; congruence|]. split; [intros Hx; exfalso; apply Hx; split; [lia|reflexivity]|].
        split; [intros _ _; exists y, p; rewrite list_set_same by exact Hh; rewrite Lb; repeat (split; [assumption || reflexivity|]);
                split; [apply in_or_app; left; apply in_or_app; right; right; left; reflexivity|split; assumption]|].
        rewrite Lb, <- app_assoc. eexists. reflexivity.
      + eexists. split; [intros f; rewrite bind_assoc; unfold end_stuck; rewrite Hr; unfold recovered, ret, emit, bind; reflexivity|]. cbn [add_log a_ctx a_log].
        split; [reflexivity|]. split; [intros _; exact E|]. split; [discriminate|]. eexists; reflexivity.
    - exists a. split; [intros f; apply bind_ret|]. split; [reflexivity|]. split; [intros _; exact E|]. split; [lia|]. exists []. rewrite app_nil_r. reflexivity. }
  rewrite Hb.
  destruct (IH (count + 1) d0 d1 d2 a') as (b & Eb & B1 & B2 & (l2 & Hl2)); [lia|exact Nd'| |].
  { intros k Hk. rewrite (Ho k) by (intros ->; contradiction). apply Hv. right. exact Hk. }
  exists b. split.
  - rewrite Eb. rewrite !(count_b_cons n a h vs), E.
    assert (forall z, count_b n a' vs z = count_b n a vs z) as Hcb by (intros z; apply count_b_ext; intros k Hk; apply Ho; intros ->; contradiction).
    rewrite !Hcb. unfold d0, d1, d2. rewrite !Z.add_assoc. reflexivity.
  - split; [|split; [|exists (l1 ++ l2); rewrite Hl2, Hl1, app_assoc; reflexivity]].
    + intros k z Ek Hk. destruct (Nat.eq_dec k h) as [->|Hne].
      * rewrite E in Ek. injection Ek as <-. apply B1; [|intros (Hin & _); contradiction].
        apply Hs0. intros (S1 & S2). apply Hk. split; [left; reflexivity|]. split; assumption.
      * apply B1; [rewrite Ho by exact Hne; exact Ek|]. intros (Hin & S1 & S2). apply Hk. split; [right; exact Hin|]. split; assumption.
    + intros k z Ek Hk Sz Hr. destruct (Nat.eq_dec k h) as [->|Hne].
      * rewrite E in Ek. injection Ek as <-. destruct (Hs1 Sz Hr) as (y & p & Ey & Cy & Er & Ty & Er' & Hin & Tp & Ep).
        exists y, p. split; [apply B1; [exact Ey|intros (Hin' & _); contradiction]|]. repeat (split; [assumption|]). split; [|split; assumption].
        rewrite Hl2. apply in_or_app. left. exact Hin.
      * destruct Hk as [->|Hk]; [congruence|]. apply B2; [rewrite Ho by exact Hne; exact Ek|exact Hk|exact Sz|exact Hr].
Qed.

(** the running services as the table lists them *)
Fixpoint open_idx (i : nat) (l : list (bool * Z)) : list nat :=
  match l with [] => [] | (c, _) :: l' => (if c then [] else [i]) ++ open_idx (S i) l' end.
Lemma open_idx_in i l h : In h (open_idx i l) <-> exists g t, h = (i + g)%nat /\ nth_error l g = Some (false, t).
Proof.
  revert i. induction l as [|[c t] l IH]; intros i; cbn [open_idx].
  - split; [intros []|]. intros (g & u & _ & H). destruct g; discriminate.
  - rewrite in_app_iff, IH. split.
    + intros [H|(g & u & -> & H)]; [|exists (S g), u; split; [lia|exact H]]. destruct c; [destruct H|]. destruct H as [<-|[]].
      exists O, t. split; [lia|reflexivity].
    + intros ([|g] & u & -> & H); [left|right; exists g, u; split; [lia|exact H]]. cbn in H. injection H as -> ->. left. lia.
Qed.
Lemma open_idx_nodup l : forall i, NoDup (open_idx i l).
Proof.
  induction l as [|[c t] l IH]; intros i; cbn [open_idx]; [constructor|]. destruct c; cbn [app]; [apply IH|]. constructor; [|apply IH].
  rewrite open_idx_in. intros (g & u & E & _). lia.
Qed.
Lemma opens_handles l : forall i, handles (non_nil (map snd (opens i l))) = open_idx i l.
Proof.
  induction l as [|[c t] l IH]; intros i; [reflexivity|]. cbn [opens open_idx]. destruct c; cbn [app map snd]; [apply IH|].
  unfold non_nil in *. cbn [filter]. unfold handles in *. cbn [map]. rewrite IH, Nat2Z.id. reflexivity.
Qed.
Lemma handles_perm a it : tabled a -> Permutation it (table (a_active a)) ->
  Permutation (handles (lra_values (a_active a) it)) (open_idx 0 (flags a)).
Proof.
  intros [T1 T2 T3] Hp. rewrite <- opens_handles. unfold handles, lra_values, non_nil. apply Permutation_map.
  assert (forall l l' : list (option Z), Permutation l l' -> Permutation (filter (fun v => match v with Some _ => true | None => false end) l) (filter (fun v => match v with Some _ => true | None => false end) l')) as Pf.
  { induction 1 as [|x l l' _ IH|x y l|l1 l2 l3 _ IH1 _ IH2]; cbn [filter]; [constructor|destruct x; [apply perm_skip|]; exact IH|destruct x, y; repeat constructor; reflexivity|eapply perm_trans; eassumption]. }
  apply Pf, Permutation_map. eapply perm_trans; [apply entries_of_perm; eassumption|exact T3].
Qed.

Lemma filter_perm_len {A} (f : A -> bool) l l' : Permutation l l' -> zlen (filter f l) = zlen (filter f l').
Proof.
  induction 1 as [|x l l' _ IH|x y l|l1 l2 l3 _ IH1 _ IH2]; [reflexivity| |cbn [filter]; destruct (f x), (f y); rewrite ?zlen_cons; reflexivity|congruence].
  cbn [filter]. destruct (f x); rewrite ?zlen_cons, IH; reflexivity.
Qed.

Lemma count_idx (f : tctx -> bool) l : forall i (g : nat -> option tctx), (forall k x, nth_error l k = Some x -> g (i + k)%nat = Some x) ->
  zlen (filter (fun h => match g h with Some x => f x | None => false end) (open_idx i (map flag l))) = zlen (filter (fun x => negb (x_Closed x) && f x) l).
Proof.
  induction l as [|x l IH]; intros i g Hg; [reflexivity|]. cbn [map open_idx flag filter].
  assert (forall k y, nth_error l k = Some y -> g (S i + k)%nat = Some y) as Hg' by (intros k y Ey; replace (S i + k)%nat with (i + S k)%nat by lia; apply Hg; exact Ey).
  specialize (IH (S i) g Hg'). pose proof (Hg O x eq_refl) as Hx. rewrite Nat.add_0_r in Hx.
  destruct (x_Closed x); cbn [app filter negb andb]; [exact IH|]. rewrite Hx. destruct (f x); rewrite ?zlen_cons, IH; reflexivity.
Qed.
Lemma count_all l : forall i, zlen (open_idx i (map flag l)) = zlen (filter (fun x => negb (x_Closed x)) l).
Proof.
  induction l as [|x l IH]; intros i; [reflexivity|]. cbn [map open_idx flag filter]. destruct (x_Closed x); cbn [app negb]; rewrite ?zlen_cons, IH; reflexivity.
Qed.
