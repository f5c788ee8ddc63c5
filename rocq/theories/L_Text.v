From Verif Require Import GoInt M_Packs M_Hash L_Hash M_Cache L_Cache M_Text S_Text.
From Coq Require Import ZifyBool.

Lemma kind_eqb_spec a b : reflect (a = b) (kind_eqb a b).
Proof. destruct a, b; constructor; congruence. Qed.
Lemma kind_eqb_refl a : kind_eqb a a = true.
Proof. destruct a; reflexivity. Qed.

Lemma set_cache_same k c f : set_cache k c f k = c.
Proof. unfold set_cache. rewrite kind_eqb_refl. reflexivity. Qed.
Lemma set_cache_other k k' c f : k' <> k -> set_cache k c f k' = f k'.
Proof. unfold set_cache. destruct (kind_eqb_spec k' k); congruence. Qed.

Lemma kind_cap_pos k : 0 < kind_cap k.
Proof. destruct k; cbn; lia. Qed.

(** adding an absent key to an lra cache of positive capacity keeps the newest keys *)
Lemma add_keys c h cap (L : list Z) : wf c -> lmax c = cap -> 0 < cap ->
  map fst (view c) = firstn (Z.to_nat cap) L -> lra_contains c h = false ->
  let c' := fst (lra_add_key c h) in
  wf c' /\ lmax c' = cap /\ map fst (view c') = firstn (Z.to_nat cap) (h :: L).
Proof.
  intros W M Hc V Hn c'. rewrite lra_contains_view in Hn by assumption.
  destruct (alook h (view c)) eqn:E; [discriminate|].
  destruct (add_absent c h item_exists W E) as (W' & M' & H). fold (lra_add_key c h) in W', M', H. fold c' in W', M', H.
  split; [assumption|]. split; [congruence|]. rewrite M in H.
  replace (negb (cap =? 0)) with true in H by (symmetry; apply negb_true_iff; lia). cbn [andb] in H.
  destruct (Z.to_nat cap) as [|n] eqn:En; [lia|]. cbn [firstn]. try rewrite En in V.
  assert (length (map fst (view c)) = min (S n) (length L)) as Ln by (rewrite V; apply firstn_length).
  rewrite map_length in Ln.
  destruct (Z.ltb_spec cap (zlen (view c) + 1)) as [Hf|Hf]; unfold zlen in Hf.
  - destruct H as (l & o & El & Vl & _). rewrite Vl.
    assert (length (view c) = S n) as Lv by lia.
    assert (length l = S n) as Ll by (apply (f_equal (@length _)) in El; rewrite app_length in El; cbn [length] in El; lia).
    assert (map fst l = firstn (S n) (map fst ((h, item_exists) :: view c))) as ->.
    { rewrite El, map_app, firstn_app, map_length, Ll, Nat.sub_diag. rewrite firstn_O, app_nil_r, firstn_all2; [reflexivity|rewrite map_length; lia]. }
    cbn [map fst firstn]. rewrite V. f_equal. rewrite firstn_firstn. f_equal. lia.
  - destruct H as (Vl & _). rewrite Vl. cbn [map fst]. f_equal. rewrite V.
    rewrite (firstn_all2 (n := S n)), (firstn_all2 (n := n)); [reflexivity| |]; lia.
Qed.

(* ------------------------------------------------------------------ *)
(** the caches remember exactly the hashes of the newest packs offered since the last clear *)
Definition hashes (l : list text_pack) : list Z := map tp_Hash l.
Definition t_inv (t : tstate) : Prop := forall k,
  wf (t_cache t k) /\ lmax (t_cache t k) = kind_cap k /\
  map fst (view (t_cache t k)) = newest (kind_cap k) (hashes (since_clear k (t_log t))).

Lemma t_inv_init : t_inv t_init.
Proof. intros k. cbn [t_init t_cache t_log]. split; [apply wf_new|]. split; [reflexivity|]. unfold newest. cbn. rewrite firstn_nil. reflexivity. Qed.

Lemma t_inv_clear k t : t_inv t -> t_inv (t_clear k t).
Proof.
  intros I k'. specialize (I k'). cbn [t_clear t_cache t_log since_clear].
  destruct (kind_eqb_spec k' k) as [->|N]; [|rewrite set_cache_other by assumption; exact I].
  rewrite set_cache_same. destruct I as (W & M & V). unfold lra_clear. cbn [fst]. split; [|split].
  - constructor; cbn; try constructor. intros a [].
  - assumption.
  - cbn. unfold newest. rewrite firstn_nil. reflexivity.
Qed.

Lemma contains_iff t k h : t_inv t ->
  (lra_contains (t_cache t k) h = true <-> In h (newest (kind_cap k) (hashes (since_clear k (t_log t))))).
Proof.
  intros I. destruct (I k) as (W & M & V). rewrite lra_contains_view, <- V by assumption.
  destruct (alook h (view (t_cache t k))) eqn:E.
  - split; [intros _; eapply alook_some_key; exact E|reflexivity].
  - apply alook_none in E. split; [discriminate|contradiction].
Qed.

Lemma t_inv_send k name room t t' h : t_inv t -> text_send k name room t = Some (t', h) -> t_inv t'.
Proof.
  intros I. unfold text_send. destruct name as [|b bs]; [intros [= <- <-]; exact I|].
  destruct (hash_string (b :: bs)) as [x|]; [|discriminate].
  destruct (lra_contains (t_cache t k) x) eqn:E; [intros [= <- <-]; exact I|]. intros [= <- <-] k'.
  cbn [t_add_pack t_add_key t_cache t_log since_clear]. specialize (I k').
  destruct (kind_eqb_spec k' k) as [->|N]; [|rewrite set_cache_other by assumption; exact I].
  rewrite set_cache_same. destruct I as (W & M & V). cbn [hashes map tp_Hash].
  apply add_keys; try assumption. apply kind_cap_pos.
Qed.

Lemma fold_clear_inv ks t : t_inv t -> t_inv (fold_left (fun t k => t_clear k t) ks t).
Proof. revert t. induction ks as [|k ks IH]; intros t I; [exact I|]. cbn [fold_left]. apply IH, t_inv_clear, I. Qed.

Lemma t_inv_step o t t' h : t_inv t -> t_step o t = Some (t', h) -> t_inv t'.
Proof.
  intros I. destruct o as [k name room|]; cbn [t_step]; [apply t_inv_send; assumption|].
  intros [= <- <-]. apply fold_clear_inv, I.
Qed.
Lemma t_inv_run ops t t' : t_inv t -> t_run ops t = Some t' -> t_inv t'.
Proof.
  revert t. induction ops as [|o ops IH]; intros t I; cbn [t_run]; [intros [= <-]; exact I|].
  destruct (t_step o t) as [[t1 h]|] eqn:E; [|discriminate]. apply IH. eapply t_inv_step; eassumption.
Qed.

(** ResetTextSent clears every kind *)
Lemma since_clear_reset k t : since_clear k (t_log (reset_text_sent t)) = [].
Proof. destruct k; reflexivity. Qed.

(** no text panics *)
Lemma t_run_total ops t : Forall (fun o => match o with TSend _ name _ => Forall is_byte name | TReset => True end) ops ->
  exists t', t_run ops t = Some t'.
Proof.
  revert t. induction ops as [|o ops IH]; intros t H; [eexists; reflexivity|]. inversion H as [|? ? Ho Hs]; subst.
  cbn [t_run]. destruct o as [k name room|]; cbn [t_step]; [|apply IH; assumption].
  unfold text_send. destruct name as [|b bs]; [apply IH; assumption|].
  rewrite hash_is_crc32 by assumption. destruct (lra_contains _ _); apply IH; assumption.
Qed.

(** every offered pack carries its type, and the hash of its text *)
Definition good_pack (k : kind) (p : text_pack) : Prop :=
  tp_Xtype p = text_type k /\ tp_Text p <> [] /\ hash_string (tp_Text p) = Some (tp_Hash p).
Definition good_log (log : list tevent) : Prop := forall k p, In p (since_clear k log) -> good_pack k p.

(* ------------------------------------------------------------------ *)
(** * Concurrency *)

Definition pending (ths : list tthread) (k : kind) (h : Z) : Prop :=
  exists th name, In th ths /\ tt_phase th = PhPack k h name.

Definition offered (log : list tevent) (k : kind) (h : Z) : Prop :=
  exists p room, In (EvOffer k p room) log /\ tp_Hash p = h.

Lemma since_offered k h log : In h (hashes (since_clear k log)) -> offered log k h.
Proof.
  induction log as [|e log IH]; cbn [since_clear hashes map In]; [intros []|].
  assert (offered log k h -> offered (e :: log) k h) as Hup.
  { intros (p & r & Hi & Hh). exists p, r. split; [right|]; assumption. }
  destruct e as [k' p room|k']; destruct (kind_eqb_spec k k') as [->|N]; cbn [hashes map In]; intros H; auto; [|contradiction].
  destruct H as [H|H]; [|auto]. exists p, room. split; [left; reflexivity|assumption].
Qed.

Definition remembered (t : tstate) (k : kind) (h : Z) : Prop := lra_contains (t_cache t k) h = true.

Lemma contains_add_key t k h k' h' : wf (t_cache t k) -> lmax (t_cache t k) = kind_cap k ->
  remembered (t_add_key k h t) k' h' -> (k' = k /\ h' = h) \/ remembered t k' h'.
Proof.
  intros W M. unfold remembered. cbn [t_add_key t_cache].
  destruct (kind_eqb_spec k' k) as [->|N]; [|rewrite set_cache_other by assumption; auto].
  rewrite set_cache_same. destruct (alook h (view (t_cache t k))) eqn:E.
  - destruct (add_present (t_cache t k) h item_exists W) as (W' & V' & _); [congruence|].
    unfold lra_add_key. rewrite !lra_contains_view, V', alook_vset by assumption.
    destruct (Z.eqb_spec h' h); [left; auto|]. right; assumption.
  - destruct (add_absent (t_cache t k) h item_exists W E) as (W' & _ & H). unfold lra_add_key.
    rewrite !lra_contains_view by assumption. intros Hc.
    destruct (alook h' (view (fst (lra_add (t_cache t k) h item_exists)))) as [v|] eqn:Ev; [|discriminate].
    apply alook_some_key in Ev.
    destruct (Z.eq_dec h' h) as [->|Nh]; [left; auto|right].
    assert (In h' (map fst ((h, item_exists) :: view (t_cache t k)))) as Hin.
    { destruct (negb _ && _); [destruct H as (l & o & El & Vl & _); rewrite El; rewrite map_app; apply in_or_app; left; rewrite <- Vl; exact Ev
      |destruct H as (Vl & _); rewrite <- Vl; exact Ev]. }
    destruct Hin as [Hin|Hin]; [cbn [fst] in Hin; congruence|].
    destruct (alook h' (view (t_cache t k))) eqn:E2; [reflexivity|]. apply alook_none in E2. contradiction.
Qed.

Lemma wf_add_key c h : wf c -> wf (fst (lra_add_key c h)) /\ lmax (fst (lra_add_key c h)) = lmax c.
Proof.
  intros W. unfold lra_add_key. destruct (alook h (view c)) eqn:E.
  - destruct (add_present c h item_exists W) as (W' & _ & _ & M'); [congruence|]. split; assumption.
  - destruct (add_absent c h item_exists W E) as (W' & M' & _). split; assumption.
Qed.

Record sys_inv (s : tstate * list tthread) : Prop := mkSI {
  si_wf : forall k, wf (t_cache (fst s) k) /\ lmax (t_cache (fst s) k) = kind_cap k;
  si_rem : forall k h, remembered (fst s) k h -> In h (hashes (since_clear k (t_log (fst s)))) \/ pending (snd s) k h;
  si_hash : forall th, In th (snd s) -> match tt_phase th with
                                        | PhCalls => True
                                        | PhAdd k h name | PhPack k h name => name <> [] /\ hash_string name = Some h
                                        end;
  si_ret : forall th k name h, In th (snd s) -> In (k, name, h) (tt_returned th) -> name <> [] ->
    hash_string name = Some h /\ (offered (t_log (fst s)) k h \/ pending (snd s) k h);
  si_good : good_log (t_log (fst s)) }.

Lemma in_mid {A} (x y : A) a b : In x (a ++ y :: b) <-> x = y \/ In x (a ++ b).
Proof. rewrite !in_app_iff. cbn [In]. intuition. Qed.

Lemma sys_inv_step s s' : sys_inv s -> sys_step s s' -> sys_inv s'.
Proof.
  intros [Hw Hr Hh Ht Hg] St. destruct St as [t t' before th th' after St|t k ths]; cbn [fst snd] in *.
  - (* a caller moves *)
    assert (forall x, In x (before ++ after) -> In x (before ++ th :: after)) as Hold by (intros x Hx; apply in_mid; right; exact Hx).
    assert (forall k h, pending (before ++ after) k h -> pending (before ++ th' :: after) k h) as Hpend.
    { intros k h (y & n & Hy & Hp). exists y, n. split; [apply in_mid; right|]; assumption. }
    assert (forall k h, pending (before ++ th :: after) k h ->
              pending (before ++ th' :: after) k h \/ exists n, tt_phase th = PhPack k h n) as Hpstep.
    { intros k h (y & n & Hy & Hp). apply in_mid in Hy. destruct Hy as [->|Hy]; [right; exists n; exact Hp|left; apply Hpend; exists y, n; split; assumption]. }
    assert (forall x, In x (before ++ th' :: after) -> x = th' \/ In x (before ++ after)) as Hnew by (intros x Hx; apply in_mid; exact Hx).
    assert (In th (before ++ th :: after)) as Hth by (apply in_mid; left; reflexivity).
    pose proof (Hh th Hth) as Hph.
    destruct St as [k rest r|k name rest r h Nn E C|k name rest r h Nn E C|k h name rest r|k h name room rest r]; cbn [tt_phase tt_returned] in *.
    + (* empty text *)
      constructor; cbn [fst snd]; [exact Hw| | | |exact Hg].
      * intros k0 h0 H0. destruct (Hr k0 h0 H0) as [H|H]; [left; exact H|]. destruct (Hpstep _ _ H) as [H'|(n & H')]; [right; exact H'|discriminate H'].
      * intros x Hx. destruct (Hnew x Hx) as [->|Hx']; [exact I|]. apply Hh, Hold, Hx'.
      * intros x k0 name0 h0 Hx Hi Nn. destruct (Hnew x Hx) as [->|Hx'].
        -- cbn [tt_returned In] in Hi. destruct Hi as [[= <- <- <-]|Hi]; [congruence|].
           destruct (Ht _ _ _ _ Hth Hi Nn) as (E & [H|H]); (split; [exact E|]); [left; exact H|].
           destruct (Hpstep _ _ H) as [H'|(n & H')]; [right; exact H'|discriminate H'].
        -- destruct (Ht _ _ _ _ (Hold _ Hx') Hi Nn) as (E & [H|H]); (split; [exact E|]); [left; exact H|].
           destruct (Hpstep _ _ H) as [H'|(n & H')]; [right; exact H'|discriminate H'].
    + (* remembered *)
      constructor; cbn [fst snd]; [exact Hw| | | |exact Hg].
      * intros k0 h0 H0. destruct (Hr k0 h0 H0) as [H|H]; [left; exact H|]. destruct (Hpstep _ _ H) as [H'|(n & H')]; [right; exact H'|discriminate H'].
      * intros x Hx. destruct (Hnew x Hx) as [->|Hx']; [exact I|]. apply Hh, Hold, Hx'.
      * intros x k0 name0 h0 Hx Hi Nn0. destruct (Hnew x Hx) as [->|Hx'].
        -- cbn [tt_returned In] in Hi. destruct Hi as [[= <- <- <-]|Hi].
           ++ split; [exact E|]. destruct (Hr k h C) as [H|H]; [left; apply since_offered; exact H|].
              destruct (Hpstep _ _ H) as [H'|(n & H')]; [right; exact H'|discriminate H'].
           ++ destruct (Ht _ _ _ _ Hth Hi Nn0) as (E' & [H|H]); (split; [exact E'|]); [left; exact H|].
              destruct (Hpstep _ _ H) as [H'|(n & H')]; [right; exact H'|discriminate H'].
        -- destruct (Ht _ _ _ _ (Hold _ Hx') Hi Nn0) as (E' & [H|H]); (split; [exact E'|]); [left; exact H|].
           destruct (Hpstep _ _ H) as [H'|(n & H')]; [right; exact H'|discriminate H'].
    + (* not remembered *)
      constructor; cbn [fst snd]; [exact Hw| | | |exact Hg].
      * intros k0 h0 H0. destruct (Hr k0 h0 H0) as [H|H]; [left; exact H|]. destruct (Hpstep _ _ H) as [H'|(n & H')]; [right; exact H'|discriminate H'].
      * intros x Hx. destruct (Hnew x Hx) as [->|Hx']; [cbn [tt_phase]; split; assumption|]. apply Hh, Hold, Hx'.
      * intros x k0 name0 h0 Hx Hi Nn0. destruct (Hnew x Hx) as [->|Hx'].
        -- cbn [tt_returned] in Hi. destruct (Ht _ _ _ _ Hth Hi Nn0) as (E' & [H|H]); (split; [exact E'|]); [left; exact H|].
           destruct (Hpstep _ _ H) as [H'|(n & H')]; [right; exact H'|discriminate H'].
        -- destruct (Ht _ _ _ _ (Hold _ Hx') Hi Nn0) as (E' & [H|H]); (split; [exact E'|]); [left; exact H|].
           destruct (Hpstep _ _ H) as [H'|(n & H')]; [right; exact H'|discriminate H'].
    + (* AddKey *)
      constructor; cbn [fst snd].
      * intros k0. cbn [t_add_key t_cache]. destruct (kind_eqb_spec k0 k) as [->|N]; [|rewrite set_cache_other by assumption; apply Hw].
        rewrite set_cache_same. destruct (Hw k) as (W & M). destruct (wf_add_key _ h W) as (W' & M'). split; [exact W'|congruence].
      * intros k0 h0 H0. destruct (Hw k) as (W & M). destruct (contains_add_key t k h k0 h0 W M H0) as [(-> & ->)|H1].
        -- right. eexists _, name. split; [apply in_mid; left; reflexivity|reflexivity].
        -- cbn [t_add_key t_log]. destruct (Hr k0 h0 H1) as [H|H]; [left; exact H|]. destruct (Hpstep _ _ H) as [H'|(n & H')]; [right; exact H'|discriminate H'].
      * intros x Hx. destruct (Hnew x Hx) as [->|Hx']; [exact Hph|]. apply Hh, Hold, Hx'.
      * cbn [t_add_key t_log]. intros x k0 name0 h0 Hx Hi Nn0. destruct (Hnew x Hx) as [->|Hx'].
        -- cbn [tt_returned] in Hi. destruct (Ht _ _ _ _ Hth Hi Nn0) as (E' & [H|H]); (split; [exact E'|]); [left; exact H|].
           destruct (Hpstep _ _ H) as [H'|(n & H')]; [right; exact H'|discriminate H'].
        -- destruct (Ht _ _ _ _ (Hold _ Hx') Hi Nn0) as (E' & [H|H]); (split; [exact E'|]); [left; exact H|].
           destruct (Hpstep _ _ H) as [H'|(n & H')]; [right; exact H'|discriminate H'].
      * exact Hg.
    + (* AddPack *)
      set (ev := EvOffer k (mk_text_pack (text_type k) h name) room).
      assert (forall k0 h0, offered (t_log t) k0 h0 -> offered (ev :: t_log t) k0 h0) as Hup.
      { intros k0 h0 (p & rm & Hi & Hp). exists p, rm. split; [right|]; assumption. }
      assert (offered (ev :: t_log t) k h) as Hnow by (eexists _, room; split; [left; reflexivity|reflexivity]).
      assert (forall k0 h0, pending (before ++ mkTT rest (PhPack k h name) r :: after) k0 h0 ->
                offered (ev :: t_log t) k0 h0 \/ pending (before ++ mkTT rest PhCalls ((k, name, h) :: r) :: after) k0 h0) as Hp.
      { intros k0 h0 H. destruct (Hpstep _ _ H) as [H'|(n & H')]; [right; exact H'|]. injection H' as -> -> ->. left; exact Hnow. }
      constructor; cbn [fst snd t_add_pack t_cache t_log]; fold ev.
      * exact Hw.
      * intros k0 h0 H0. change (remembered t k0 h0) in H0. cbn [since_clear ev].
        destruct (Hr k0 h0 H0) as [H|H].
        -- left. destruct (kind_eqb k0 k); [right|]; exact H.
        -- destruct (Hpstep _ _ H) as [H'|(n & H')]; [right; exact H'|]. injection H' as -> -> ->.
           left. rewrite kind_eqb_refl. left. reflexivity.
      * intros x Hx. destruct (Hnew x Hx) as [->|Hx']; [exact I|]. apply Hh, Hold, Hx'.
      * intros x k0 name0 h0 Hx Hi Nn0. destruct (Hnew x Hx) as [->|Hx'].
        -- cbn [tt_returned In] in Hi. destruct Hi as [[= <- <- <-]|Hi]; [split; [exact (proj2 Hph)|left; exact Hnow]|].
           destruct (Ht _ _ _ _ Hth Hi Nn0) as (E' & [H|H]); (split; [exact E'|]); [left; apply Hup; exact H|apply Hp; exact H].
        -- destruct (Ht _ _ _ _ (Hold _ Hx') Hi Nn0) as (E' & [H|H]); (split; [exact E'|]); [left; apply Hup; exact H|apply Hp; exact H].
      * intros k0 p Hi. cbn [since_clear ev] in Hi. destruct (kind_eqb_spec k0 k) as [->|N]; [|apply Hg; exact Hi].
        destruct Hi as [<-|Hi]; [|apply Hg; exact Hi]. destruct Hph. split; [reflexivity|]. split; assumption.
  - (* a cache is cleared *)
    constructor; cbn [fst snd].
    + intros k0. cbn [t_clear t_cache]. destruct (kind_eqb_spec k0 k) as [->|N]; [|rewrite set_cache_other by assumption; apply Hw].
      rewrite set_cache_same. destruct (Hw k) as (W & M). split; [|exact M]. constructor; cbn; try constructor. intros a [].
    + intros k0 h0 H0. cbn [t_clear t_log since_clear]. unfold remembered in H0. cbn [t_clear t_cache] in H0.
      destruct (kind_eqb_spec k0 k) as [->|N]; [rewrite set_cache_same in H0; discriminate H0|].
      rewrite set_cache_other in H0 by assumption. apply Hr. exact H0.
    + exact Hh.
    + intros x k0 name0 h0 Hx Hi Nn0. destruct (Ht _ _ _ _ Hx Hi Nn0) as (E' & [(p & rm & Hp & Hq)|H]); (split; [exact E'|]); [left|right; exact H].
      exists p, rm. split; [right|]; assumption.
    + intros k0 p Hi. cbn [t_clear t_log since_clear] in Hi. destruct (kind_eqb k0 k); [destruct Hi|apply Hg; exact Hi].
Qed.

Lemma sys_inv_reach callers s : sys_reach callers s -> sys_inv s.
Proof.
  induction 1 as [|s s' R IH St]; [|eapply sys_inv_step; eassumption].
  constructor; cbn [fst snd].
  - intros k. split; [apply wf_new|reflexivity].
  - intros k h H. discriminate H.
  - intros th H. apply in_map_iff in H. destruct H as (c & <- & _). exact I.
  - intros th k name h H Hi. apply in_map_iff in H. destruct H as (c & <- & _). destruct Hi.
  - intros k p [].
Qed.

(** sequential runs only log well-formed packs *)
Lemma good_send k name room t t' h : good_log (t_log t) -> text_send k name room t = Some (t', h) -> good_log (t_log t').
Proof.
  intros G. unfold text_send. destruct name as [|b bs]; [intros [= <- <-]; exact G|].
  destruct (hash_string (b :: bs)) as [x|] eqn:Eh; [|discriminate].
  destruct (lra_contains _ _); intros [= <- <-]; [exact G|]. cbn [t_add_pack t_add_key t_log].
  intros k0 p Hi. cbn [since_clear] in Hi. destruct (kind_eqb_spec k0 k) as [->|N]; [|apply G; exact Hi].
  destruct Hi as [<-|Hi]; [|apply G; exact Hi]. split; [reflexivity|]. split; [discriminate|exact Eh].
Qed.
Lemma good_clear ks t : good_log (t_log t) -> good_log (t_log (fold_left (fun t k => t_clear k t) ks t)).
Proof.
  revert t. induction ks as [|k ks IH]; intros t G; [exact G|]. cbn [fold_left]. apply IH.
  intros k0 p Hi. cbn [t_clear t_log since_clear] in Hi. destruct (kind_eqb k0 k); [destruct Hi|apply G; exact Hi].
Qed.
Lemma good_run ops t t' : good_log (t_log t) -> t_run ops t = Some t' -> good_log (t_log t').
Proof.
  revert t. induction ops as [|o ops IH]; intros t G; cbn [t_run]; [intros [= <-]; exact G|].
  destruct (t_step o t) as [[t1 h]|] eqn:E; [|discriminate]. apply IH.
  destruct o as [k name room|]; cbn [t_step] in E; [eapply good_send; eassumption|]. injection E as <- <-. apply good_clear, G.
Qed.

Lemma queued_all k log : (forall k p room, In (EvOffer k p room) log -> room = true) -> queued_since_clear k log = since_clear k log.
Proof.
  induction log as [|e log IH]; intros H; [reflexivity|]. cbn [queued_since_clear since_clear].
  rewrite IH by (intros k' p r Hi; apply (H k' p r); right; exact Hi).
  destruct e as [k' p room|k']; [|reflexivity]. rewrite (H k' p room (or_introl eq_refl)), andb_true_r. reflexivity.
Qed.
