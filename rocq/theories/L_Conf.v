From Verif Require Import GoInt M_Value M_Util M_Hash M_Sampler M_Conf S_Conf S_Util L_Util L_Value L_Access.

(** * Tables *)
Lemma get_put_same {A} k (v : A) m : get k (put k v m) = Some v.
Proof.
  induction m as [|[k' v'] m IH]; cbn [put get]; [rewrite beqb_refl; reflexivity|].
  destruct (beqb k k') eqn:E; cbn [get]; [rewrite beqb_refl; reflexivity|rewrite E; exact IH].
Qed.
Lemma get_put_other {A} k k' (v : A) m : k <> k' -> get k (put k' v m) = get k m.
Proof.
  intro N. induction m as [|[q v'] m IH]; cbn [put get].
  - apply beqb_neq in N. rewrite N. reflexivity.
  - destruct (beqb_spec k' q) as [<-|Nq]; cbn [get].
    + apply beqb_neq in N. rewrite N. reflexivity.
    + rewrite IH. reflexivity.
Qed.
Lemma get_put {A} k k' (v : A) m : get k (put k' v m) = if beqb k k' then Some v else get k m.
Proof. destruct (beqb_spec k k') as [->|N]; [apply get_put_same|apply get_put_other; exact N]. Qed.

Lemma get_None {A} k (m : list (gostring * A)) : ~ In k (map fst m) -> get k m = None.
Proof.
  induction m as [|[q v] m IH]; cbn [map fst get]; [reflexivity|]. intro N.
  destruct (beqb_spec k q) as [->|_]; [exfalso; apply N; left; reflexivity|]. apply IH. intro F; apply N; right; exact F.
Qed.

Lemma get_merge k (other : props) : NoDup (map fst other) -> forall p,
  get k (merge p other) = match get k other with Some v => Some v | None => get k p end.
Proof.
  unfold merge. induction other as [|[q v] other IH]; intros ND p; cbn [fold_left fst snd get]; [reflexivity|].
  cbn [map fst] in ND. inversion ND as [|? ? N ND']; subst. rewrite IH by exact ND'.
  rewrite get_put. destruct (beqb_spec k q) as [->|Nk].
  - rewrite get_None by exact N. reflexivity.
  - reflexivity.
Qed.

Lemma put_keys {A} k (v : A) m : NoDup (map fst m) -> NoDup (map fst (put k v m)).
Proof.
  assert (forall m, forall x, In x (map fst (put k v m)) -> x = k \/ In x (map fst m)) as H.
  { clear. induction m as [|[q w] m IH]; cbn [put map fst]; intros x F.
    - destruct F as [F|[]]; left; congruence.
    - revert F. destruct (beqb_spec k q) as [->|_]; cbn [map fst In]; intro F; [destruct F as [F|F]; auto|].
      cbn [In] in F. destruct F as [F|F]; [auto|]. apply IH in F as [F|F]; auto. }
  induction m as [|[q w] m IH]; cbn [put map fst]; intro ND.
  - constructor; [intros []|constructor].
  - inversion ND as [|? ? N ND']; subst. destruct (beqb_spec k q) as [->|Nk]; cbn [map fst].
    + constructor; assumption.
    + constructor; [|apply IH; exact ND']. intro F. apply H in F as [F|F]; [congruence|contradiction].
Qed.
Lemma merge_keys other : forall p, NoDup (map fst p) -> NoDup (map fst (merge p other)).
Proof.
  unfold merge. induction other as [|[q v] other IH]; intros p H; cbn [fold_left]; [exact H|].
  apply IH. apply put_keys. exact H.
Qed.
Lemma env_props_keys es : forall p p', env_props es p = Some p' -> NoDup (map fst p) -> NoDup (map fst p').
Proof.
  induction es as [|e es IH]; intros p p'; cbn [env_props]; [congruence|].
  destruct (split_byte 61 e) as [|k [|v rest]]; try discriminate. intros E H. apply (IH _ _ E).
  unfold props_set. destruct k; [exact H|]. apply put_keys. exact H.
Qed.

Lemma get_non_empty k p : NoDup (map fst p) -> get k (non_empty p) = given (get k p).
Proof.
  unfold non_empty. induction p as [|[q v] p IH]; cbn [map fst filter snd get]; [reflexivity|].
  intro ND. inversion ND as [|? ? N ND']; subst.
  destruct (beqb_spec v []) as [->|Nv]; cbn [negb].
  - rewrite IH by exact ND'. destruct (beqb_spec k q) as [->|_]; [|reflexivity].
    rewrite get_None by exact N. reflexivity.
  - cbn [get]. destruct (beqb_spec k q) as [_|_]; [|apply IH; exact ND'].
    destruct v; [congruence|reflexivity].
Qed.

(** * Environment *)
Lemma split_entry e k v : env_entry e k v -> exists rest,
  split_byte 61 e = k :: split_byte 61 v /\ split_byte 61 v = hd [] (split_byte 61 v) :: rest.
Proof.
  intros (-> & Nk & Hk). change ([61] ++ v) with (61 :: v). unfold split_byte. rewrite split_go_sep by exact Hk. cbn [rev app].
  pose proof (split_go_nonnil 61 [] v). destruct (split_go 61 [] v) as [|x l] eqn:E; [congruence|].
  exists l. auto.
Qed.

(** the part of a value before its first '=' *)
Definition cut_eq (v : gostring) : gostring := hd [] (split_byte 61 v).
Lemma cut_eq_simple v : ~ In 61 v -> cut_eq v = v.
Proof. intro H. unfold cut_eq, split_byte. rewrite split_go_nosep by exact H. reflexivity. Qed.

Lemma entry_inj e k v k' v' : env_entry e k v -> env_entry e k' v' -> k = k' /\ v = v'.
Proof.
  intros (-> & _ & H1) (E & _ & H2). revert k' H2 E. induction k as [|c k IH]; intros [|d k'] H2 E; cbn [app] in E.
  - inversion E. auto.
  - inversion E; subst. exfalso. apply H2. left. reflexivity.
  - inversion E; subst. exfalso. apply H1. left. reflexivity.
  - inversion E; subst. destruct (IH (fun F => H1 (or_intror F)) k' (fun F => H2 (or_intror F)) H3) as [-> ->]. auto.
Qed.

(** the table built from the environment, when every entry has a '=' and a key *)
Lemma env_props_spec es : Forall (fun e => exists k v, env_entry e k v) es -> forall p, exists p',
  env_props es p = Some p' /\
  forall k, (forall v, env_gives es k (Some v) -> get k p' = Some (cut_eq v)) /\
            (env_gives es k None -> get k p' = get k p).
Proof.
  induction 1 as [|e es (k0 & v0 & He) Hes IH]; intro p; cbn [env_props].
  - exists p. split; [reflexivity|]. intro k. split; [|reflexivity].
    intros v (es1 & e & es2 & E & _). destruct es1; discriminate.
  - destruct (split_entry e k0 v0 He) as (rest & E1 & E2). rewrite E1, E2. fold (cut_eq v0).
    destruct (IH (props_set k0 (cut_eq v0) p)) as (p' & Ep & Hp). exists p'. split; [exact Ep|].
    intro k. destruct (Hp k) as [A B].
    assert (props_set k0 (cut_eq v0) p = put k0 (cut_eq v0) p) as Es.
    { unfold props_set. destruct k0; [destruct He as (_ & F & _); congruence|reflexivity]. }
    split.
    + intros v (es1 & e1 & es2 & E & Hv & Hl). destruct es1 as [|e0 es1]; cbn [app] in E; inversion E; subst.
      * destruct (entry_inj _ _ _ _ _ He Hv) as [-> ->]. rewrite B; [rewrite Es; apply get_put_same|]. exact Hl.
      * apply A. exists es1, e1, es2. auto.
    + intro Hn. rewrite B by (intros e' t' F; apply Hn; right; exact F).
      rewrite Es. apply get_put_other. intros ->. apply (Hn e v0); [left; reflexivity|exact He].
Qed.

(** * Numbers and truth values *)
Lemma parse_digits10_spec s : forall acc, parse_digits10 acc s =
  if forallb (fun c => (48 <=? c) && (c <=? 57)) s then Some (fold_left (fun a c => a * 10 + (c - 48)) s acc) else None.
Proof.
  induction s as [|c s IH]; intro acc; cbn [parse_digits10 forallb fold_left]; [reflexivity|].
  destruct ((48 <=? c) && (c <=? 57)); cbn [andb]; [apply IH|reflexivity].
Qed.

Lemma digits_forallb ds : Forall (fun c => 48 <= c <= 57) ds <-> forallb (fun c => (48 <=? c) && (c <=? 57)) ds = true.
Proof.
  rewrite forallb_forall, Forall_forall. split; intros H c Hc; specialize (H c Hc); lia.
Qed.

Lemma parse_signless s z : hd 0 s <> 43 -> hd 0 s <> 45 ->
  parse_int64 s = match s with [] => None | _ => match parse_digits10 0 s with None => None | Some n =>
     if (-9223372036854775808 <=? n) && (n <=? 9223372036854775807) then Some n else None end end \/ z = 0.
Proof.
  intros H1 H2. left. unfold parse_int64. destruct s as [|c s]; [reflexivity|]. cbn [hd] in *.
  destruct c as [|c|c]; try reflexivity.
  do 6 (destruct c as [c|c|]; try reflexivity; try (exfalso; congruence)).
Qed.

Lemma parse_int64_spec t z : parse_int64 t = Some z <-> decimal t z /\ in_int64 z.
Proof.
  assert (forall ds z, ds <> [] -> match ds with [] => None | _ => match parse_digits10 0 ds with None => None | Some n =>
     if (-9223372036854775808 <=? n) && (n <=? 9223372036854775807) then Some n else None end end = Some z <->
     Forall (fun c => 48 <= c <= 57) ds /\ z = digits_value ds /\ in_int64 z) as Pos.
  { intros ds z0 N. destruct ds as [|c ds]; [congruence|]. rewrite parse_digits10_spec.
    rewrite digits_forallb. unfold digits_value, in_int64. destruct (forallb _ (c :: ds)).
    - set (n := fold_left _ _ _). destruct ((-9223372036854775808 <=? n) && (n <=? 9223372036854775807)) eqn:E.
      + split; [intro H; inversion H; subst; repeat split; lia|intros (_ & -> & _); reflexivity].
      + split; [discriminate|intros (_ & -> & H); lia].
    - split; [discriminate|intros (F & _); discriminate]. }
  assert (forall ds, Forall (fun c => 48 <= c <= 57) ds -> ds <> [] -> hd 0 ds <> 43 /\ hd 0 ds <> 45) as Hd.
  { intros ds H N. destruct H as [|c ds Hc]; [congruence|]. cbn [hd]. lia. }
  assert (hd 0 t <> 43 -> hd 0 t <> 45 -> (parse_int64 t = Some z <-> decimal t z /\ in_int64 z)) as Plain.
  { intros H1 H2. destruct t as [|c t].
    - split; [discriminate|]. intros [(sign & ds & E & N & _) _]. destruct sign, ds; discriminate || congruence.
    - destruct (parse_signless (c :: t) 1 H1 H2) as [->|F]; [|lia]. rewrite (Pos (c :: t) z) by discriminate. split.
      + intros (F & -> & R). split; [|exact R]. exists [], (c :: t). repeat split; auto. discriminate.
      + intros [(sign & ds & E & N & F & [[[-> | ->] ->] | [-> ->]]) R]; cbn [app] in E.
        * rewrite E. auto.
        * inversion E; subst. cbn in H1. congruence.
        * inversion E; subst. cbn in H2. congruence. }
  destruct t as [|c t]; [apply Plain; discriminate|].
  destruct (Z.eq_dec c 43) as [->|N1]; [|destruct (Z.eq_dec c 45) as [->|N2]; [|apply Plain; cbn; assumption]].
  - change (parse_int64 (43 :: t)) with (match t with [] => None | _ => match parse_digits10 0 t with None => None | Some n =>
     if (-9223372036854775808 <=? n) && (n <=? 9223372036854775807) then Some n else None end end).
    destruct t as [|d t].
    + split; [discriminate|]. intros [(sign & ds & E & N & F & _) _]. destruct sign as [|x sign].
      * cbn in E. subst ds. destruct (Hd _ F N). cbn in *. congruence.
      * inversion E. destruct sign, ds; discriminate || congruence.
    + rewrite (Pos (d :: t) z) by discriminate. split.
      * intros (F & -> & R). split; [|exact R]. exists [43], (d :: t). repeat split; auto. discriminate.
      * intros [(sign & ds & E & N & F & [[[-> | ->] ->] | [-> ->]]) R]; cbn [app] in E.
        -- subst ds. destruct (Hd _ F N). cbn in *. congruence.
        -- inversion E; subst. auto.
        -- discriminate.
  - change (parse_int64 (45 :: t)) with (match t with [] => None | _ => match parse_digits10 0 t with None => None | Some n =>
     if (-9223372036854775808 <=? - n) && (- n <=? 9223372036854775807) then Some (- n) else None end end).
    destruct t as [|d t].
    + split; [discriminate|]. intros [(sign & ds & E & N & F & _) _]. destruct sign as [|x sign].
      * cbn in E. subst ds. destruct (Hd _ F N). cbn in *. congruence.
      * inversion E. destruct sign, ds; discriminate || congruence.
    + rewrite parse_digits10_spec. split.
      * destruct (forallb _ (d :: t)) eqn:Fb; [|discriminate].
        set (n := fold_left _ _ _). destruct ((-9223372036854775808 <=? - n) && (- n <=? 9223372036854775807)) eqn:G; [|discriminate].
        intro H. inversion H; subst z. split; [|unfold in_int64; lia].
        exists [45], (d :: t). split; [reflexivity|]. split; [discriminate|]. split; [apply digits_forallb; exact Fb|]. right. auto.
      * intros [(sign & ds & E & N & F & [[[-> | ->] ->] | [-> ->]]) R]; cbn [app] in E.
        -- subst ds. destruct (Hd _ F N). cbn in *. congruence.
        -- discriminate.
        -- inversion E; subst. apply digits_forallb in F. rewrite F. fold (digits_value (d :: t)).
           unfold in_int64 in R. destruct ((-9223372036854775808 <=? - digits_value (d :: t)) && (- digits_value (d :: t) <=? 9223372036854775807)) eqn:G; [reflexivity|lia].
Qed.

Lemma decimal_fun t z z' : decimal t z -> decimal t z' -> z = z'.
Proof.
  intros (s1 & d1 & -> & N1 & F1 & H1) (s2 & d2 & E & N2 & F2 & H2).
  destruct d1 as [|a d1]; [congruence|]. destruct d2 as [|b d2]; [congruence|].
  inversion F1; inversion F2; subst.
  destruct H1 as [[[-> | ->] ->] | [-> ->]]; destruct H2 as [[[-> | ->] ->] | [-> ->]]; cbn [app] in E; inversion E; subst; try lia; reflexivity.
Qed.

Lemma get_int_takes p key d : takes (KInt d) (get key p) (SInt (get_int p key d)).
Proof.
  unfold get_int. destruct (get key p) as [t|]; [|reflexivity]. cbn [takes].
  destruct (parse_int64 t) as [z|] eqn:E.
  - apply parse_int64_spec in E as [D R]. split.
    + intros z' D' _. f_equal. eapply decimal_fun; eassumption.
    + intro H. destruct (H z D R).
  - split; [|reflexivity]. intros z D R. assert (parse_int64 t = Some z) by (apply parse_int64_spec; auto). congruence.
Qed.
Lemma get_ms_takes p key d : in_int32 d -> takes (KMs d) (get key p) (SInt (int32 (get_int p key d))).
Proof.
  intro Hd. pose proof (get_int_takes p key d) as H. destruct (get key p) as [t|] eqn:E; cbn [takes] in *.
  - destruct H as [A B]. split; [|split].
    + intros z D R. f_equal. assert (SInt (get_int p key d) = SInt z) as Ez by (apply A; [exact D|unfold in_int64, in_int32 in *; lia]).
      inversion Ez as [Ez2]. rewrite Ez2. apply int32_id. exact R.
    + intros z D R. f_equal. specialize (A z D R). inversion A. reflexivity.
    + intro N. specialize (B N). injection B as Eb. rewrite Eb. f_equal. rewrite int32_id by exact Hd. reflexivity.
  - injection H as Eb. rewrite Eb. f_equal. apply int32_id. exact Hd.
Qed.

Lemma same_word_lower t w : Forall (fun d => ~ (65 <= d <= 90)) w -> (same_word t w <-> lower t = w).
Proof.
  intro Hw. unfold same_word, lower. split.
  - induction 1 as [|c d t w H _ IH]; cbn [map]; [reflexivity|]. inversion Hw; subst.
    rewrite IH by assumption. f_equal. destruct ((65 <=? c) && (c <=? 90)) eqn:E; lia.
  - revert w Hw. induction t as [|c t IH]; intros w Hw E; cbn [map] in E; subst w; [constructor|].
    inversion Hw; subst. constructor; [|apply IH; auto].
    destruct ((65 <=? c) && (c <=? 90)) eqn:E; lia.
Qed.

Lemma bool_val_spec t : bool_val t = true <-> means_true t.
Proof.
  unfold bool_val, means_true.
  assert (forall w, In w [of_string "1"; of_string "true"; of_string "yes"; of_string "on"] -> Forall (fun d => ~ (65 <= d <= 90)) w) as Hw.
  { intros w H. cbn [In] in H. decompose [or] H; subst; try contradiction; repeat constructor; cbn; lia. }
  rewrite !orb_true_iff, !beqb_eq. split.
  - intros [[[E|E]|E]|E]; eexists; (split; [|apply same_word_lower; [apply Hw|exact E]]); cbn [In]; auto.
  - intros (w & I & S). apply same_word_lower in S; [|apply Hw; exact I].
    cbn [In] in I. decompose [or] I; subst w; auto; contradiction.
Qed.

Lemma get_bool_takes p key d : takes (KBool d) (get key p) (SBool (get_bool p key d)).
Proof.
  unfold get_bool. destruct (get key p) as [t|]; [|reflexivity]. cbn [takes]. exists (bool_val t). split; [reflexivity|apply bool_val_spec].
Qed.
Lemma get_str_takes p key d : takes (KText d) (get key p) (SText (get_str p key d)) /\ takes (KCsv d) (get key p) (SText (get_str p key d)).
Proof. unfold get_str. destruct (get key p); split; reflexivity. Qed.

(** * addToConf *)
Definition new_conf (p : props) (h : gostring) (old : configure) (d : descs) : configure := fst (fst (add_to_conf p h old d)).

Lemma settings_taken p h old d : Forall (fun st => takes (st_kind st) (get (st_key st) p) (st_read st (new_conf p h old d))) (hidden_setting :: settings).
Proof.
  unfold settings, hidden_setting.
  repeat constructor; cbn [st_kind st_key st_read];
  match goal with
  | |- takes (KBool _) _ _ => apply get_bool_takes
  | |- takes (KInt _) _ _ => apply get_int_takes
  | |- takes (KMs _) _ _ => apply get_ms_takes; unfold in_int32; lia
  | |- takes (KText _) _ _ => apply get_str_takes
  | |- takes (KCsv _) _ _ => apply get_str_takes
  end.
Qed.

(** what is recorded about a setting *)
Definition raw_text (p : props) (st : setting) : gostring :=
  match st_kind st with
  | KBool d => format_bool (get_bool p (st_key st) d)
  | KInt d | KMs d => format_int 10 (get_int p (st_key st) d)
  | KText d | KCsv d => get_str p (st_key st) d
  end.
Definition default_text (k : skind) : gostring :=
  match k with KBool d => format_bool d | KInt d | KMs d => format_int 10 d | KText d | KCsv d => d end.
Definition desc_entry (p : props) (st : setting) : gostring * cdesc :=
  (st_key st, mk_cdesc (st_key st) (raw_text p st) (default_text (st_kind st)) (st_desc st) (type_of (st_kind st))).

Lemma descs_built p h old d :
  snd (fst (add_to_conf p h old d)) = fold_left (fun d e => put (fst e) (snd e) d) (map (desc_entry p) settings) d.
Proof. reflexivity. Qed.

Lemma settings_nodup : NoDup (map st_key settings).
Proof.
  assert (forall l : list gostring, (fix nd l := match l with [] => true | x :: l' => negb (existsb (beqb x) l') && nd l' end) l = true -> NoDup l) as H.
  { induction l as [|x l IH]; intro H; [constructor|]. apply andb_true_iff in H as [H1 H2]. constructor; [|apply IH; exact H2].
    intro F. apply negb_true_iff in H1. assert (existsb (beqb x) l = true); [|congruence].
    apply existsb_exists. exists x. split; [exact F|apply beqb_refl]. }
  apply H. vm_compute. reflexivity.
Qed.

Lemma put_all_fresh {A} (es : list (gostring * A)) : forall d, NoDup (map fst d ++ map fst es) ->
  fold_left (fun d e => put (fst e) (snd e) d) es d = d ++ es.
Proof.
  induction es as [|[k v] es IH]; intros d ND; cbn [fold_left fst snd]; [rewrite app_nil_r; reflexivity|].
  assert (put k v d = d ++ [(k, v)]) as ->.
  { cbn [map fst] in ND. apply NoDup_remove_2 in ND. clear IH.
    induction d as [|[q w] d IH]; cbn [put app]; [reflexivity|].
    destruct (beqb_spec k q) as [->|_]; [exfalso; apply ND; left; reflexivity|].
    rewrite IH; [reflexivity|]. intro F. apply ND. right. exact F. }
  rewrite IH; [rewrite <- app_assoc; reflexivity|].
  rewrite map_app. cbn [map fst]. rewrite <- app_assoc. exact ND.
Qed.

Lemma put_all_present {A} (es : list (gostring * A)) : forall pre d, map fst d = map fst es -> NoDup (map fst pre ++ map fst es) ->
  fold_left (fun d e => put (fst e) (snd e) d) es (pre ++ d) = pre ++ es.
Proof.
  induction es as [|[k v] es IH]; intros pre d E ND; cbn [fold_left fst snd].
  - destruct d; [reflexivity|discriminate].
  - destruct d as [|[q w] d]; [discriminate|]. cbn [map fst] in *. inversion E; subst q.
    assert (put k v (pre ++ (k, w) :: d) = (pre ++ [(k, v)]) ++ d) as ->.
    { apply NoDup_remove_2 in ND. clear IH E H1. induction pre as [|[q u] pre IH]; cbn [put app].
      - rewrite beqb_refl. reflexivity.
      - destruct (beqb_spec k q) as [->|_]; [exfalso; apply ND; left; reflexivity|].
        rewrite IH; [reflexivity|]. intro F. apply ND. right. exact F. }
    rewrite IH; [rewrite <- app_assoc; reflexivity|congruence|].
    rewrite map_app. cbn [map fst]. rewrite <- app_assoc. exact ND.
Qed.

Lemma desc_entry_keys p l : map fst (map (desc_entry p) l) = map st_key l.
Proof. rewrite map_map. reflexivity. Qed.

Lemma descs_after p h old d : d = [] \/ map fst d = map st_key settings ->
  snd (fst (add_to_conf p h old d)) = map (desc_entry p) settings.
Proof.
  intro H. rewrite descs_built. destruct H as [->|H].
  - rewrite put_all_fresh; [reflexivity|]. cbn [map app]. rewrite desc_entry_keys. apply settings_nodup.
  - apply (put_all_present _ [] d); [rewrite desc_entry_keys; exact H|].
    cbn [map app]. rewrite desc_entry_keys. apply settings_nodup.
Qed.

Global Opaque add_to_conf.

(** * Refresh *)
Definition loaded_props (p fp : props) : props := non_empty (merge p fp).

Lemma refresh_reloads w s fp p : reloads w s fp -> env_props (w_env w) [] = Some p ->
  exists m, refresh_conf w s =
    (let '(c, d, changed) := add_to_conf (loaded_props p fp) (w_host w) (c_conf s) (c_descs s) in
     Some (notify (mk_cstate c m d (c_sampler s)), changed)) /\
    (forall t, w_stat w = StatTime t -> m = Some t) /\ (w_stat w = StatAbsent -> m = c_last s).
Proof.
  intros [Hs Hl] He. unfold refresh_conf. rewrite He.
  assert (forall mt : option Z, match w_load w with
      | Loaded fp0 => let '(c, d, changed) := add_to_conf (non_empty (merge p fp0)) (w_host w) (c_conf s) (c_descs s) in
          Some (notify (mk_cstate c mt d (c_sampler s)), changed)
      | LoadAbsent => let '(c, d, changed) := add_to_conf (non_empty p) (w_host w) (c_conf s) (c_descs s) in
          Some (notify (mk_cstate c mt d (c_sampler s)), changed)
      | LoadError => Some (s, false) end =
    (let '(c, d, changed) := add_to_conf (loaded_props p fp) (w_host w) (c_conf s) (c_descs s) in
     Some (notify (mk_cstate c mt d (c_sampler s)), changed))) as Hload.
  { intro mt. destruct Hl as [->|[-> ->]]; reflexivity. }
  destruct Hs as [Hs|(m & Hs & Hm)]; rewrite Hs.
  - exists (c_last s). split; [exact (Hload (c_last s))|]. split; [discriminate|reflexivity].
  - assert (after m (c_last s) = true) as ->.
    { unfold after. destruct (c_last s) as [l|]; [|reflexivity]. specialize (Hm l eq_refl). lia. }
    exists (Some m). split; [exact (Hload (Some m))|]. split; [congruence|discriminate].
Qed.

Lemma refresh_cases w s s' ch : refresh_conf w s = Some (s', ch) ->
  (s' = s /\ ch = false /\ forall fp, ~ reloads w s fp) \/
  (exists fp p m, reloads w s fp /\ env_props (w_env w) [] = Some p /\ 
     (let '(c, d, changed) := add_to_conf (loaded_props p fp) (w_host w) (c_conf s) (c_descs s) in
      s' = notify (mk_cstate c m d (c_sampler s)) /\ ch = changed) /\
     (forall t, w_stat w = StatTime t -> m = Some t) /\ (w_stat w = StatAbsent -> m = c_last s)).
Proof.
  intro H.
  assert ((exists fp, reloads w s fp) \/ (forall fp, ~ reloads w s fp)) as [[fp R]|N].
  { unfold reloads. destruct (w_load w) as [fp| |] eqn:El.
    - destruct (w_stat w) as [m| |] eqn:Es.
      + destruct (after m (c_last s)) eqn:Ea.
        * left. exists fp. split; [|auto]. right. exists m. split; [reflexivity|]. intros l Hl. unfold after in Ea. rewrite Hl in Ea. lia.
        * right. intros fp' [[F|(m' & F & G)] _]; [discriminate|]. inversion F; subst m'. unfold after in Ea.
          destruct (c_last s) as [l|]; [|discriminate]. specialize (G l eq_refl). lia.
      + left. exists fp. auto.
      + right. intros fp' [[F|(m' & F & G)] _]; discriminate.
    - destruct (w_stat w) as [m| |] eqn:Es.
      + destruct (after m (c_last s)) eqn:Ea.
        * left. exists []. split; [|auto]. right. exists m. split; [reflexivity|]. intros l Hl. unfold after in Ea. rewrite Hl in Ea. lia.
        * right. intros fp' [[F|(m' & F & G)] _]; [discriminate|]. inversion F; subst m'. unfold after in Ea.
          destruct (c_last s) as [l|]; [|discriminate]. specialize (G l eq_refl). lia.
      + left. exists []. auto.
      + right. intros fp' [[F|(m' & F & G)] _]; discriminate.
    - right. intros fp' [_ [F|[F _]]]; discriminate. }
  - destruct (env_props (w_env w) []) as [p|] eqn:Ee.
    + right. destruct (refresh_reloads w s fp p R Ee) as (m & E & A & B). rewrite H in E.
      exists fp, p, m. split; [exact R|]. split; [reflexivity|]. split; [|auto].
      destruct (add_to_conf (loaded_props p fp) (w_host w) (c_conf s) (c_descs s)) as [[c d] changed].
      inversion E. auto.
    + exfalso. destruct R as [[R|(m & R & Hm)] _]; unfold refresh_conf in H; rewrite R, Ee in H; [discriminate|].
      assert (after m (c_last s) = true) as E by (unfold after; destruct (c_last s) as [l|]; [specialize (Hm l eq_refl); lia|reflexivity]).
      rewrite E in H. discriminate.
  - left. assert (s' = s /\ ch = false) as [-> ->]; [|auto]. unfold refresh_conf in H.
    assert (forall mt : option Z, w_stat w = StatAbsent \/ (exists m, w_stat w = StatTime m /\ after m (c_last s) = true) -> w_load w <> LoadError -> False) as Bad.
    { intros _ Hs Hl. destruct (w_load w) as [fp| |] eqn:El; [|destruct (N []) | congruence]; [destruct (N fp)|]; unfold reloads; (split; [|auto]);
      (destruct Hs as [Hs|(m & Hs & Ha)]; [left; exact Hs|right]; exists m; split; [exact Hs|]; intros l Hl'; unfold after in Ha; rewrite Hl' in Ha; lia). }
    assert (w_load w = LoadError \/ w_load w <> LoadError) as [El|El] by (destruct (w_load w); auto; right; discriminate).
    + rewrite El in H. destruct (w_stat w) as [m| |]; [destruct (after m (c_last s))| |];
        try destruct (env_props (w_env w) []); congruence || (injection H; auto).
    + destruct (w_stat w) as [m| |]; [destruct (after m (c_last s)) eqn:Ea| |].
      * exfalso. apply (Bad None); [right; exists m; auto|exact El].
      * injection H; auto.
      * exfalso. apply (Bad None); [left; reflexivity|exact El].
      * injection H; auto.
Qed.
