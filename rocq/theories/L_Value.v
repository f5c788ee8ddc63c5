(** Proofs about WriteValue / ReadValue (M_Value) and the collector parser (S_Wire). *)
From Verif Require Import GoInt M_OutX M_InX L_Codec M_Value S_Wire S_Value.
From Coq Require Import ZifyBool.
Ltac Zify.zify_post_hook ::= Z.div_mod_to_equations.

(** Nested induction principle. *)
Fixpoint value_ind' (P : value -> Prop)
  (Hnil : P VNil) (Hbool : forall b, P (VBool b)) (Hdec : forall z, P (VDec z))
  (Hfloat : forall z, P (VFloat z)) (Hdouble : forall z, P (VDouble z)) (Htext : forall s, P (VText s))
  (Hth : forall z, P (VTextHash z)) (Hblob : forall b, P (VBlob b)) (Hip : forall b, P (VIp4 b))
  (Hlist : forall vs, Forall P vs -> P (VList vs))
  (Hmap : forall kvs, Forall (fun kv => P (snd kv)) kvs -> P (VMap kvs))
  (v : value) {struct v} : P v :=
  let rec := value_ind' P Hnil Hbool Hdec Hfloat Hdouble Htext Hth Hblob Hip Hlist Hmap in
  match v with
  | VNil => Hnil | VBool b => Hbool b | VDec z => Hdec z | VFloat z => Hfloat z | VDouble z => Hdouble z
  | VText s => Htext s | VTextHash z => Hth z | VBlob b => Hblob b | VIp4 b => Hip b
  | VList vs => Hlist vs ((fix go l : Forall P l :=
      match l with [] => Forall_nil _ | x :: l' => Forall_cons x (rec x) (go l') end) vs)
  | VMap kvs => Hmap kvs ((fix go l : Forall (fun kv => P (snd kv)) l :=
      match l with [] => Forall_nil _ | x :: l' => Forall_cons x (rec (snd x)) (go l') end) kvs)
  end.

Fixpoint enc_value (v : value) : bytes :=
  be 1 (value_type v) ++
  match v with
  | VNil => []
  | VBool b => be 1 (if b then 1 else 0)
  | VDec z => enc_decimal z
  | VFloat f => be 4 f
  | VDouble f => be 8 f
  | VText s => enc_string s
  | VTextHash h => be 4 h
  | VBlob b => enc_blob b
  | VIp4 b => b
  | VList vs => enc_decimal (zlen vs) ++ concat (map enc_value vs)
  | VMap kvs => enc_decimal (zlen kvs) ++ concat (map (fun kv => enc_string (fst kv) ++ enc_value (snd kv)) kvs)
  end.

Definition write_values (l : list value) (o : dout) : dout := fold_left (fun o x => write_value x o) l o.
Definition write_entries (l : list (gostring * value)) (o : dout) : dout :=
  fold_left (fun o kv => write_value (snd kv) (write_string (fst kv) o)) l o.

Lemma write_value_list vs o :
  write_value (VList vs) o = write_values vs (write_decimal (zlen vs) (write_uint8 LIST o)).
Proof.
  cbn [write_value value_type]. generalize (write_decimal (zlen vs) (write_uint8 LIST o)) as o'. clear o.
  unfold write_values. induction vs as [|x vs IH]; intros o'; cbn [fold_left]; [reflexivity|apply IH].
Qed.

Lemma write_value_map kvs o :
  write_value (VMap kvs) o = write_entries kvs (write_decimal (zlen kvs) (write_uint8 MAP o)).
Proof.
  cbn [write_value value_type]. generalize (write_decimal (zlen kvs) (write_uint8 MAP o)) as o'. clear o.
  unfold write_entries. induction kvs as [|[k x] kvs IH]; intros o'; cbn [fold_left fst snd]; [reflexivity|apply IH].
Qed.

Lemma writes_fold {A} (w : A -> dout -> dout) (enc : A -> bytes) l :
  Forall (fun a => writes (w a) (enc a)) l ->
  writes (fun o => fold_left (fun o a => w a o) l o) (concat (map enc l)).
Proof.
  induction 1 as [|a l Ha Hl IH]; cbn [fold_left map concat].
  - exact writes_id.
  - exact (writes_comp _ _ _ _ Ha IH).
Qed.

Lemma writes_ext w w' bs : (forall o, w o = w' o) -> writes w bs -> writes w' bs.
Proof. intros E H o Ho. rewrite <- E. apply H; assumption. Qed.

Lemma forallb_Forall {A} (f : A -> bool) l : forallb f l = true <-> Forall (fun a => f a = true) l.
Proof. rewrite forallb_forall, Forall_forall. reflexivity. Qed.

Lemma Forall_impl2 {A} (P Q R : A -> Prop) l :
  (forall a, P a -> Q a -> R a) -> Forall P l -> Forall Q l -> Forall R l.
Proof.
  intros H HP; induction HP as [|a l Ha HP IH]; intros HQ; inversion HQ; subst; constructor; auto.
Qed.

Lemma writes_value v : go_value v = true -> writes (write_value v) (enc_value v).
Proof.
  induction v as [| b | z | z | z | s | z | b | b | vs IH | kvs IH] using value_ind'; intros Hg.
  - cbn [write_value enc_value value_type]. rewrite app_nil_r. apply writes_uint8.
  - exact (writes_comp _ _ _ _ (writes_uint8 _) (writes_boolean b)).
  - apply (writes_comp _ _ _ _ (writes_uint8 _)). apply writes_decimal. cbn [go_value] in Hg. unfold in_int64; lia.
  - exact (writes_comp _ _ _ _ (writes_uint8 _) (writes_float32 z)).
  - exact (writes_comp _ _ _ _ (writes_uint8 _) (writes_float64 z)).
  - exact (writes_comp _ _ _ _ (writes_uint8 _) (writes_string s)).
  - exact (writes_comp _ _ _ _ (writes_uint8 _) (writes_int32 z)).
  - exact (writes_comp _ _ _ _ (writes_uint8 _) (writes_blob b)).
  - exact (writes_comp _ _ _ _ (writes_uint8 _) (writes_raw b)).
  - cbn [go_value] in Hg. apply andb_true_iff in Hg as [Hl Hg]. apply forallb_Forall in Hg.
    apply (writes_ext (fun o => write_values vs (write_decimal (zlen vs) (write_uint8 LIST o)))).
    { intros o; symmetry; apply write_value_list. }
    cbn [enc_value value_type].
    apply (writes_comp (write_uint8 LIST) (fun o => write_values vs (write_decimal (zlen vs) o))); [apply writes_uint8|].
    apply (writes_comp (write_decimal (zlen vs)) (write_values vs)).
    { apply writes_decimal. pose proof (zlen_nonneg vs). unfold in_int64; lia. }
    apply (writes_fold write_value enc_value). eapply Forall_impl2; [|exact IH|exact Hg]. auto.
  - cbn [go_value] in Hg. apply andb_true_iff in Hg as [Hl Hg]. apply andb_true_iff in Hl as [Hl Hnd].
    apply forallb_Forall in Hg.
    apply (writes_ext (fun o => write_entries kvs (write_decimal (zlen kvs) (write_uint8 MAP o)))).
    { intros o; symmetry; apply write_value_map. }
    cbn [enc_value value_type].
    apply (writes_comp (write_uint8 MAP) (fun o => write_entries kvs (write_decimal (zlen kvs) o))); [apply writes_uint8|].
    apply (writes_comp (write_decimal (zlen kvs)) (write_entries kvs)).
    { apply writes_decimal. pose proof (zlen_nonneg kvs). unfold in_int64; lia. }
    apply (writes_fold (fun kv o => write_value (snd kv) (write_string (fst kv) o))
                       (fun kv => enc_string (fst kv) ++ enc_value (snd kv))).
    eapply Forall_impl2; [|exact IH|exact Hg]. cbn beta. intros [k x] H1 H2. cbn [fst snd] in *.
    apply andb_true_iff in H2 as [_ H2].
    exact (writes_comp _ _ _ _ (writes_string k) (H1 H2)).
Qed.

(* ------------------------------------------------------------------ *)
(** * The agent's reader *)

Lemma read_times_app {A} (rd : reader -> res A) (enc : A -> bytes) l acc :
  Forall (fun a => reads rd (enc a) a) l ->
  forall rest, read_times rd (length l) acc None (buffer (concat (map enc l) ++ rest))
    = Ret (rev acc ++ l) None (buffer rest).
Proof.
  intros H; revert acc; induction H as [|a l Ha Hl IH]; intros acc rest; cbn [read_times map concat length app].
  - rewrite app_nil_r. reflexivity.
  - rewrite <- app_assoc, Ha. cbn [bind]. rewrite IH. cbn [rev]. rewrite <- app_assoc. reflexivity.
Qed.

Lemma reads_times {A} (rd : reader -> res A) (enc : A -> bytes) l :
  Forall (fun a => reads rd (enc a) a) l ->
  reads (fun r => read_times rd (length l) [] None r) (concat (map enc l)) l.
Proof. intros H rest. rewrite (read_times_app rd enc l []) by assumption. reflexivity. Qed.

Lemma put_new {A} k (v : A) m : ~ In k (map fst m) -> put k v m = m ++ [(k, v)].
Proof.
  induction m as [|[k' v'] m IH]; cbn [put map fst In app]; intros H; [reflexivity|].
  destruct (beqb_spec k k') as [E|E]; [exfalso; apply H; left; congruence|].
  rewrite IH; [reflexivity|]. intro Hin; apply H; right; assumption.
Qed.

Lemma fold_put_nodup {A} (l m : list (gostring * A)) :
  NoDup (map fst (m ++ l)) -> fold_left (fun m kv => put (fst kv) (snd kv) m) l m = m ++ l.
Proof.
  revert m; induction l as [|[k v] l IH]; intros m H; cbn [fold_left fst snd].
  - rewrite app_nil_r; reflexivity.
  - rewrite put_new.
    + rewrite IH; rewrite <- app_assoc; [reflexivity|exact H].
    + rewrite map_app in H. cbn [map fst] in H. apply NoDup_remove_2 in H.
      intro Hin; apply H; apply in_or_app; left; assumption.
Qed.

Lemma nodupb_NoDup l : nodupb l = true <-> NoDup l.
Proof.
  induction l as [|x l IH]; cbn [nodupb]; split; intros H; try constructor; try reflexivity.
  - apply andb_true_iff in H as [H _]. intro Hin.
    assert (existsb (beqb x) l = true) as E by (apply existsb_exists; exists x; split; [assumption|apply beqb_refl]).
    rewrite E in H. discriminate.
  - apply andb_true_iff in H as [_ H]. apply IH; assumption.
  - inversion H as [|? ? Hn Hd]; subst. apply andb_true_iff; split; [|apply IH; assumption].
    destruct (existsb (beqb x) l) eqn:E; [|reflexivity]. exfalso; apply Hn.
    apply existsb_exists in E as (y & Hy & E). apply beqb_eq in E. congruence.
Qed.

Lemma reads_map {A B} (m : reader -> res A) (g : A -> B) bs a :
  reads m bs a -> reads (fun r => bind (m r) (fun x e r => Ret (g x) e r)) bs (g a).
Proof. intros H rest. rewrite H. reflexivity. Qed.

Lemma enc_length_pos v : (0 < length (enc_value v))%nat.
Proof. destruct v; cbn [enc_value]; rewrite app_length, be_length; lia. Qed.

Lemma length_concat_in {A B} (f : A -> list B) l a : In a l -> (length (f a) <= length (concat (map f l)))%nat.
Proof.
  induction l as [|x l IH]; cbn [In map concat]; [contradiction|]. intros [->|H]; rewrite app_length; [lia|].
  specialize (IH H). lia.
Qed.

Lemma type_read (k : Z -> option err -> reader -> res value) ty bs v :
  0 <= ty <= 80 -> reads (k ty None) bs v -> reads (fun r => bind (read_int8 r) k) (be 1 ty ++ bs) v.
Proof. intros H Hr. eapply reads_bind; [apply reads_int8; unfold in_int8; lia|exact Hr]. Qed.

Lemma reads_value v : go_value v = true -> agent_readable v = true ->
  forall fuel, (length (enc_value v) <= fuel)%nat -> reads (read_value_fuel fuel) (enc_value v) v.
Proof.
  induction v as [| b | z | z | z | s | z | b | b | vs IH | kvs IH] using value_ind'; intros Hg Ha fuel Hf;
    (destruct fuel as [|f]; [pose proof (enc_length_pos VNil); cbn in Hf; lia|]);
    try discriminate Ha; cbn [enc_value value_type] in *; cbn [read_value_fuel];
    apply type_read; try (unfold NULL, BOOLEAN, DECIMAL, FLOAT, DOUBLE, TEXT, TEXT_HASH, BLOB, LIST, MAP; lia).
  - intros rest; reflexivity.
  - exact (reads_map _ VBool _ _ (reads_boolean b)).
  - apply (reads_map _ VDec). apply reads_decimal. cbn [go_value] in Hg; unfold in_int64; lia.
  - apply (reads_map _ VFloat). apply reads_float32. cbn [go_value] in Hg; lia.
  - apply (reads_map _ VDouble). apply reads_float64. cbn [go_value] in Hg; lia.
  - apply (reads_map _ VText). apply reads_string. cbn [agent_readable] in Ha; unfold len_readable in Ha; unfold string_ok; lia.
  - apply (reads_map _ VTextHash). apply reads_int32. cbn [go_value] in Hg; unfold in_int32; lia.
  - apply (reads_map _ VBlob). apply reads_blob. cbn [agent_readable go_value] in Ha, Hg; unfold len_readable in Ha; unfold blob_ok; lia.
  - cbn [go_value agent_readable] in *. apply andb_true_iff in Hg as [Hl Hg].
    apply forallb_Forall in Hg, Ha.
    change (uint8 LIST) with 70. cbn [NULL BOOLEAN DECIMAL FLOAT DOUBLE TEXT TEXT_HASH BLOB IP4ADDR LIST Z.eqb Pos.eqb].
    eapply reads_bind. { apply reads_decimal. pose proof (zlen_nonneg vs). unfold in_int64; lia. }
    apply (reads_map _ VList). replace (Z.to_nat (zlen vs)) with (length vs) by (unfold zlen; lia).
    apply (reads_times _ enc_value).
    rewrite Forall_forall in *. intros x Hx.
    apply (IH x Hx (Hg x Hx) (Ha x Hx)).
    rewrite !app_length, be_length in Hf. pose proof (length_concat_in enc_value vs x Hx). lia.
  - cbn [go_value agent_readable] in *. apply andb_true_iff in Hg as [Hl Hg]. apply andb_true_iff in Hl as [Hl Hnd].
    apply forallb_Forall in Hg, Ha. apply nodupb_NoDup in Hnd.
    change (uint8 MAP) with 80. cbn [NULL BOOLEAN DECIMAL FLOAT DOUBLE TEXT TEXT_HASH BLOB IP4ADDR LIST MAP Z.eqb Pos.eqb].
    eapply reads_bind. { apply reads_decimal. pose proof (zlen_nonneg kvs). unfold in_int64; lia. }
    replace (VMap kvs) with ((fun kvs => VMap (fold_left (fun m kv => put (fst kv) (snd kv) m) kvs [])) kvs)
      by (cbn beta; rewrite fold_put_nodup by exact Hnd; reflexivity).
    apply (reads_map _ (fun kvs => VMap (fold_left (fun m kv => put (fst kv) (snd kv) m) kvs []))).
    replace (Z.to_nat (zlen kvs)) with (length kvs) by (unfold zlen; lia).
    apply (reads_times _ (fun kv => enc_string (fst kv) ++ enc_value (snd kv))).
    rewrite Forall_forall in *. intros [k x] Hx. cbn [fst snd].
    specialize (IH _ Hx). specialize (Hg _ Hx). specialize (Ha _ Hx). cbn [fst snd] in *.
    apply andb_true_iff in Hg as [_ Hg]. apply andb_true_iff in Ha as [Hk Ha].
    eapply reads_bind. { apply reads_string. unfold len_readable in Hk. unfold string_ok. lia. }
    apply (reads_map _ (fun v => (k, v))). apply (IH Hg Ha).
    rewrite !app_length, be_length in Hf.
    pose proof (length_concat_in (fun kv => enc_string (fst kv) ++ enc_value (snd kv)) kvs (k, x) Hx) as H.
    cbn [fst snd] in H. rewrite app_length in H. lia.
Qed.

Lemma value_roundtrip v rest : go_value v = true -> agent_readable v = true ->
  read_value (buffer (buf (write_value v new_dout) ++ rest)) = Ret v None (buffer rest).
Proof.
  intros Hg Ha. rewrite (writes_buf _ _ (writes_value v Hg)).
  unfold read_value. apply reads_value; try assumption.
  unfold buffer. cbn [concat]. rewrite !app_length. lia.
Qed.

(* ------------------------------------------------------------------ *)
(** * Collector-side parser *)

Definition parses {A} (p : parser A) (bs : bytes) (a : A) : Prop :=
  forall rest, p (bs ++ rest) = Some (a, rest).

Lemma parses_bind {A B} (p : parser A) (f : A -> parser B) b1 b2 a b :
  parses p b1 a -> parses (f a) b2 b -> parses (pbind p f) (b1 ++ b2) b.
Proof. intros H1 H2 rest. unfold pbind. rewrite <- app_assoc, H1. apply H2. Qed.

Lemma parses_ret {A} (a : A) : parses (pret a) [] a.
Proof. intros rest; reflexivity. Qed.

Lemma parses_map {A B} (p : parser A) (g : A -> B) bs a :
  parses p bs a -> parses (pbind p (fun x => pret (g x))) bs (g a).
Proof. intros H rest. unfold pbind. rewrite H. reflexivity. Qed.

Lemma p_be_fold bs acc rest : p_be (length bs) acc (bs ++ rest) = Some (fold_left (fun a b => a * 256 + b) bs acc, rest).
Proof. revert acc; induction bs as [|b bs IH]; intros acc; cbn [length p_be app fold_left]; [reflexivity|apply IH]. Qed.

Lemma parses_be n z : parses (p_be n 0) (be n z) (z mod 256 ^ Z.of_nat n).
Proof.
  intros rest. pose proof (p_be_fold (be n z) 0 rest) as H. rewrite be_length in H. rewrite H.
  rewrite <- unbe_be. reflexivity.
Qed.

Lemma parses_u8 z : is_byte z -> parses p_u8 (be 1 z) z.
Proof. intros H rest. unfold is_byte in H. unfold p_u8, p_u16, p_u32, p_u64. rewrite (parses_be 1 z rest). rewrite Z.mod_small by (cbn; lia). reflexivity. Qed.
Lemma parses_u16 z : 0 <= z < 65536 -> parses p_u16 (be 2 z) z.
Proof. intros H rest. unfold p_u8, p_u16, p_u32, p_u64. rewrite (parses_be 2 z rest). rewrite Z.mod_small by (cbn; lia). reflexivity. Qed.
Lemma parses_u32 z : 0 <= z < 2 ^ 32 -> parses p_u32 (be 4 z) z.
Proof. intros H rest. unfold p_u8, p_u16, p_u32, p_u64. rewrite (parses_be 4 z rest). rewrite Z.mod_small by (cbn; lia). reflexivity. Qed.
Lemma parses_u64 z : 0 <= z < 2 ^ 64 -> parses p_u64 (be 8 z) z.
Proof. intros H rest. unfold p_u8, p_u16, p_u32, p_u64. rewrite (parses_be 8 z rest). rewrite Z.mod_small by (cbn; lia). reflexivity. Qed.

Lemma parses_i8 z : in_int8 z -> parses p_i8 (be 1 z) z.
Proof.
  intros H rest. unfold in_int8 in H. unfold p_i8, p_u8, p_u16, p_u32, p_u64, pbind, pret, signed. rewrite (parses_be 1 z rest).
  change (256 ^ Z.of_nat 1) with 256. change (2 ^ 8) with 256. change (2 ^ (8 - 1)) with 128.
  destruct (z mod 256 <? 128) eqn:E; f_equal; f_equal; lia.
Qed.
Lemma parses_i16 z : in_int16 z -> parses p_i16 (be 2 z) z.
Proof.
  intros H rest. unfold in_int16 in H. unfold p_i16, p_u8, p_u16, p_u32, p_u64, pbind, pret, signed. rewrite (parses_be 2 z rest).
  change (256 ^ Z.of_nat 2) with 65536. change (2 ^ 16) with 65536. change (2 ^ (16 - 1)) with 32768.
  destruct (z mod 65536 <? 32768) eqn:E; f_equal; f_equal; lia.
Qed.
Lemma parses_i32 z : in_int32 z -> parses p_i32 (be 4 z) z.
Proof.
  intros H rest. unfold in_int32 in H. unfold p_i32, p_u8, p_u16, p_u32, p_u64, pbind, pret, signed. rewrite (parses_be 4 z rest).
  change (256 ^ Z.of_nat 4) with 4294967296. change (2 ^ 32) with 4294967296. change (2 ^ (32 - 1)) with 2147483648.
  destruct (z mod 4294967296 <? 2147483648) eqn:E; f_equal; f_equal; lia.
Qed.
Lemma parses_i64 z : in_int64 z -> parses p_i64 (be 8 z) z.
Proof.
  intros H rest. unfold in_int64 in H. unfold p_i64, p_u8, p_u16, p_u32, p_u64, pbind, pret, signed. rewrite (parses_be 8 z rest).
  change (256 ^ Z.of_nat 8) with 18446744073709551616. change (2 ^ 64) with 18446744073709551616.
  change (2 ^ (64 - 1)) with 9223372036854775808.
  destruct (z mod 18446744073709551616 <? 9223372036854775808) eqn:E; f_equal; f_equal; lia.
Qed.
Lemma parses_bool (b : bool) : parses p_bool (be 1 (if b then 1 else 0)) b.
Proof.
  unfold p_bool. pose proof (parses_map p_u8 (fun x => negb (x =? 0)) (be 1 (if b then 1 else 0)) (if b then 1 else 0)) as H.
  cbn beta in H. replace (negb ((if b then 1 else 0) =? 0)) with b in H by (destruct b; reflexivity).
  apply H. apply parses_u8. unfold is_byte; destruct b; lia.
Qed.

Lemma parses_take v : parses (p_take (zlen v)) v v.
Proof.
  intros rest. unfold p_take. rewrite zlen_app. pose proof (zlen_nonneg v). pose proof (zlen_nonneg rest).
  replace ((0 <=? zlen v) && (zlen v <=? zlen v + zlen rest)) with true by lia.
  replace (Z.to_nat (zlen v)) with (length v) by (unfold zlen; lia).
  rewrite firstn_app, firstn_all, Nat.sub_diag, firstn_O, app_nil_r.
  rewrite skipn_app, skipn_all, Nat.sub_diag. reflexivity.
Qed.

Lemma parses_decimal v : in_int64 v -> parses p_decimal (enc_decimal v) v.
Proof.
  intros Hv. unfold in_int64 in Hv. unfold enc_decimal, p_decimal.
  destruct (v =? 0) eqn:E0.
  { intros rest. change [0] with (be 1 0). unfold pbind. rewrite (parses_u8 0 ltac:(unfold is_byte; lia) rest). cbn. unfold pret. do 2 f_equal. lia. }
  destruct ((-128 <=? v) && (v <=? 127)) eqn:E1.
  { eapply (parses_bind _ _ (be 1 1)); [apply parses_u8; unfold is_byte; lia|]. apply parses_i8; unfold in_int8; lia. }
  destruct ((-32768 <=? v) && (v <=? 32767)) eqn:E2.
  { eapply (parses_bind _ _ (be 1 2)); [apply parses_u8; unfold is_byte; lia|]. apply parses_i16; unfold in_int16; lia. }
  destruct ((-2147483648 <=? v) && (v <=? 2147483647)) eqn:E3.
  { eapply (parses_bind _ _ (be 1 4)); [apply parses_u8; unfold is_byte; lia|]. apply parses_i32; unfold in_int32; lia. }
  eapply (parses_bind _ _ (be 1 8)); [apply parses_u8; unfold is_byte; lia|]. apply parses_i64; unfold in_int64; lia.
Qed.

Lemma parses_blob v : zlen v <= 2147483647 -> parses p_blob (enc_blob v) v.
Proof.
  intros H. pose proof (zlen_nonneg v) as Hn. unfold enc_blob, p_blob. cbv zeta.
  destruct (zlen v =? 0) eqn:E0.
  { intros rest. change [0] with (be 1 0). unfold pbind. rewrite (parses_u8 0 ltac:(unfold is_byte; lia) rest). cbn.
    rewrite (zlen_0_nil v) by lia. unfold p_take. pose proof (zlen_nonneg rest).
    replace ((0 <=? 0) && (0 <=? zlen rest)) with true by lia. reflexivity. }
  destruct (zlen v <=? 253) eqn:E1.
  { eapply parses_bind; [apply parses_u8; unfold is_byte; lia|].
    replace (zlen v =? 255) with false by lia. replace (zlen v =? 254) with false by lia. apply parses_take. }
  destruct (zlen v <=? 65535) eqn:E2.
  { eapply (parses_bind _ _ (be 1 255)); [apply parses_u8; unfold is_byte; lia|].
    cbn beta iota. eapply parses_bind; [apply parses_u16; lia|]. apply parses_take. }
  eapply (parses_bind _ _ (be 1 254)); [apply parses_u8; unfold is_byte; lia|].
  cbn beta iota. eapply parses_bind; [apply parses_i32; unfold in_int32; lia|]. apply parses_take.
Qed.

Lemma enc_string_wire s : enc_string s = enc_blob (on_wire s).
Proof.
  unfold enc_string, on_wire, huge_text.
  destruct (zlen s >? 100000) eqn:E; [replace (100000 <? zlen s) with true by lia|replace (100000 <? zlen s) with false by lia]; reflexivity.
Qed.

Lemma on_wire_len s : zlen (on_wire s) <= 100000.
Proof. unfold on_wire. destruct (100000 <? zlen s) eqn:E; [cbn; lia|lia]. Qed.

Lemma parses_text s : parses p_text (enc_string s) (on_wire s).
Proof. rewrite enc_string_wire. apply parses_blob. pose proof (on_wire_len s); lia. Qed.

Lemma parses_many {A B} (p : parser A) (enc : B -> bytes) (g : B -> A) l :
  Forall (fun b => parses p (enc b) (g b)) l -> parses (p_many p (length l)) (concat (map enc l)) (map g l).
Proof.
  induction 1 as [|a l Ha Hl IH]; cbn [length p_many map concat].
  - apply parses_ret.
  - eapply parses_bind; [exact Ha|]. exact (parses_map _ (fun xs => g a :: xs) _ _ IH).
Qed.

Lemma ptype_read (k : Z -> parser value) ty bs v :
  0 <= ty <= 80 -> parses (k ty) bs v -> parses (pbind p_u8 k) (be 1 ty ++ bs) v.
Proof. intros H Hr. eapply parses_bind; [apply parses_u8; unfold is_byte; lia|exact Hr]. Qed.

Lemma parses_value v : go_value v = true ->
  forall fuel, (length (enc_value v) <= fuel)%nat -> parses (p_value fuel) (enc_value v) (collector_view v).
Proof.
  induction v as [| b | z | z | z | s | z | b | b | vs IH | kvs IH] using value_ind'; intros Hg fuel Hf;
    (destruct fuel as [|f]; [pose proof (enc_length_pos VNil); cbn in Hf; lia|]);
    cbn [enc_value value_type collector_view] in *; cbn [p_value];
    apply ptype_read; try (unfold NULL, BOOLEAN, DECIMAL, FLOAT, DOUBLE, TEXT, TEXT_HASH, BLOB, LIST, MAP, IP4ADDR; lia).
  - apply parses_ret.
  - exact (parses_map _ VBool _ _ (parses_bool b)).
  - apply (parses_map _ VDec). apply parses_decimal. cbn [go_value] in Hg; unfold in_int64; lia.
  - apply (parses_map _ VFloat). apply parses_u32. cbn [go_value] in Hg; lia.
  - apply (parses_map _ VDouble). apply parses_u64. cbn [go_value] in Hg; lia.
  - apply (parses_map _ VText). apply parses_text.
  - apply (parses_map _ VTextHash). apply parses_i32. cbn [go_value] in Hg; unfold in_int32; lia.
  - apply (parses_map _ VBlob). apply parses_blob. cbn [go_value] in Hg; lia.
  - apply (parses_map _ VIp4). cbn [go_value] in Hg. replace 4 with (zlen b) by lia. apply parses_take.
  - cbn [go_value] in *. apply andb_true_iff in Hg as [Hl Hg].
    apply forallb_Forall in Hg.
    cbn [NULL BOOLEAN DECIMAL FLOAT DOUBLE TEXT TEXT_HASH BLOB IP4ADDR LIST Z.eqb Pos.eqb].
    eapply parses_bind. { apply parses_decimal. pose proof (zlen_nonneg vs). unfold in_int64; lia. }
    apply (parses_map _ VList). replace (Z.to_nat (zlen vs)) with (length vs) by (unfold zlen; lia).
    apply (parses_many _ enc_value).
    rewrite Forall_forall in *. intros x Hx.
    apply (IH x Hx (Hg x Hx)).
    rewrite !app_length, be_length in Hf. pose proof (length_concat_in enc_value vs x Hx). lia.
  - cbn [go_value] in *. apply andb_true_iff in Hg as [Hl Hg]. apply andb_true_iff in Hl as [Hl Hnd].
    apply forallb_Forall in Hg.
    cbn [NULL BOOLEAN DECIMAL FLOAT DOUBLE TEXT TEXT_HASH BLOB IP4ADDR LIST MAP Z.eqb Pos.eqb].
    eapply parses_bind. { apply parses_decimal. pose proof (zlen_nonneg kvs). unfold in_int64; lia. }
    apply (parses_map _ VMap).
    replace (Z.to_nat (zlen kvs)) with (length kvs) by (unfold zlen; lia).
    apply (parses_many _ (fun kv => enc_string (fst kv) ++ enc_value (snd kv))
                         (fun kv => (on_wire (fst kv), collector_view (snd kv)))).
    rewrite Forall_forall in *. intros [k x] Hx. cbn [fst snd].
    specialize (IH _ Hx). specialize (Hg _ Hx). cbn [fst snd] in *.
    apply andb_true_iff in Hg as [_ Hg].
    eapply parses_bind. { apply parses_text. }
    apply (parses_map _ (fun v => (on_wire k, v))). apply (IH Hg).
    rewrite !app_length, be_length in Hf.
    pose proof (length_concat_in (fun kv => enc_string (fst kv) ++ enc_value (snd kv)) kvs (k, x) Hx) as H.
    cbn [fst snd] in H. rewrite app_length in H. lia.
Qed.

Lemma value_collector v rest : go_value v = true ->
  forall fuel, (length (buf (write_value v new_dout)) <= fuel)%nat ->
  p_value fuel (buf (write_value v new_dout) ++ rest) = Some (collector_view v, rest).
Proof.
  intros Hg. rewrite (writes_buf _ _ (writes_value v Hg)). intros fuel Hf. apply parses_value; assumption.
Qed.
