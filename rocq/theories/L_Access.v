From Verif Require Import GoInt M_OutX L_Codec M_Value S_Value L_Value M_Packs M_Steps M_Access M_Calls L_Packs.
From Coq Require Import ZifyBool.

Lemma get_put_same {A} k (v : A) t : get k (put k v t) = Some v.
Proof.
  induction t as [|[k' v'] t IH]; cbn [put get].
  - rewrite beqb_refl. reflexivity.
  - destruct (beqb k k') eqn:E; cbn [get]; [rewrite beqb_refl; reflexivity|rewrite E; assumption].
Qed.

Lemma get_put_other {A} k k' (v : A) t : k <> k' -> get k (put k' v t) = get k t.
Proof.
  intros H. induction t as [|[k0 v0] t IH]; cbn [put get].
  - destruct (beqb_spec k k'); [contradiction|reflexivity].
  - destruct (beqb_spec k' k0) as [->|E]; cbn [get].
    + destruct (beqb_spec k k0); [contradiction|reflexivity].
    + rewrite IH. reflexivity.
Qed.

Lemma put_keys_in {A} k (v : A) t x : In x (map fst (put k v t)) <-> x = k \/ In x (map fst t).
Proof.
  induction t as [|[k' v'] t IH]; cbn [put map fst In].
  - intuition.
  - destruct (beqb_spec k k') as [->|E]; cbn [map fst In]; [|rewrite IH]; intuition.
Qed.

Lemma put_nodup {A} k (v : A) t : NoDup (map fst t) -> NoDup (map fst (put k v t)).
Proof.
  induction t as [|[k' v'] t IH]; cbn [put map fst]; intros H.
  - repeat constructor. intros [].
  - inversion H as [|? ? Hn Hd]; subst. destruct (beqb_spec k k') as [->|E]; cbn [map fst]; constructor; auto.
    rewrite put_keys_in. intros [->|Hin]; contradiction.
Qed.

Lemma list_at_last v l : list_at (zlen l) (l ++ [v]) = Some v.
Proof.
  unfold list_at. rewrite zlen_app. pose proof (zlen_nonneg l).
  change (zlen [v]) with 1.
  replace ((0 <=? zlen l) && (zlen l <? zlen l + 1)) with true by lia.
  replace (Z.to_nat (zlen l)) with (length l) by (unfold zlen; lia).
  rewrite nth_error_app2, Nat.sub_diag by lia. reflexivity.
Qed.

Lemma list_at_old v i l : 0 <= i < zlen l -> list_at i (l ++ [v]) = list_at i l.
Proof.
  intros H. unfold list_at. rewrite zlen_app. change (zlen [v]) with 1.
  replace ((0 <=? i) && (i <? zlen l + 1)) with true by lia.
  replace ((0 <=? i) && (i <? zlen l)) with true by lia.
  apply nth_error_app1. unfold zlen in H. lia.
Qed.

(* ------------------------------------------------------------------ *)
(** * GetWriteSize: no well-formedness is needed *)

(** [w] appends something and counts it *)
Definition counts (w : dout -> dout) : Prop :=
  forall o, written o = int32 (zlen (buf o)) ->
    written (w o) = int32 (zlen (buf (w o))) /\ exists bs, buf (w o) = buf o ++ bs.

Lemma counts_id : counts (fun o => o).
Proof. intros o H. split; [assumption|exists []; rewrite app_nil_r; reflexivity]. Qed.
Lemma counts_comp w1 w2 : counts w1 -> counts w2 -> counts (fun o => w2 (w1 o)).
Proof.
  intros H1 H2 o Ho. destruct (H1 o Ho) as [E1 [b1 B1]]. destruct (H2 (w1 o) E1) as [E2 [b2 B2]].
  split; [assumption|]. exists (b1 ++ b2). rewrite B2, B1, app_assoc. reflexivity.
Qed.
Lemma counts_emit n bs : zlen bs = n -> counts (emit n bs).
Proof.
  intros <- o H. cbn [emit written buf]. rewrite H, int32_plus_l, zlen_app. split; [reflexivity|eauto].
Qed.
Lemma counts_raw v : counts (write_raw v).
Proof.
  intros o H. unfold write_raw, emit; cbn [written buf]. rewrite H, int32_plus_l, int32_plus_r, zlen_app. split; [reflexivity|eauto].
Qed.
Lemma counts_fold {A} (w : A -> dout -> dout) l : (forall a, In a l -> counts (w a)) -> counts (fun o => fold_left (fun o a => w a o) l o).
Proof.
  induction l as [|a l IH]; intros H; cbn [fold_left]; [exact counts_id|].
  apply (counts_comp (w a) (fun o => fold_left (fun o a => w a o) l o)); [apply H; left; reflexivity|apply IH; intros; apply H; right; assumption].
Qed.
Lemma counts_wseq ws : Forall counts ws -> counts (wseq ws).
Proof. intros H. apply (counts_fold (fun w => w)). rewrite Forall_forall in H. exact H. Qed.

Ltac csolve := first [apply counts_emit; rewrite be_zlen; reflexivity | apply counts_raw].
Lemma counts_int8 z : counts (write_int8 z). Proof. csolve. Qed.
Lemma counts_uint8 z : counts (write_uint8 z). Proof. csolve. Qed.
Lemma counts_int16 z : counts (write_int16 z). Proof. csolve. Qed.
Lemma counts_int32 z : counts (write_int32 z). Proof. csolve. Qed.
Lemma counts_int64 z : counts (write_int64 z). Proof. csolve. Qed.
Lemma counts_uint64 z : counts (write_uint64 z). Proof. csolve. Qed.
Lemma counts_float32 z : counts (write_float32 z). Proof. csolve. Qed.
Lemma counts_float64 z : counts (write_float64 z). Proof. csolve. Qed.
Lemma counts_boolean b : counts (write_boolean b). Proof. destruct b; csolve. Qed.
Lemma counts_decimal z : counts (write_decimal z).
Proof.
  unfold write_decimal. destruct (z =? 0); [apply counts_int8|].
  repeat match goal with |- context [if ?c then _ else _] => destruct c end;
    first [exact counts_id | refine (counts_comp _ _ (counts_int8 _) _);
      first [apply counts_int8 | apply counts_int16 | apply counts_int32 | apply counts_int64]].
Qed.
Lemma counts_decimal32 z : counts (write_decimal32 z).
Proof.
  unfold write_decimal32. destruct (z =? 0); [apply counts_int8|].
  repeat match goal with |- context [if ?c then _ else _] => destruct c end;
    first [exact counts_id | refine (counts_comp _ _ (counts_int8 _) _);
      first [apply counts_int8 | apply counts_int16 | apply counts_int32]].
Qed.
Lemma counts_blob b : counts (write_blob b).
Proof.
  unfold write_blob. cbv zeta. destruct (zlen b =? 0); [apply counts_uint8|].
  destruct (zlen b <=? 253); [exact (counts_comp _ _ (counts_uint8 _) (counts_raw _))|].
  destruct (zlen b <=? 65535).
  - exact (counts_comp _ _ (counts_comp _ _ (counts_uint8 255) (counts_int16 _)) (counts_raw _)).
  - exact (counts_comp _ _ (counts_comp _ _ (counts_uint8 254) (counts_int32 _)) (counts_raw _)).
Qed.
Lemma counts_string s : counts (write_string s).
Proof. unfold write_string. cbv zeta. destruct (zlen s =? 0); [apply counts_int8|]. destruct (zlen s >? 100000); apply counts_blob. Qed.
Lemma counts_int_bytes b : counts (write_int_bytes b).
Proof. exact (counts_comp _ _ (counts_int32 _) (counts_raw _)). Qed.
Lemma counts_int32_array l : counts (write_int32_array l).
Proof.
  unfold write_int32_array. refine (counts_comp _ (fun o => fold_left (fun o v => write_int32 v o) l o) (counts_int16 _) _).
  apply counts_fold. intros; apply counts_int32.
Qed.
Lemma counts_ext w w' : (forall o, w o = w' o) -> counts w -> counts w'.
Proof. intros E H o Ho. rewrite <- E. apply H; assumption. Qed.
Lemma counts_value v : counts (write_value v).
Proof.
  induction v as [| b | z | z | z | s | z | b | b | vs IH | kvs IH] using value_ind'.
  - apply counts_uint8.
  - exact (counts_comp _ _ (counts_uint8 _) (counts_boolean b)).
  - exact (counts_comp _ _ (counts_uint8 _) (counts_decimal z)).
  - exact (counts_comp _ _ (counts_uint8 _) (counts_float32 z)).
  - exact (counts_comp _ _ (counts_uint8 _) (counts_float64 z)).
  - exact (counts_comp _ _ (counts_uint8 _) (counts_string s)).
  - exact (counts_comp _ _ (counts_uint8 _) (counts_int32 z)).
  - exact (counts_comp _ _ (counts_uint8 _) (counts_blob b)).
  - exact (counts_comp _ _ (counts_uint8 _) (counts_raw b)).
  - apply (counts_ext (fun o => write_values vs (write_decimal (zlen vs) (write_uint8 LIST o)))).
    { intros o; symmetry; apply write_value_list. }
    refine (counts_comp _ (write_values vs) (counts_comp _ _ (counts_uint8 _) (counts_decimal _)) _).
    apply (counts_fold write_value). rewrite Forall_forall in IH. exact IH.
  - apply (counts_ext (fun o => write_entries kvs (write_decimal (zlen kvs) (write_uint8 MAP o)))).
    { intros o; symmetry; apply write_value_map. }
    refine (counts_comp _ (write_entries kvs) (counts_comp _ _ (counts_uint8 _) (counts_decimal _)) _).
    apply (counts_fold (fun kv o => write_value (snd kv) (write_string (fst kv) o))).
    rewrite Forall_forall in IH. intros kv Hin. exact (counts_comp _ _ (counts_string _) (IH kv Hin)).
Qed.
Ltac cfields := apply counts_wseq; repeat (apply Forall_cons; [first
  [ apply counts_string | apply counts_boolean | apply counts_blob | apply counts_int64 | apply counts_int32 | apply counts_int8
  | apply counts_uint8 | apply counts_decimal32 | apply counts_decimal | apply counts_value | apply counts_int32_array ] |]);
  try apply Forall_nil.
Lemma counts_pack p : counts (write_pack p).
Proof.
  unfold write_pack. apply (counts_comp (write_uint8 (pack_type p)) (write_pack_body p)); [apply counts_uint8|].
  destruct p; cbn [write_pack_body]; try (cfields; fail).
  - refine (counts_comp _ (fun o => fold_left (fun o kv => write_value (snd kv) (write_string (fst kv) o)) m o) (counts_decimal (zlen m)) _).
    apply (counts_fold (fun kv o => write_value (snd kv) (write_string (fst kv) o))). intros kv _.
    exact (counts_comp _ _ (counts_string _) (counts_value _)).
  - apply counts_blob.
Qed.
Lemma counts_single s : counts (write_single s). Proof. cfields. Qed.
Lemma counts_step s : counts (write_step s).
Proof.
  unfold write_step. apply (counts_comp (write_uint8 (step_type s)) (write_step_body s)); [apply counts_uint8|].
  destruct s; cbn [write_step_body app]; try (apply counts_wseq; apply Forall_cons; [apply counts_single|]).
  2:{ cbn [app]. repeat (apply Forall_cons; [first [apply counts_uint8 | apply counts_decimal32 | apply counts_decimal]|]).
      destruct (Opt =? 1); [apply Forall_cons; [apply counts_string|apply Forall_nil]|apply Forall_nil]. }
  all: repeat (apply Forall_cons; [first
  [ apply counts_string | apply counts_int64 | apply counts_uint8 | apply counts_decimal32 | apply counts_decimal | apply counts_int32_array ] |]);
  apply Forall_nil.
Qed.

Lemma counts_call c : counts (call c).
Proof.
  destruct c; cbn [call]; first [apply counts_int8 | apply counts_uint8 | apply counts_int16 | apply counts_int32 | apply counts_int64
   | apply counts_uint64 | apply counts_float32 | apply counts_float64 | apply counts_decimal | apply counts_decimal32 | apply counts_boolean
   | apply counts_string | apply counts_blob | apply counts_int_bytes | apply counts_raw | apply counts_int32_array | apply counts_value
   | apply counts_pack | apply counts_step ].
Qed.

Lemma counts_calls cs : counts (calls cs).
Proof. apply (counts_fold call). intros c _. apply counts_call. Qed.

Lemma write_size cs :
  get_write_size (calls cs new_dout) = int32 (zlen (buf (calls cs new_dout))).
Proof. apply (counts_calls cs new_dout). reflexivity. Qed.

Lemma bytes_append cs1 cs2 : exists bs, buf (calls (cs1 ++ cs2) new_dout) = buf (calls cs1 new_dout) ++ bs.
Proof.
  unfold calls. rewrite fold_left_app. apply (counts_calls cs2). apply write_size.
Qed.
