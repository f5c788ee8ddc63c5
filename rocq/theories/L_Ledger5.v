(** The steps of typed histories are plain. *)
From Verif Require Import GoInt M_Util M_Hash L_Hash M_StrMatch M_Packs S_Packs M_Steps M_Cache L_Cache M_Text M_Sampler M_Profile L_Profile S_Profile M_Trace
  L_Trace L_TraceRel S_Trace L_TraceInv L_TraceStart L_TraceSafe L_TraceActive L_TraceHist S_Steps P_Profile P_Trace P_Trace2 P_Trace3 S_Ledger L_Ledger L_Ledger2 L_Ledger3 L_Ledger4.
From Coq Require Import ZifyBool Permutation.

Lemma crc_loop_range bs : forall crc z, in_int32 crc -> crc_loop crc bs = Some z -> in_int32 z.
Proof.
  induction bs as [|b bs IH]; intros crc z R; cbn [crc_loop]; [intros E; injection E as <-; exact R|].
  destruct (crc_step crc b) as [c|] eqn:E; [|discriminate]. apply IH. revert E. unfold crc_step. destruct (nth_error _ _) as [t|]; [|discriminate].
  intros E. injection E as <-. apply in_int32_lxor; [|apply int32_range].
  pose proof (Z.land_ones (Z.shiftr crc 8) 24 ltac:(lia)) as H. change (Z.ones 24) with 16777215 in H. rewrite H.
  pose proof (Z.mod_pos_bound (Z.shiftr crc 8) (2 ^ 24) ltac:(lia)). unfold in_int32. change (2 ^ 24) with 16777216 in *. lia.
Qed.
Lemma text_id_range s : in_int32 (text_id s).
Proof.
  unfold text_id. destruct s as [|b s]; [unfold in_int32; lia|]. unfold hash_string, hash. destruct (crc_loop (-1) (b :: s)) as [z|] eqn:E; cbn [option_map]; [|unfold in_int32; lia].
  apply in_int32_lxor; [|unfold in_int32; lia]. eapply crc_loop_range; [|exact E]. unfold in_int32; lia.
Qed.
Lemma i32 z : in_int32 z -> is_i32 z = true. Proof. unfold in_int32, is_i32. lia. Qed.
Lemma i64 z : in_int64 z -> is_i64 z = true. Proof. unfold in_int64, is_i64. lia. Qed.
Lemma i32_text s : is_i32 (text_id s) = true. Proof. apply i32, text_id_range. Qed.
Lemma i32_wrap z : is_i32 (int32 z) = true. Proof. apply i32, int32_range. Qed.
Lemma i32_ms n c : is_i32 (ms n c) = true. Proof. apply i32_wrap. Qed.
Lemma single_at t : is_i32 t = true -> go_single (at_ms t) = true.
Proof. intros H. unfold go_single, at_ms. cbn [ss_Parent ss_Index ss_StartTime]. rewrite H. reflexivity. Qed.

Definition tidy (ops : list prof_op) : Prop := Forall (fun o => plain (op_step o)) ops.
Lemma tidy_snoc ops o : tidy ops -> plain (op_step o) -> tidy (ops ++ [o]).
Proof. intros H P. apply Forall_app. split; [exact H|]. constructor; [exact P|constructor]. Qed.
Ltac plain_tac := split; [unfold go_step; cbn [step_single]; rewrite ?i32_text, ?i32_wrap, ?i32_ms, ?single_at, ?i64 by (first [assumption | apply i32_ms | reflexivity]); reflexivity|reflexivity].
Lemma plain_msg n c s : plain (SMessage (at_ms (ms n c)) s). Proof. plain_tac. Qed.
Lemma plain_strip st : plain st -> plain (strip st).
Proof.
  intros (G & D). split; [|destruct st; exact D]. unfold go_step in *. apply andb_prop in G. destruct G as (G1 & G2). apply andb_true_intro.
  split; [|destruct st; exact G2]. unfold go_single in *. apply andb_prop in G1. destruct G1 as (_ & G1).
  destruct st; cbn in G1 |- *; exact G1.
Qed.
Lemma tidy_steps ops : tidy ops -> Forall plain (steps_of ops).
Proof.
  induction ops as [|o ops IH] using rev_ind; intros F; [constructor|]. apply Forall_app in F. destruct F as (F1 & F2). inversion_clear F2 as [|? ? P _].
  specialize (IH F1). rewrite steps_of_snoc. destruct o as [st|a st|st]; cbn [op_step] in P; apply plain_strip in P.
  - apply Forall_app. auto.
  - revert a IH. generalize (steps_of ops). intros l. induction l as [|x l IHl]; intros [|a] H; cbn [heap_set]; try exact H; inversion_clear H; constructor; auto.
  - apply Forall_app. auto.
Qed.
Lemma tidy_step c a st : tidy (did c) -> step_of c a = Some st -> plain st.
Proof. intros T E. apply tidy_steps in T. rewrite Forall_forall in T. apply T. eapply nth_error_In, E. Qed.
Lemma tidy_params n ps : forall c, tidy (did c) -> tidy (did (add_params_to n ps c)).
Proof.
  induction ps as [|p ps IH]; intros c H; [exact H|]. cbn [add_params_to fold_left]. destruct p as [s|]; [|apply IH; exact H].
  apply (IH (add_step_to _ c)). apply tidy_snoc; [exact H|]. apply plain_msg.
Qed.
Lemma plain_api n m ad c : in_int64 (n_key n) -> plain (api_step n m ad c).
Proof. intros K. unfold api_step. destruct ad; plain_tac. Qed.
Lemma tidy_call n k c : typed (n, k) -> tidy (did c) -> tidy (did (becomes (on_account n k c))).
Proof.
  intros (K & T) H. cbn [fst] in K. destruct k; cbn [on_account quiet becomes]; rewrite ?did_ends; try exact H.
  - destruct status; [|rewrite did_ends; exact H]. destruct (over c); [exact H|]. rewrite did_ends. exact H.
  - apply tidy_snoc; [rewrite did_error; exact H|]. cbn [op_step]. plain_tac.
  - destruct st as [st|]; [|exact H]. apply tidy_snoc; [exact H|exact T].
  - apply tidy_snoc; [exact H|]. apply plain_msg.
  - apply tidy_snoc; [exact H|]. cbn [op_step]. destruct T as (T1 & T2). split; [|reflexivity]. unfold go_step. cbn [step_single].
    rewrite single_at, i32_text, !i32 by (first [assumption|apply i32_ms]). reflexivity.
  - apply tidy_snoc; [exact H|]. cbn [op_step]. destruct T as (T1 & T2). split; [|reflexivity]. unfold go_step. cbn [step_single].
    rewrite single_at, i32_text, (i32 elapsed) by (first [assumption|apply i32_ms]). unfold is_u8. lia.
  - cbn [method_started becomes]. apply tidy_snoc; [apply tidy_params, H|]. cbn [op_step]. plain_tac.
  - cbn [method_started becomes]. apply tidy_snoc; [apply tidy_params, H|]. cbn [op_step]. plain_tac.
  - destruct ptr as [p|]; [|exact H]. destruct (step_of c p) as [st|] eqn:E; [|exact H]. pose proof (tidy_step _ _ _ H E) as (P & _).
    destruct st; try exact H. apply tidy_snoc; [exact H|]. split; [|reflexivity]. unfold go_step in *. cbn [step_single op_step] in *. rewrite i32_wrap. lia.
  - apply tidy_snoc; [exact H|]. apply plain_api, K.
  - rewrite did_gxid. apply tidy_snoc; [exact H|]. apply plain_api, K.
  - destruct ptr as [p|]; [|exact H]. destruct (step_of c p) as [st|] eqn:E; [|exact H]. pose proof (tidy_step _ _ _ H E) as (P & _).
    destruct st; try exact H. cbv zeta. cbn [quiet becomes put_did did]. apply tidy_snoc; [destruct err; rewrite ?did_error; exact H|]. split; [|reflexivity].
    unfold go_step in *. cbn [step_single op_step] in *. rewrite i32_wrap. destruct err; rewrite ?i32_text; lia.
Qed.
Definition tidy_books (l : ledger) : Prop := Forall (fun c => tidy (did c)) l.
Lemma tidy_nth l h c : tidy_books l -> nth_error l h = Some c -> tidy (did c).
Proof. intros F E. unfold tidy_books in F. rewrite Forall_forall in F. apply F. eapply nth_error_In, E. Qed.
Lemma tidy_set l h c : tidy_books l -> tidy (did c) -> tidy_books (list_set l h c).
Proof.
  intros F H. apply Forall_forall. intros x Hx. apply In_nth_error in Hx. destruct Hx as (i & E). rewrite list_set_nth in E.
  destruct (Nat.eqb h i && _); [injection E as <-; exact H|]. eapply tidy_nth; eassumption.
Qed.
Lemma tidy_app l c : tidy_books l -> tidy (did c) -> tidy_books (l ++ [c]).
Proof. intros F H. apply Forall_app. split; [exact F|]. constructor; [exact H|constructor]. Qed.
Lemma tidy_opened n a b x : tidy (did (opened n a b x)).
Proof. unfold opened. cbn [did]. constructor; [|constructor]. split; reflexivity. Qed.
Lemma tidy_msgs n l : forall c, tidy (did c) -> tidy (did (fold_left (fun c s => add_step_to (SMessage (at_ms (ms n c)) s) c) l c)).
Proof. induction l as [|s l IH]; intros c H; [exact H|]. cbn [fold_left]. apply IH. apply tidy_snoc; [exact H|apply plain_msg]. Qed.
Lemma tidy_marked n c : tidy (did c) -> tidy (did (marked_stuck n c)).
Proof. intros H. unfold marked_stuck. rewrite did_error. apply tidy_snoc; [exact H|]. cbn [op_step]. 
  generalize (of_string "Service currently may running, not finished!"). intros s. plain_tac. Qed.
Lemma tidy_ledger n k l r l' rs : typed (n, k) -> ledger_step n k l r l' rs -> tidy_books l -> tidy_books l'.
Proof.
  intros T H F.
  assert (plain_call k -> ledger_call n k l = (l', r, rs) -> tidy_books l') as P.
  { intros Hp Hj. rewrite (plain_ledger n k l Hp) in Hj. destruct (account_of l (ctx_arg k)) as [[h c]|] eqn:E.
    - destruct (account_nth _ _ _ _ E) as (_ & En). injection Hj as <- <- <-. apply tidy_set; [exact F|]. apply tidy_call; [exact T|]. eapply tidy_nth; eassumption.
    - injection Hj as <- <- <-. exact F. }
  destruct k; try (exact (P I H)); cbn [ledger_step ledger_call] in H.
  - destruct (account_of l c) as [[h x]|]; injection H as <- <- <-; [exact F|apply tidy_app; [exact F|apply tidy_opened]].
  - assert (forall q, tidy_books (l ++ [opened_http n q])) as Hq by (intros q; apply tidy_app; [exact F|]; apply tidy_msgs, tidy_opened).
    destruct c; cbn [account_of] in H; [| |destruct (nth_error l h) as [x|]; cbn [option_map] in H]; try destruct req; injection H as <- <- <-; try exact F; apply Hq.
  - destruct (nth_error l parent); injection H as <- <- <-; [|exact F]. apply tidy_app; [exact F|]. apply tidy_snoc; [apply tidy_opened|]. split; reflexivity.
  - destruct (account_of l c) as [[h x]|] eqn:E; injection H as <- <- <-; [|exact F]. destruct (account_nth _ _ _ _ E) as (_ & En).
    apply tidy_app; [|apply tidy_opened]. apply tidy_set; [exact F|]. apply tidy_snoc; [rewrite did_gxid; eapply tidy_nth; eassumption|]. destruct T as (K & _). cbn [fst] in K. cbn [op_step]. plain_tac.
  - revert F. induction H as [|l h c l' rs E S H IH]; [auto|]. intros F. apply IH; [intros []|]. apply tidy_set; [exact F|]. rewrite did_ends. apply tidy_marked. eapply tidy_nth; eassumption.
  - cbn in H. injection H as <- <- <-. exact F.
  - cbn in H. injection H as <- <- <-. exact F.
Qed.
Lemma tidy_run l ops rs l' reps : ledger_run l ops rs l' reps -> Forall typed ops -> tidy_books l -> tidy_books l'.
Proof. induction 1 as [|l n k ops r rs l1 r1 l2 r2 S H IH]; [auto|]. intros T F. inversion_clear T. apply IH; [assumption|]. eapply tidy_ledger; eassumption. Qed.
