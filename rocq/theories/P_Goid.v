(** C94: the goroutine number the agent shows is the runtime's. *)
From Verif Require Import GoInt M_Util M_StrMatch M_Conf M_Goid S_Conf S_Util M_Trace M_Tcp L_Util L_StrMatch L_Conf P_Conf.
From Coq Require Import Lia.

(** the runtime's way to write a number: decimal digits, no superfluous zero *)
Definition plain_number (ds : gostring) (z : Z) : Prop :=
  ds <> [] /\ Forall (fun c => 48 <= c <= 57) ds /\ digits_value ds = z /\ (forall r, ds = 48 :: r -> r = []).
Definition white (c : Z) : Prop := In c [9; 10; 11; 12; 13; 32].

Lemma dv_snoc ds c : digits_value (ds ++ [c]) = digits_value ds * 10 + (c - 48).
Proof. unfold digits_value. rewrite fold_left_app. reflexivity. Qed.
Lemma dv_nonneg ds : Forall (fun c => 48 <= c <= 57) ds -> 0 <= digits_value ds.
Proof.
  induction ds as [|c ds IH] using rev_ind; intro F; [cbn; lia|]. rewrite dv_snoc. apply Forall_app in F as (F1 & F2). inversion F2; subst. specialize (IH F1). lia.
Qed.
Lemma dv_lower ds : Forall (fun c => 48 <= c <= 57) ds -> ds <> [] -> (forall r, ds <> 48 :: r) -> 10 ^ (zlen ds - 1) <= digits_value ds.
Proof.
  induction ds as [|c ds IH] using rev_ind; intros F N H; [contradiction|]. rewrite dv_snoc. apply Forall_app in F as (F1 & F2). inversion F2 as [|? ? Hc _]; subst.
  destruct ds as [|x ds].
  - cbn. assert (c <> 48) by (intros ->; apply (H []); reflexivity). lia.
  - assert (10 ^ (zlen (x :: ds) - 1) <= digits_value (x :: ds)) as K by (apply IH; [exact F1|discriminate|intros r E; apply (H (r ++ [c])); cbn [app]; injection E as -> ->; reflexivity]).
    unfold zlen in *. rewrite app_length. cbn [length] in *. replace (Z.of_nat (S (length ds) + 1) - 1) with (Z.succ (Z.of_nat (S (length ds)) - 1)) by lia.
    rewrite Z.pow_succ_r by lia. lia.
Qed.
Lemma plain_short ds z : plain_number ds z -> z <= 9223372036854775807 -> (length ds <= 19)%nat.
Proof.
  intros (N & F & V & C) L. destruct ds as [|c ds]; [contradiction|]. destruct (Z.eq_dec c 48) as [->|Nc]; [rewrite (C ds eq_refl); cbn; lia|].
  assert (10 ^ (zlen (c :: ds) - 1) <= z) as K by (rewrite <- V; apply dv_lower; [exact F|discriminate|congruence]).
  assert (~ (20 <= length (c :: ds))%nat); [|lia]. intro G. assert (10 ^ 19 <= 10 ^ (zlen (c :: ds) - 1)) by (apply Z.pow_le_mono_r; unfold zlen; lia). lia.
Qed.
Lemma plain_unique a : forall b z, plain_number a z -> plain_number b z -> a = b.
Proof.
  induction a as [|x a IH] using rev_ind; intros b z (N & F & V & C) (N' & F' & V' & C'); [contradiction|].
  destruct (exists_last N') as (b' & y & ->). rewrite dv_snoc in V, V'. apply Forall_app in F as (F1 & F2). apply Forall_app in F' as (F1' & F2'). apply Forall_inv in F2, F2'. cbn beta in F2, F2'.
  pose proof (dv_nonneg a F1). pose proof (dv_nonneg b' F1'). assert (digits_value a = digits_value b') as E by (clear - V V' F2 F2'; lia). assert (x = y) as -> by (clear - V V' F2 F2' E; lia).
  f_equal. assert (forall l, Forall (fun c => 48 <= c <= 57) l -> l <> [] -> (forall r, l ++ [y] = 48 :: r -> r = []) -> 1 <= digits_value l) as Pos.
  { intros l Fl Nl Cl. assert (forall r, l <> 48 :: r) as Hl.
    { intros r ->. cbn [app] in Cl. specialize (Cl _ eq_refl). destruct r; discriminate Cl. }
    pose proof (dv_lower l Fl Nl Hl). assert (1 <= 10 ^ (zlen l - 1)); [|lia]. apply (Z.pow_le_mono_r 10 0); [lia|]. destruct l; [contradiction|]. unfold zlen. cbn [length]. lia. }
  destruct a as [|p a]; destruct b' as [|q b']; [reflexivity| | |].
  - exfalso. specialize (Pos (q :: b') F1' ltac:(discriminate) C'). change (digits_value []) with 0 in E. lia.
  - exfalso. specialize (Pos (p :: a) F1 ltac:(discriminate) C). change (digits_value []) with 0 in E. lia.
  - apply (IH (q :: b') (digits_value (p :: a))).
    + split; [discriminate|]. split; [exact F1|]. split; [reflexivity|]. intros r K. injection K as -> ->. specialize (C _ eq_refl). destruct r; discriminate C.
    + split; [discriminate|]. split; [exact F1'|]. split; [symmetry; exact E|]. intros r K. injection K as -> ->. specialize (C' _ eq_refl). destruct r; discriminate C'.
Qed.

Lemma white_space c : white c <-> is_space c = true.
Proof. unfold white, is_space. cbn [In]. lia. Qed.
Lemma to_space_stop w c r : Forall (fun x => is_space x = false) w -> is_space c = true -> to_space (w ++ c :: r) = w.
Proof. intros F H. induction F as [|x w Hx F IH]; cbn [app to_space]; [rewrite H; reflexivity|]. rewrite Hx, IH. reflexivity. Qed.

(** the word after "goroutine " is what is read, if it ends within the 64 bytes *)
Lemma goid_word w c rest : w <> [] -> Forall (fun x => ~ white x) w -> white c -> (length w <= 53)%nat ->
  goid_text (of_string "goroutine " ++ w ++ c :: rest) = parse_int64 w.
Proof.
  intros N F H L. unfold goid_text.
  assert (firstn 64 (of_string "goroutine " ++ w ++ c :: rest) = of_string "goroutine " ++ w ++ c :: firstn (53 - length w) rest) as ->.
  { rewrite firstn_app. change (length (of_string "goroutine ")) with 10%nat. rewrite firstn_all2 by (cbn; lia). f_equal.
    rewrite firstn_app. rewrite firstn_all2 by lia. f_equal. replace (64 - 10 - length w)%nat with (S (53 - length w)) by lia. reflexivity. }
  unfold trim_prefix. assert (has_prefix (of_string "goroutine " ++ w ++ c :: firstn (53 - length w) rest) (of_string "goroutine ") = true) as ->
    by (apply has_prefix_iff; eexists; reflexivity).
  rewrite skipn_app, skipn_all2 by (cbn; lia). rewrite Nat.sub_diag. cbn [skipn app].
  assert (Forall (fun x => is_space x = false) w) as F'.
  { eapply Forall_impl; [|exact F]. intros x Hx. destruct (is_space x) eqn:E; [apply white_space in E; contradiction|reflexivity]. }
  unfold first_field. destruct w as [|x w]; [contradiction|]. inversion F'; subst. cbn [app skip_space]. rewrite H2.
  change (x :: w ++ c :: firstn (53 - length (x :: w)) rest) with ((x :: w) ++ c :: firstn (53 - length (x :: w)) rest).
  rewrite (to_space_stop (x :: w) c) by (try assumption; apply white_space, H). reflexivity.
Qed.

(** For every goroutine - its number any the runtime can count to - and whatever follows on its stack: the agent reads its number, and shows it in the digits of
    the stack text: as the first step of the profile and as the thread's name in the lists of active services. *)
Theorem C94_number ds z c rest : plain_number ds z -> 0 <= z <= 9223372036854775807 -> white c ->
  let stack := of_string "goroutine " ++ ds ++ c :: rest in
  goid stack = z /\ of_string "goroutine:" ++ format_int 10 (goid stack) = of_string "goroutine:" ++ ds /\ goroutine_name (goid stack) = of_string "[goroutine] " ++ ds.
Proof.
  intros P R H. cbv zeta. assert (goid_text (of_string "goroutine " ++ ds ++ c :: rest) = Some z) as E.
  { rewrite goid_word; [|apply P| |exact H|pose proof (plain_short ds z P ltac:(lia)); lia].
    - apply parse_int64_spec. split; [|unfold in_int64; lia]. destruct P as (N & F & V & _). exists [], ds. split; [reflexivity|]. split; [exact N|]. split; [exact F|]. left. auto.
    - destruct P as (_ & F & _). eapply Forall_impl; [|exact F]. cbn beta. intros x Hx W. apply white_space in W. unfold is_space in W. lia. }
  assert (format_int 10 z = ds) as Ez.
  { apply (plain_unique _ _ z); [|exact P]. destruct (format10 z ltac:(lia)) as (A & B & C). pose proof (format_decimal z) as (sg & t & Et & Nt & Ft & K).
    destruct K as [([-> | ->] & K)|(-> & K)].
    - cbn [app] in Et. rewrite Et in *. split; [exact Nt|]. split; [exact Ft|]. split; [symmetry; exact K|exact C].
    - rewrite Et in B. cbn in B. discriminate B.
    - rewrite Et in B. cbn in B. discriminate B. }
  unfold goid. rewrite E, Ez. unfold goroutine_name. rewrite Ez. auto.
Qed.
(** A text of another form is not taken for another goroutine's number: the call panics inside, which is reported (C89), and the service is shown with number 0. *)
Theorem C94_other_text w c rest : w <> [] -> Forall (fun x => ~ white x) w -> white c -> (length w <= 53)%nat -> (forall z, decimal w z -> ~ in_int64 z) ->
  goid_text (of_string "goroutine " ++ w ++ c :: rest) = None /\ goid (of_string "goroutine " ++ w ++ c :: rest) = 0.
Proof.
  intros N F H L D. assert (goid_text (of_string "goroutine " ++ w ++ c :: rest) = None) as E.
  { rewrite goid_word by assumption. destruct (parse_int64 w) as [z|] eqn:E; [|reflexivity]. apply parse_int64_spec in E as (E & R). destruct (D z E R). }
  unfold goid. rewrite E. auto.
Qed.

Example C94_case : plain_number (of_string "4127") 4127 /\
  goid (of_string "goroutine 4127 [running]:" ++ 10 :: of_string "main.main()") = 4127 /\ goid (of_string "goroutine 9223372036854775807 [running]:") = 9223372036854775807 /\
  goid_text (of_string "goroutine x [running]:") = None.
Proof.
  split; [|repeat split; vm_compute; reflexivity]. split; [discriminate|]. split; [repeat constructor; cbv; discriminate|]. split; [reflexivity|]. intros r K. discriminate K.
Qed.

Print Assumptions C94_number.
Print Assumptions C94_other_text.
