(** Property C98: the texts of values and packs show their contents. *)
From Verif Require Import GoInt M_Util S_Util L_Util M_OutX M_InX M_Value L_Value M_Packs M_Access S_Value L_Safe S_Alert L_Alert M_Show S_Show L_Show P_Value.
From Coq Require Import ZifyBool Permutation.

Lemma list_go_spec vs : forall i str,
  (fix go (l : list value) (i : Z) (str : gostring) : gostring :=
     match l with [] => str | x :: l' => go l' (i + 1) (str ++ format_int 10 i ++ of_string ": " ++ show_value x ++ of_string " ") end) vs i str
  = str ++ concat (map (fun p => format_int 10 (fst p) ++ of_string ": " ++ show_value (snd p) ++ of_string " ") (combine (map (fun k => i + Z.of_nat k) (seq 0 (length vs))) vs)).
Proof.
  induction vs as [|v vs IH]; intros i str; [cbn; rewrite app_nil_r; reflexivity|].
  rewrite IH. cbn [length seq map combine concat fst snd]. rewrite <- seq_shift, map_map. rewrite Z.add_0_r. rewrite <- !app_assoc. do 5 f_equal.
  f_equal. f_equal. f_equal. apply map_ext. intros k. lia.
Qed.
Lemma map_go_spec kvs : forall str,
  (fix go (l : list (gostring * value)) (str : gostring) : gostring :=
     match l with [] => str | (k, x) :: l' => go l' (str ++ of_string "key:" ++ k ++ of_string " value:" ++ show_value x ++ [10]) end) kvs str
  = str ++ concat (map (fun kv => of_string "key:" ++ fst kv ++ of_string " value:" ++ show_value (snd kv) ++ [10]) kvs).
Proof.
  induction kvs as [|(k, v) kvs IH]; intros str; [cbn; rewrite app_nil_r; reflexivity|].
  rewrite IH. cbn [map concat fst snd]. rewrite <- !app_assoc. reflexivity.
Qed.
Lemma nth_combine_seq {A} (f : nat -> Z) (l : list A) : forall a i x, nth_error l i = Some x -> nth_error (combine (map f (seq a (length l))) l) i = Some (f (a + i)%nat, x).
Proof.
  induction l as [|y l IH]; intros a [|i] x E; cbn in *; try discriminate E.
  - injection E as ->. rewrite Nat.add_0_r. reflexivity.
  - rewrite (IH (S a) i x E). do 2 f_equal. f_equal. lia.
Qed.
Lemma combine_seq_length {A} (f : nat -> Z) (l : list A) a : length (combine (map f (seq a (length l))) l) = length l.
Proof. rewrite combine_length, map_length, seq_length. lia. Qed.

Lemma nth_ext_error {A} (l l' : list A) : (forall i, nth_error l i = nth_error l' i) -> l = l'.
Proof.
  revert l'; induction l as [|x l IH]; intros [|y l'] H; [reflexivity|specialize (H 0%nat); discriminate H|specialize (H 0%nat); discriminate H|].
  pose proof (H 0%nat) as H0. injection H0 as ->. f_equal. apply IH. intros i. exact (H (S i)).
Qed.
(** the text of any value Go can build is a text of that value *)
Lemma show_prints v : go_value v = true -> prints v (show_value v).
Proof.
  induction v as [| b | z | z | z | s | z | b | b | vs IH | kvs IH] using value_ind'; intros Hg; cbn [go_value] in Hg.
  - constructor.
  - destruct b; constructor.
  - constructor. apply shows_format.
  - constructor. apply float_shown; [lia|lia|]. change (1 + 8 + 23) with 32. lia.
  - constructor. apply float_shown; [lia|lia|]. change (1 + 11 + 52) with 64. lia.
  - constructor.
  - constructor. apply shows_format.
  - constructor. apply shows_format.
  - constructor.
  - cbn [show_value]. rewrite list_go_spec. apply andb_prop in Hg as (_ & Hg).
    apply (prints_list vs (map show_value vs)).
    + clear - IH Hg. induction IH as [|v vs Hv _ IH]; [constructor|]. cbn [forallb map] in *. apply andb_prop in Hg as (A & B). constructor; [apply Hv, A|apply IH, B].
    + rewrite !map_length. apply combine_seq_length.
    + intros i t E. rewrite nth_error_map in E. destruct (nth_error vs i) as [x|] eqn:Ex; [|discriminate E]. injection E as <-.
      exists (format_int 10 (Z.of_nat i)). split; [apply shows_format|]. rewrite nth_error_map. rewrite (nth_combine_seq (fun k => 0 + Z.of_nat k) vs 0 i x Ex). cbn [option_map fst snd].
      rewrite Nat.add_0_l, Z.add_0_l. reflexivity.
  - cbn [show_value]. rewrite map_go_spec. rewrite <- app_assoc. apply andb_prop in Hg as (_ & Hg). apply (prints_map kvs kvs); [apply Permutation_refl|].
    clear - IH Hg. induction IH as [|kv kvs Hv _ IH]; [constructor|]. cbn [forallb map] in *. apply andb_prop in Hg as (A & B). apply andb_prop in A as (_ & A).
    constructor; [|apply IH, B]. exists (show_value (snd kv)). split; [apply Hv, A|reflexivity].
Qed.

Fixpoint prints_ind' (P : value -> gostring -> Prop)
  (Hatom : forall v t, match v with VList _ | VMap _ => False | _ => True end -> prints v t -> P v t)
  (Hlist : forall vs ts cells, Forall2 prints vs ts -> Forall2 P vs ts -> length cells = length ts ->
     (forall i t, nth_error ts i = Some t -> exists d, shows (Z.of_nat i) d /\ nth_error cells i = Some (d ++ of_string ": " ++ t ++ of_string " ")) ->
     P (VList vs) (of_string "list value " ++ concat cells))
  (Hmap : forall kvs kvs' lines, Permutation kvs kvs' ->
     Forall2 (fun kv line => exists t, P (snd kv) t /\ line = of_string "key:" ++ fst kv ++ of_string " value:" ++ t ++ [10]) kvs' lines ->
     P (VMap kvs) (of_string "map value " ++ [10] ++ concat lines))
  v t (H : prints v t) {struct H} : P v t.
Proof.
  destruct H as [| | |z t H|z t H|f t H|f t H|s|b t H|b|vs ts H cells HL HN|kvs kvs' lines HP H].
  1-10: apply Hatom; [exact I|].
  - constructor. - constructor. - constructor. - constructor; assumption. - constructor; assumption. - constructor; assumption. - constructor; assumption. - constructor. - constructor; assumption. - constructor.
  - apply (Hlist vs ts cells H); [|exact HL|exact HN]. clear HL HN. induction H; constructor; [apply prints_ind'; assumption|assumption].
  - apply (Hmap kvs kvs' lines HP). clear HP. induction H as [|kv line kvs' lines (t & Ht & E) _ IH]; constructor; [|exact IH]. exists t. split; [apply prints_ind'; assumption|exact E].
Qed.

Lemma atom_prints v t : match v with VList _ | VMap _ => False | _ => True end -> go_value v = true -> prints v t -> t = show_value v.
Proof.
  intros Hv Hg H. pose proof (show_prints v Hg) as K.
  destruct H as [| | |z t H|z t H|f t H|f t H|s|b t H|b|vs ts H cells HL HN|kvs kvs' lines HP H]; try destruct Hv; try reflexivity.
  - cbn [show_value] in *. exact (shows_unique _ _ _ H (shows_format z)).
  - cbn [show_value] in *. exact (shows_unique _ _ _ H (shows_format z)).
  - cbn [show_value go_value] in *. apply (float_unique 8 23 f); [lia|lia|exact H|]. apply float_shown; [lia|lia|]. change (1 + 8 + 23) with 32. lia.
  - cbn [show_value go_value] in *. apply (float_unique 11 52 f); [lia|lia|exact H|]. apply float_shown; [lia|lia|]. change (1 + 11 + 52) with 64. lia.
  - cbn [show_value]. rewrite (shows_unique _ _ _ H (shows_format (zlen b))). reflexivity.
Qed.
Lemma list_rebuild (P : value -> value -> Prop) vs ts : Forall2 (fun v t => exists w, P v w /\ show_value w = t) vs ts -> exists ws, Forall2 P vs ws /\ map show_value ws = ts.
Proof.
  induction 1 as [|v t vs ts (w & A & B) _ (ws & IH1 & IH2)]; [exists []; split; [constructor|reflexivity]|].
  exists (w :: ws). split; [constructor; assumption|]. cbn. congruence.
Qed.
Lemma prints_show v t : prints v t -> go_value v = true -> exists w, same_value v w /\ show_value w = t.
Proof.
  intros H. induction H as [v t Hv H|vs ts cells _ IH HL HN|kvs kvs' lines HP IH] using prints_ind'; intros Hg.
  - exists v. split; [constructor; exact Hv|]. symmetry. exact (atom_prints v t Hv Hg H).
  - cbn [go_value] in Hg. apply andb_prop in Hg as (_ & Hg).
    assert (Forall2 (fun v t => exists w, same_value v w /\ show_value w = t) vs ts) as K.
    { clear - IH Hg. induction IH as [|v t vs ts Hv _ IH]; [constructor|]. cbn [forallb] in Hg. apply andb_prop in Hg as (A & B). constructor; [apply Hv, A|apply IH, B]. }
    apply list_rebuild in K as (ws & Kw & Kt). exists (VList ws). split; [constructor; exact Kw|].
    cbn [show_value]. rewrite list_go_spec. f_equal. f_equal. apply nth_ext_error. intros i. rewrite nth_error_map.
    destruct (nth_error ws i) as [w|] eqn:Ew.
    + rewrite (nth_combine_seq (fun k => 0 + Z.of_nat k) ws 0 i w Ew). cbn [option_map fst snd]. rewrite Nat.add_0_l, Z.add_0_l.
      assert (nth_error ts i = Some (show_value w)) as Et by (rewrite <- Kt, nth_error_map, Ew; reflexivity).
      destruct (HN i _ Et) as (d & Hd & Ec). rewrite Ec, (shows_unique _ _ _ Hd (shows_format _)). reflexivity.
    + assert (length ws <= i)%nat as L by (apply nth_error_None; exact Ew).
      assert (nth_error cells i = None) as -> by (apply nth_error_None; rewrite HL, <- Kt, map_length; exact L).
      assert (nth_error (combine (map (fun k => 0 + Z.of_nat k) (seq 0 (length ws))) ws) i = None) as -> by (apply nth_error_None; rewrite combine_seq_length; exact L). reflexivity.
  - cbn [go_value] in Hg. apply andb_prop in Hg as (_ & Hg).
    assert (forallb (fun kv => (zlen (fst kv) <=? 2147483647) && go_value (snd kv)) kvs' = true) as Hg'.
    { apply forallb_forall. intros x Hx. rewrite forallb_forall in Hg. apply Hg. apply (Permutation_in x (Permutation_sym HP) Hx). }
    assert (exists ws, Forall2 (fun a b => fst a = fst b /\ same_value (snd a) (snd b)) kvs' ws /\
              map (fun kv => of_string "key:" ++ fst kv ++ of_string " value:" ++ show_value (snd kv) ++ [10]) ws = lines) as (ws & Kw & Kl).
    { clear - IH Hg'. induction IH as [|kv line kvs lines (t & Ht & E) _ IH]; [exists []; split; [constructor|reflexivity]|].
      cbn [forallb] in Hg'. apply andb_prop in Hg' as (A & B). apply andb_prop in A as (_ & A). destruct (Ht A) as (w & W1 & W2). destruct (IH B) as (ws & I1 & I2).
      exists ((fst kv, w) :: ws). split; [constructor; [split; [reflexivity|exact W1]|exact I1]|]. cbn [map fst snd]. rewrite W2, I2, E. reflexivity. }
    exists (VMap ws). split; [exact (same_map kvs kvs' ws HP Kw)|]. cbn [show_value]. rewrite map_go_spec, Kl, <- app_assoc. reflexivity.
Qed.


Lemma prints_same v w : same_value v w -> forall t, prints w t -> prints v t.
Proof.
  revert v w. apply (same_list_ind_aux (fun v w => forall t, prints w t -> prints v t)).
  - auto.
  - intros l l' _ HP t H. inversion H as [| | | | | | | | | |vs ts HF cells HL HN E1 E2|]. subst. apply (prints_list l ts); [|exact HL|exact HN].
    clear - HP HF. revert ts HF. induction HP as [|x y l l' Hx _ IH]; intros ts HF; inversion HF; subst; constructor; auto.
  - intros m p m' Hp _ HP t H. inversion H as [| | | | | | | | | | |kvs kvs' lines HQ HF E1 E2]. subst.
    assert (exists p', Permutation p p' /\ Forall2 (fun b a => fst a = fst b /\ (forall t, prints (snd b) t -> prints (snd a) t)) kvs' p') as (p' & Q & HF').
    { apply (Permutation_Forall2 HQ). clear - HP. induction HP; constructor; auto. }
    apply (prints_map m p'); [eapply Permutation_trans; eassumption|]. clear - HF HF'. revert p' HF'.
    induction HF as [|kv line kvs lines (t & Ht & E) _ IH]; intros p' HF'; inversion HF' as [|? ? ? ? (A & B) ? ]; subst; constructor; [|apply IH; assumption].
    exists t. split; [apply B, Ht|]. rewrite A. reflexivity.
Qed.

(** The printed text of a value, whatever order its maps are enumerated in, is a text of that value, and every text of the value arises so. *)
Theorem C98_values v t : go_value v = true -> (prints v t <-> exists w, same_value v w /\ show_value w = t).
Proof.
  intros Hg. split; [intros H; exact (prints_show v t H Hg)|].
  intros (w & Hs & <-). apply (prints_same v w Hs). apply show_prints. apply (same_ok v w Hs), Hg.
Qed.

(** A number is read back from its text, so different numbers have different texts. *)
Theorem C98_numbers z w : (forall t, prints (VDec z) t -> parse_number 10 t = Some z) /\ (show_value (VDec z) = show_value (VDec w) -> z = w).
Proof.
  split.
  - intros t H. inversion H as [| | |z' t' (d & (Hd1 & Hd2 & Hd3) & E)| | | | | | | |]. subst. unfold parse_number. destruct (Z.ltb_spec z 0) as [L|L].
    + cbn. destruct d; [congruence|]. rewrite Hd2. cbn. f_equal. lia.
    + destruct d as [|c d]; [congruence|]. destruct (Z.eqb_spec c 45) as [->|_]; [cbn in Hd2; discriminate Hd2|]. rewrite Hd2. f_equal. lia.
  - cbn [show_value]. intros E. apply (shows_value z w (format_int 10 z)); [apply shows_format|]. rewrite E. apply shows_format.
Qed.

(** Printing a pack shows its fields under their names. *)
Lemma fields_nil : fields_text [] [].
Proof. exists []. split; [constructor|reflexivity]. Qed.
Lemma fields_cons nm f y fs t : field_text f y -> fields_text fs t -> fields_text ((nm, f) :: fs) (nm ++ y ++ t).
Proof.
  intros Hy (ts & Hf & ->). exists ((nm ++ y) :: ts). split; [constructor; [exists y; split; [exact Hy|reflexivity]|exact Hf]|]. cbn [concat]. rewrite app_assoc. reflexivity.
Qed.
Lemma fields_last nm f y : field_text f y -> fields_text [(nm, f)] (nm ++ y).
Proof. intros Hy. rewrite <- (app_nil_r y). apply fields_cons; [exact Hy|apply fields_nil]. Qed.
Lemma fields_only f y : field_text f y -> fields_text [(of_string "", f)] y.
Proof. exact (fields_last (of_string "") f y). Qed.
Theorem C98_packs p : go_value (match p with PMap m => VMap m | PPerf p => VMap (pc_Data p) | PK8s p => VMap (k8_Data p) | PObject p => VMap (ob_Tags p) | PObject2 p => VMap (o2_Tags p) | _ => VNil end) = true ->
  fields_text (pack_fields p) (show_pack p).
Proof.
  intros Hg. destruct p as [m|p|p|p|p|p|p|p|p]; unfold show_pack, pack_fields.
  - apply fields_only, show_prints, Hg.
  - change (tp_Xtype p ++ of_string " hash: " ++ format_int 10 (tp_Hash p) ++ of_string " text: " ++ tp_Text p) with
      (of_string "" ++ tp_Xtype p ++ of_string " hash: " ++ format_int 10 (tp_Hash p) ++ of_string " text: " ++ tp_Text p).
    apply fields_cons; [reflexivity|]. apply fields_cons; [apply shows_format|]. apply fields_last. reflexivity.
  - apply fields_only, show_prints, Hg.
  - apply fields_only, show_prints, Hg.
  - do 2 (apply fields_cons; [reflexivity|]). apply fields_cons; [apply shows_format|]. do 2 (apply fields_cons; [reflexivity|]). apply fields_last, show_prints, Hg.
  - do 3 (apply fields_cons; [reflexivity|]). apply fields_cons; [apply shows_format|]. do 2 (apply fields_cons; [reflexivity|]). apply fields_cons; [apply shows_format|].
    apply fields_last, show_prints, Hg.
  - change (of_string "AlertPack:" ++ of_string " title: " ++ al_Title p ++ of_string " message: " ++ al_Message p) with (of_string "AlertPack: title: " ++ al_Title p ++ of_string " message: " ++ al_Message p).
    apply fields_cons; [reflexivity|]. apply fields_last. reflexivity.
  - match goal with |- fields_text _ (of_string "XLOG: " ++ of_string " objHash: " ++ ?r) => change (of_string "XLOG: " ++ of_string " objHash: " ++ r) with (of_string "XLOG:  objHash: " ++ r) end.
    do 4 (apply fields_cons; [apply shows_format|]). apply fields_last, shows_format.
  - change (fields_text [(of_string "Profile:  objHash: ", Num (pp_ObjHash p))] (of_string "Profile:  objHash: " ++ format_int 10 (pp_ObjHash p))).
    apply fields_last, shows_format.
Qed.

(** A value that went over the wire prints as one of the texts of the value that was sent. *)
Theorem C98_after_the_wire v rest : go_value v = true -> agent_readable v = true ->
  exists w, read_value (buffer (buf (write_value v new_dout) ++ rest)) = Ret w None (buffer rest) /\ prints v (show_value w).
Proof.
  intros Hg Ha. exists v. split; [apply value_roundtrip; assumption|apply show_prints, Hg].
Qed.

(** What is printed is not always what Go prints for such a value: false is shown as a text that is neither "true" nor "false". *)
Theorem C98_false_refuted : show_value (VBool false) <> of_string "false" /\ parse_number 10 (show_value (VBool false)) = None.
Proof. split; [discriminate|reflexivity]. Qed.

Example C98_case : let v := VMap [(of_string "a", VList [VDec (-12); VDouble 4609434218613702656; VNil]); (of_string "b", VFloat 3204448256)] in
  go_value v = true /\ agent_readable v = true /\
  show_value v = of_string "map value " ++ [10] ++ of_string "key:a value:list value 0: -12 1: 1.500 2: nil " ++ [10] ++ of_string "key:b value:-0.500" ++ [10].
Proof. vm_compute. auto. Qed.
(** 0.0625 and 0.1875 lie half way between two numbers of thousandths: the even one is shown *)
Example C98_ties : show_value (VDouble 4589168020290535424) = of_string "0.062" /\ show_value (VDouble 4595923419731591168) = of_string "0.188".
Proof. vm_compute. auto. Qed.

Print Assumptions C98_values.
Print Assumptions C98_numbers.
Print Assumptions C98_packs.
Print Assumptions C98_after_the_wire.
Print Assumptions C98_false_refuted.
