(** Accounts of typed histories hold values of their Go types; xlogs among the packs. *)
From Verif Require Import GoInt M_Util M_Hash L_Hash M_StrMatch M_OutX S_Wire M_Packs S_Packs L_Codec L_Value L_Packs M_Steps M_Sampler M_Profile S_Profile M_Trace
  L_Trace S_Trace S_Steps S_Ledger L_Ledger L_Ledger2 L_Ledger3 L_Ledger4 L_Ledger5 M_Udp S_Udp L_Udp M_Net S_Net L_Net S_EndToEnd.
From Coq Require Import ZifyBool Permutation.

Definition fits (f : num) (v : Z) : Prop :=
  match f with
  | NTxid | NGxid | NCaller | NUserid => in_int64 v
  | NXtype => 0 <= v <= 255
  | NStart | NGoid => True
  | _ => in_int32 v
  end.
Definition sized (c : account) : Prop := forall f, fits f (num_of c f).

Lemma in0_32 : in_int32 0. Proof. unfold in_int32. lia. Qed.
Lemma in0_64 : in_int64 0. Proof. unfold in_int64. lia. Qed.
Lemma sized_num c f v : sized c -> fits f v -> sized (put_num f v c).
Proof. intros S V g. cbn [put_num num_of]. destruct (num_eqb f g) eqn:E; [|apply S]. destruct f, g; try discriminate; exact V. Qed.
Lemma sized_txt c f v : sized c -> sized (put_txt f v c). Proof. intros S g. apply S. Qed.
Lemma sized_did c o : sized c -> sized (put_did o c). Proof. intros S g. apply S. Qed.
Lemma sized_error c e : sized c -> in_int32 e -> sized (error_unless_set e c).
Proof. intros S E. unfold error_unless_set. destruct (_ =? 0); [apply sized_num; assumption|exact S]. Qed.
Lemma sized_gxid c : sized c -> sized (with_gxid c).
Proof. intros S. unfold with_gxid. destruct (_ =? 0); [apply sized_num; [exact S|exact (S NTxid)]|exact S]. Qed.
Lemma sized_params n ps : forall c, sized c -> sized (add_params_to n ps c).
Proof. induction ps as [|p ps IH]; intros c H; [exact H|]. cbn [add_params_to fold_left]. destruct p; [apply (IH (add_step_to _ c)), sized_did, H|apply IH, H]. Qed.
Lemma sized_ends c : sized c -> sized (becomes (ends_now c)) /\ forall c', reported (ends_now c) = Some c' -> sized c'.
Proof. intros S. unfold ends_now. destruct (over c); cbn [quiet becomes reported]; (split; [exact S|]); intros c' E; [discriminate|injection E as <-; exact S]. Qed.
Lemma sized_call n k c : typed_ids (n, k) -> sized c ->
  sized (becomes (on_account n k c)) /\ forall c', reported (on_account n k c) = Some c' -> sized c'.
Proof.
  intros (K & _ & T) S. cbn [fst snd] in K, T.
  assert (forall x, sized x -> sized (becomes (quiet x)) /\ forall c', reported (quiet x) = Some c' -> sized c') as Q by (intros x Hx; split; [exact Hx|discriminate]).
  destruct k; cbn [on_account]; try (apply Q; exact S); try (apply sized_ends; exact S).
  - apply Q, sized_num; [exact S|exact I].
  - destruct status as [s|]; [|apply sized_ends, S]. destruct (over c); [apply Q, S|]. apply sized_ends, sized_num; [exact S|]. apply int32_range.
  - apply Q, sized_did, sized_error; [exact S|apply text_id_range].
  - apply Q, sized_num; [exact S|apply text_id_range].
  - destruct st; apply Q; exact S.
  - cbn [method_started becomes reported]. split; [apply sized_did, sized_txt, sized_params, S|discriminate].
  - cbn [method_started becomes reported]. split; [apply sized_did, sized_txt, sized_params, S|discriminate].
  - destruct ptr as [p|]; [|apply Q, S]. destruct (step_of c p) as [[]|]; apply Q; exact S.
  - cbn [becomes reported]. split; [apply sized_gxid, sized_did, S|discriminate].
  - destruct ptr as [p|]; [|apply Q, S]. destruct (step_of c p) as [[]|]; try (apply Q; exact S). cbv zeta. apply Q, sized_did.
    assert (forall x y, in_int32 x -> in_int32 y -> sized (put_num NApiTime x (put_num NApiCount y c))) as G by (intros x y Hx Hy; apply sized_num; [apply sized_num; [exact S|exact Hy]|exact Hx]).
    destruct err; [apply sized_error; [|apply text_id_range]|]; apply G; apply int32_range.
  - apply Q, sized_num; [|exact T]. repeat apply sized_txt. exact S.
Qed.
Lemma sized_opened n a b x : in_int64 (n_key n) -> 0 <= x <= 255 -> sized (opened n a b x).
Proof. intros K X f. unfold opened. cbn [num_of]. destruct f; cbn [fits]; first [exact K | exact X | exact I | apply in0_32 | apply in0_64]. Qed.
Lemma sized_msgs n l : forall c, sized c -> sized (fold_left (fun c s => add_step_to (SMessage (at_ms (ms n c)) s) c) l c).
Proof. induction l as [|s l IH]; intros c H; [exact H|]. cbn [fold_left]. apply IH, sized_did, H. Qed.
Definition sized_books (l : ledger) : Prop := Forall sized l.
Definition sized_reports (rs : list report) : Prop := Forall (fun r => sized (r_acc r) /\ in_int32 (cf_obj (n_conf (r_env r)))) rs.
Lemma sized_nth l h c : sized_books l -> nth_error l h = Some c -> sized c.
Proof. intros F E. unfold sized_books in F. rewrite Forall_forall in F. apply F. eapply nth_error_In, E. Qed.
Lemma sized_set l h c : sized_books l -> sized c -> sized_books (list_set l h c).
Proof.
  intros F H. apply Forall_forall. intros x Hx. apply In_nth_error in Hx. destruct Hx as (i & E). rewrite list_set_nth in E.
  destruct (Nat.eqb h i && _); [injection E as <-; exact H|]. eapply sized_nth; eassumption.
Qed.
Lemma sized_app l c : sized_books l -> sized c -> sized_books (l ++ [c]).
Proof. intros F H. apply Forall_app. split; [exact F|]. constructor; [exact H|constructor]. Qed.
Lemma sized_ledger n k l r l' rs : typed_ids (n, k) -> ledger_step n k l r l' rs -> sized_books l -> sized_books l' /\ sized_reports rs.
Proof.
  intros T H F. destruct T as (K & O & T). cbn [fst snd] in K, O, T.
  assert (forall x : ledger, sized_books x -> sized_books x /\ sized_reports []) as N by (intros x Hx; split; [exact Hx|constructor]).
  assert (plain_call k -> ledger_call n k l = (l', r, rs) -> sized_books l' /\ sized_reports rs) as P.
  { intros Hp Hj. rewrite (plain_ledger n k l Hp) in Hj. destruct (account_of l (ctx_arg k)) as [[h c]|] eqn:E.
    - destruct (account_nth _ _ _ _ E) as (_ & En). injection Hj as <- <- <-. destruct (sized_call n k c (conj K (conj O T)) (sized_nth _ _ _ F En)) as (B & R).
      split; [apply sized_set; [exact F|exact B]|]. destruct (reported (on_account n k c)) as [c'|]; [|constructor]. constructor; [|constructor]. split; [apply R; reflexivity|exact O].
    - injection Hj as <- <- <-. apply N, F. }
  destruct k; try (exact (P I H)); cbn [ledger_step ledger_call] in H; clear P.
  - destruct (account_of l c) as [[h x]|]; injection H as <- <- <-; [apply N, F|apply N, sized_app; [exact F|apply sized_opened; [exact K|unfold XTYPE_APP; lia]]].
  - assert (forall q, sized_books (l ++ [opened_http n q])) as Hq.
    { intros q. apply sized_app; [exact F|]. apply sized_msgs, sized_num; [apply sized_num; [apply sized_opened; [exact K|unfold web_request; lia]|]|]; apply text_id_range. }
    destruct c; cbn [account_of] in H; [| |destruct (nth_error l h) as [x|]; cbn [option_map] in H]; try destruct req; injection H as <- <- <-; try (apply N; exact F); apply N, Hq.
  - destruct (nth_error l parent) as [p|] eqn:E; injection H as <- <- <-; [|apply N, F]. apply N, sized_app; [exact F|]. pose proof (sized_nth _ _ _ F E) as Sp.
    intros f. unfold opened_inherited. cbn [num_of]. destruct f; cbn [fits]; first [exact K | exact I | exact (Sp NTxid) | apply in0_32 | exact (Sp NGxid) | exact (Sp NXtype) | exact (Sp NError) | exact (Sp NUserid) | exact (Sp NUserAgent) | exact (Sp NReferer) | exact (Sp NApiCount) | exact (Sp NApiTime)].
  - destruct (account_of l c) as [[h x]|] eqn:E; injection H as <- <- <-; [|apply N, F]. destruct (account_nth _ _ _ _ E) as (_ & En). pose proof (sized_nth _ _ _ F En) as Sx.
    apply N, sized_app; [apply sized_set; [exact F|]; apply sized_did, sized_gxid, Sx|].
    unfold opened_child. apply sized_num; [apply sized_num; [apply sized_opened; [exact K|unfold XTYPE_BACK_THREAD2; lia]|exact (Sx NTxid)]|exact (sized_gxid _ Sx NGxid)].
  - revert F. induction H as [|l h c l' rs E S H IH]; intros F; [apply N, F|].
    assert (sized (marked_stuck n c)) as Sm by (unfold marked_stuck; apply sized_error; [apply sized_did; eapply sized_nth; eassumption|apply text_id_range]).
    destruct (sized_ends _ Sm) as (B & R). destruct (IH (sized_set _ _ _ F B)) as (I1 & I2). split; [exact I1|]. apply Forall_app. split; [|exact I2].
    destruct (reported (ends_now (marked_stuck n c))) as [c'|]; [|constructor]. constructor; [|constructor]. split; [apply R; reflexivity|exact O].
  - cbn in H. injection H as <- <- <-. apply N, F.
  - cbn in H. injection H as <- <- <-. apply N, F.
Qed.
Lemma sized_run l ops rs l' reps : ledger_run l ops rs l' reps -> Forall typed_ids ops -> sized_books l -> sized_reports reps.
Proof.
  induction 1 as [|l n k ops r rs l1 r1 l2 r2 S H IH]; intros T F; [constructor|]. inversion_clear T as [|? ? T1 T2].
  destruct (sized_ledger _ _ _ _ _ _ T1 S F) as (F1 & R1). apply Forall_app. split; [exact R1|apply IH; assumption].
Qed.

Lemma ip_loop_len l : forall r, ip_loop l = Some r -> zlen r = zlen l.
Proof.
  induction l as [|x l IH]; intros r; cbn [ip_loop]; [intros E; injection E as <-; reflexivity|]. 
  repeat match goal with |- context [match ?e with _ => _ end] => destruct e eqn:?; try discriminate end.
  intros E; injection E as <-. rewrite !zlen_cons. rewrite (IH _ eq_refl). reflexivity.
Qed.
Lemma ip_bytes_len s : zlen (ip_to_bytes s) = 4.
Proof.
  unfold ip_to_bytes. cbv zeta. destruct (zlen (split_byte 46 s) =? 4) eqn:E; [|reflexivity]. destruct (ip_loop _) as [r|] eqn:El; [|reflexivity].
  rewrite (ip_loop_len _ _ El). lia.
Qed.
Lemma u8 z : 0 <= z <= 255 -> is_u8 z = true. Proof. unfold is_u8. lia. Qed.
Lemma described_go n c p : sized c -> in_int32 (cf_obj (n_conf n)) -> describes n c p -> go_xlog_pack p = true.
Proof.
  intros S O D. unfold describes in D. repeat match type of D with _ /\ _ => let H := fresh "D" in destruct D as (H & D) end.
  unfold go_xlog_pack.
  repeat match goal with H : ?f p = ?v |- _ => rewrite H; clear H end.
  pose proof (S NTxid) as S1. pose proof (S NGxid) as S2. pose proof (S NCaller) as S3. pose proof (S NXtype) as S4. pose proof (S NError) as S5. pose proof (S NStatus) as S6.
  pose proof (S NUserid) as S7. pose proof (S NUserAgent) as S8. pose proof (S NReferer) as S9. pose proof (S NApiCount) as S10. pose proof (S NApiTime) as S11. cbn [fits] in *.
  rewrite !i32_text, i32_ms, ip_bytes_len. rewrite !(i32 (num_of _ _)) by assumption. rewrite !(i64 (num_of _ _)) by assumption. rewrite (u8 (num_of _ _)) by assumption.
  rewrite (i32 (cf_obj _)) by assumption. rewrite (i32 (xl_ProfileCount p)), (i32 (xl_ProfileSize p)) by assumption. rewrite (u8 (xl_DiscardType p)) by lia. reflexivity.
Qed.
Lemma view_describes n c p : describes n c p -> describes n (as_sent c) (view_xlog_pack p).
Proof.
  unfold describes. intros D. cbn [view_xlog_pack xl_EndTime xl_ObjHash xl_Service xl_Txid xl_Caller xl_Gxid xl_Elapsed xl_Error xl_Cpu xl_SqlCount xl_SqlTime xl_Ipaddr xl_Kbytes xl_Status xl_Userid xl_UserAgent xl_Referer xl_Group xl_ApicallCount xl_ApicallTime xl_CountryCode xl_City xl_XType xl_Login xl_Desc xl_WebHash xl_WebTime xl_HasDump xl_ThreadNameHash xl_Text1 xl_Text2 xl_QueuingHostHash xl_QueuingTime xl_Queuing2ndHostHash xl_Queuing2ndTime xl_Text3 xl_Text4 xl_Text5 xl_ProfileCount xl_B3Mode xl_ProfileSize xl_DiscardType xl_IgnoreGCS as_sent num_of txt_of].
  repeat match type of D with _ /\ _ => let H := fresh "D" in destruct D as (H & D) end.
  repeat split; try assumption; try congruence; try apply D.
  all: match goal with H : xl_CountryCode ?q = [] |- on_wire (xl_CountryCode ?q) = [] => rewrite H; reflexivity | _ => idtac end.
  all: match goal with H : in_int32 ?x |- context [?x] => apply H end.
Qed.

(** ** Packs *)
Lemma xlog_size p : go_xlog_pack p = true -> zlen (xl_Ipaddr p) <= 100000 -> zlen (bytes_of (PXlog p)) <= 4300221.
Proof.
  intros H Hip. unfold go_xlog_pack in H. split_ands.
  assert (is_blob (xl_Ipaddr p) = true) by (unfold is_blob; apply Z.leb_le; clear - Hip; lia).
  assert (exists bss, buf (xlog_body p) = concat bss /\ zlen bss = 43 /\ Forall (fun b => zlen b <= 100005) bss) as (bss & Hb & Hn & Hl).
  { eexists. split; [|split].
    - unfold xlog_body. apply (writes_buf (wseq _)). apply writes_wseq. wfields.
    - reflexivity.
    - repeat (apply Forall_cons; [clear - Hip; first [rewrite be_zlen; lia
        | match goal with |- zlen (enc_decimal ?z) <= _ => pose proof (enc_decimal_len z); lia end
        | match goal with |- zlen (enc_string ?z) <= _ => pose proof (enc_string_len z); lia end
        | match goal with |- zlen (enc_blob ?z) <= _ => pose proof (enc_blob_len z); lia end]|]); apply Forall_nil. }
  assert (0 <= 100005) as Hz0 by (clear; lia). pose proof (concat_len bss 100005 Hz0 Hl) as L. rewrite Hn in L.
  assert (writes (write_pack (PXlog p)) (be 1 (pack_type (PXlog p)) ++ enc_blob (buf (xlog_body p)))) as W by exact (writes_comp _ _ _ _ (writes_uint8 _) (writes_blob _)).
  unfold bytes_of. rewrite (writes_buf _ _ W), zlen_app, be_zlen. pose proof (enc_blob_len (buf (xlog_body p))) as B. rewrite Hb in B |- *. clear - L B. lia.
Qed.

Lemma part_xlogs ps qs : part_of ps qs -> part_of (xlogs_in ps) (xlogs_in qs).
Proof.
  induction 1 as [|x m l H IH|x m l H IH]; [apply part_nil| |]; cbn [xlogs_in flat_map]; fold (xlogs_in m); fold (xlogs_in l); destruct x; cbn [app]; try exact IH.
  - apply part_keep, IH.
  - apply part_drop, IH.
Qed.
Lemma part_forall2 {A B} (R : A -> B -> Prop) m l : part_of m l -> forall rs, Forall2 R l rs -> exists rs', part_of rs' rs /\ Forall2 R m rs'.
Proof.
  induction 1 as [|x m l H IH|x m l H IH]; intros rs F.
  - inversion F; subst. exists []. split; [apply part_nil|constructor].
  - inversion F as [|? r ? rs0 Hr F0]; subst. destruct (IH _ F0) as (rs' & P & Q). exists (r :: rs'). split; [apply part_keep, P|constructor; assumption].
  - inversion F as [|? r ? rs0 Hr F0]; subst. destruct (IH _ F0) as (rs' & P & Q). exists rs'. split; [apply part_drop, P|assumption].
Qed.
Lemma tells_xlogs reps log : tells reps log -> exists rs', part_of rs' reps /\ Forall2 (fun p r => describes (r_env r) (r_acc r) p) (xlogs_of log) rs'.
Proof.
  induction 1 as [|rs lv t log T (rs' & P & F)|h c n rs log T (rs' & P & F)|h c n rs p log D T (rs' & P & F)]; cbn [xlogs_of flat_map app].
  - exists []. split; [apply part_nil|constructor].
  - exists rs'. split; [exact P|exact F].
  - exists rs'. split; [apply part_drop, P|exact F].
  - exists (mkRep h c n :: rs'). split; [apply part_keep, P|]. constructor; [exact D|exact F].
Qed.

(** ** Multisets of xlogs *)
Lemma xlogs_app a b : xlogs_in (a ++ b) = xlogs_in a ++ xlogs_in b.
Proof. apply flat_map_app. Qed.
Lemma xlogs_perm a b : Permutation a b -> Permutation (xlogs_in a) (xlogs_in b).
Proof. apply Permutation_flat_map. Qed.
Lemma xlogs_some a b : some_of a b -> some_of (xlogs_in a) (xlogs_in b).
Proof. intros (r & P). exists (xlogs_in r). rewrite <- xlogs_app. apply xlogs_perm, P. Qed.
Lemma xlogs_view ps : xlogs_in (map collector_pack ps) = map view_xlog_pack (xlogs_in ps).
Proof. induction ps as [|p ps IH]; [reflexivity|]. cbn [map xlogs_in flat_map]. fold (xlogs_in (map collector_pack ps)). fold (xlogs_in ps). rewrite IH, map_app. destruct p; reflexivity. Qed.
Lemma perm_forall2 {A B} (R : A -> B -> Prop) l l' : Permutation l l' -> forall rs, Forall2 R l rs -> exists rs', Permutation rs rs' /\ Forall2 R l' rs'.
Proof.
  induction 1 as [|x l l' P IH|x y l|l l' l'' P IH P' IH']; intros rs F.
  - inversion F; subst. exists []. split; [reflexivity|constructor].
  - inversion F as [|? r ? rs0 Hr F0]; subst. destruct (IH _ F0) as (rs' & Q & G). exists (r :: rs'). split; [constructor; exact Q|constructor; assumption].
  - inversion F as [|? r ? rs0 Hr F0]; subst. inversion F0 as [|? r' ? rs1 Hr' F1]; subst. exists (r' :: r :: rs1). split; [apply perm_swap|repeat constructor; assumption].
  - destruct (IH _ F) as (rs1 & Q & G). destruct (IH' _ G) as (rs2 & Q' & G'). exists rs2. split; [etransitivity; eassumption|exact G'].
Qed.
Lemma some_forall2 {A B} (R : A -> B -> Prop) m l rs : some_of m l -> Forall2 R l rs -> exists rs', some_of rs' rs /\ Forall2 R m rs'.
Proof.
  intros (rest & P) F. destruct (perm_forall2 R _ _ (Permutation_sym P) _ F) as (rs1 & Q & G). apply Forall2_app_inv_l in G as (r1 & r2 & G1 & G2 & ->).
  exists r1. split; [exists r2; symmetry; exact Q|exact G1].
Qed.
