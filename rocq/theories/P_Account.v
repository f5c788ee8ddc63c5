(** C70 and C56 in terms of the ledger of S_Ledger.v: what the collector is shown of running services is what was recorded about them. *)
From Verif Require Import GoInt M_Util M_StrMatch M_Cache L_Cache M_Text M_Sampler M_Profile M_Trace S_Trace L_Trace L_TraceInv L_TraceActive.
From Verif Require Import M_OutX M_InX M_Value M_Packs M_Access M_Dump M_Conf M_Tcp S_Wire S_Packs S_Conf S_Dump S_Tcp S_Util.
From Verif Require Import L_Codec L_Value L_Dump L_Conf L_Tcp P_Packs P_Conf P_Trace P_Tcp S_Profile S_Ledger L_Ledger L_Ledger2 L_Ledger3 L_Ledger5 P_Ledger S_Alert L_Alert.
From Coq Require Import ZifyBool Permutation.
Import S_Trace.

(** milliseconds since a service of the ledger started *)
Definition runs_for (acc : account) (now : Z) : Z := int32 (Z.quot (span (num_of acc NStart) now) 1000000).
Lemma matches_elapsed x acc now : matches x acc -> millis_between (x_StartTime x) now = runs_for acc now.
Proof. intros Mx. unfold runs_for. rewrite <- (mt_num _ _ Mx NStart). reflexivity. Qed.

(** OBJECT_THREAD_DETAIL for the transaction id of a service that runs according to the ledger shows its name, for how long it runs, the goroutine that started
    it and the function that called StartMethod last (or the name given to StartCustomMethod). *)
Theorem C70_describes_account c ops : well_used c ops -> NoDup (txids (after c ops)) ->
  (forall q r, ops = q ++ r -> running_count (after c q) <= 10000) ->
  exists rs l reps, follows c ops rs l reps /\
    forall i acc h p s out, nth_error l i = Some acc -> over acc = false -> hs_agent s = after c ops -> get_int64 (of_string "txid") p = num_of acc NTxid ->
    exists t, handle h (of_string "OBJECT_THREAD_DETAIL") (Some (PMap p)) s out = (s, out, Some (PMap t)) /\
      get_string (of_string "Service Txid") t = int_to_xlog_string32 (num_of acc NTxid) /\
      get_string (of_string "Service Name") t = txt_of acc TName /\
      get_int64 (of_string "Service Elapsed") t = runs_for acc (h_now h) /\
      (exists g, shows (num_of acc NGoid) g /\ get_string (of_string "Thread Name") t = of_string "[goroutine] " ++ g) /\
      get_string (of_string "Last trace method") t = txt_of acc TMethod.
Proof.
  intros W Nd Hc. destruct (history_books c ops W) as (rs & l & reps & H1 & H2 & H3 & H4). exists rs, l, reps.
  split; [split; [exact H1|split; [exact H2|split; [exact H4|symmetry; exact (f2_len _ _ _ H3)]]]|].
  intros i acc h p s out Ei Ov Ea Ep. destruct (f2_nth _ _ _ H3 i acc Ei) as (x & Ex & Mx).
  destruct (C70_thread_detail c ops h p s out Nd Hc Ea) as (t & Et & D & _). exists t. split; [exact Et|].
  destruct (D i x Ex) as (D1 & D2 & D3 & D4 & D5); [rewrite (mt_over _ _ Mx); exact Ov|rewrite Ep; exact (mt_num _ _ Mx NTxid)|].
  rewrite Ep in D1. split; [exact D1|]. split; [rewrite D2; exact (mt_txt _ _ Mx TName)|].
  split; [unfold get_int64, M_Access.get_int; rewrite D3; apply matches_elapsed; exact Mx|].
  split; [|rewrite D5; exact (mt_txt _ _ Mx TMethod)]. exists (format_int 10 (x_Goid x)). split; [|exact D4].
  change (x_Goid x) with (x_num NGoid x). rewrite (mt_num _ _ Mx NGoid). apply shows_format.
Qed.

Lemma filter_matches xs l : Forall2 matches xs l -> Forall2 matches (filter (fun x => negb (x_Closed x)) xs) (filter (fun acc => negb (over acc)) l).
Proof. induction 1 as [|x acc xs l Mx _ IH]; [constructor|]. cbn [filter]. rewrite (mt_over _ _ Mx). destruct (over acc); cbn [negb]; [exact IH|constructor; assumption]. Qed.
Lemma matches_map {A} (f : tctx -> A) (g : account -> A) xs l : (forall x acc, matches x acc -> f x = g acc) -> Forall2 matches xs l -> map f xs = map g l.
Proof. intros H. induction 1 as [|x acc xs l Mx _ IH]; [reflexivity|]. cbn [map]. rewrite (H _ _ Mx), IH. reflexivity. Qed.
Lemma forall2_flip {A B} (R : A -> B -> Prop) xs l : Forall2 R xs l -> Forall2 (fun b a => R a b) l xs.
Proof. induction 1; constructor; auto. Qed.

(** OBJECT_ACTIVE_SERVICE_LIST has one row per service that runs according to the ledger, with what the ledger knows of it. *)
Theorem C56_rows_are_accounts c ops : well_used c ops -> NoDup (txids (after c ops)) ->
  (forall p q, ops = p ++ q -> running_count (after c p) <= 10000) ->
  exists rs l reps, follows c ops rs l reps /\
    forall h param s out, hs_agent s = after c ops -> Permutation (h_order h) (M_Cache.table (a_active (after c ops))) ->
    exists t rows, handle h (of_string "OBJECT_ACTIVE_SERVICE_LIST") param s out = (s, out, Some (PMap t)) /\
      Permutation rows (filter (fun acc => negb (over acc)) l) /\
      let column (k : gostring) (f : account -> value) := M_Value.get k t = Some (VList (map f rows)) in
      column (of_string "id") (fun acc => VDec (num_of acc NGoid)) /\
      column (of_string "elapsed") (fun acc => VDec (runs_for acc (h_now h))) /\
      column (of_string "service") (fun acc => VText (txt_of acc TName)) /\
      column (of_string "txid") (fun acc => VText (int_to_xlog_string32 (num_of acc NTxid))) /\
      column (of_string "ip") (fun acc => VText (txt_of acc TIp)) /\
      column (of_string "name") (fun acc => VText (of_string "[goroutine] " ++ format_int 10 (num_of acc NGoid))).
Proof.
  intros W Nd Hc. destruct (history_books c ops W) as (rs & l & reps & H1 & H2 & H3 & H4). exists rs, l, reps.
  split; [split; [exact H1|split; [exact H2|split; [exact H4|symmetry; exact (f2_len _ _ _ H3)]]]|].
  intros h param s out Ea Ho. destruct (C56_active_list c ops h param s out Nd Hc Ea Ho) as (t & rows & E & P & K1 & K2 & K3 & K4 & K5 & K6 & _). exists t.
  destruct (Permutation_Forall2 (Permutation_sym P) (filter_matches _ _ H3)) as (accs & Pa & Fa). exists accs. split; [exact E|]. split; [apply Permutation_sym; exact Pa|]. cbv beta zeta in *.
  rewrite K1, K2, K3, K4, K5, K6.
  assert (forall (f : tctx -> value) (g : account -> value), (forall x acc, matches x acc -> f x = g acc) -> Some (VList (map f rows)) = Some (VList (map g accs))) as Q
    by (intros f g Hfg; rewrite (matches_map f g rows accs Hfg Fa); reflexivity).
  repeat split; apply Q; intros x acc Mx.
  - rewrite <- (mt_num _ _ Mx NGoid). reflexivity.
  - rewrite (matches_elapsed _ _ _ Mx). reflexivity.
  - rewrite <- (mt_txt _ _ Mx TName). reflexivity.
  - rewrite <- (mt_num _ _ Mx NTxid). reflexivity.
  - rewrite <- (mt_txt _ _ Mx TIp). reflexivity.
  - rewrite <- (mt_num _ _ Mx NGoid). reflexivity.
Qed.

(** The goroutine shown is not always the one that runs the service: GoWithTrace starts the child's service before the goroutine exists, so the child is shown under
    the number of the goroutine that called GoWithTrace (here 7; the child itself runs on 8). *)
Definition on_goroutine (g : Z) (n : env) : env := mkN (n_conf n) (n_now n) (n_room n) (n_draw n) (n_key n) g (n_order n).
Definition child_ops : list (env * call) :=
  [(on_goroutine 7 (env0 11 1000000), KStartService CPlain (of_string "/a") (of_string "10.0.0.1:5000"));
   (on_goroutine 7 (env0 12 2000000), KGo (CTrace 0) (of_string "child"));
   (on_goroutine 8 (env0 13 3000000), KGoBegin (CTrace 1));
   (on_goroutine 8 (env0 14 4000000), KStartMethod (CTrace 1) (of_string "example.org/app.Work") [])].
Theorem C70_child_goroutine_refuted : let a := after sconf0 child_ops in
  exists t, handle ex_henv (of_string "OBJECT_THREAD_DETAIL") (Some (PMap [(of_string "txid", VDec 12)])) (ex_state a) new_dout = (ex_state a, new_dout, Some (PMap t)) /\
    get_string (of_string "Service Name") t = of_string "child" /\ get_string (of_string "Last trace method") t = of_string "example.org/app.Work" /\
    get_string (of_string "Thread Name") t = of_string "[goroutine] 7".
Proof.
  cbv zeta. exists (get_goroutine_detail ex_henv (Some (PMap [(of_string "txid", VDec 12)])) (after sconf0 child_ops)). split; [reflexivity|].
  split; [vm_compute; reflexivity|]. split; vm_compute; reflexivity.
Qed.
Example C70_account_case : well_used sconf0 child_ops /\ txids (after sconf0 child_ops) = [11; 12] /\ running_count (after sconf0 child_ops) = 2.
Proof.
  split; [|split; vm_compute; reflexivity]. intros p n k q E. unfold child_ops in E.
  do 4 (destruct p as [|? p]; [injection E as <- <- _; split; [split; cbn; lia|]; cbn [sensible snd]; try exact I; apply Nat.ltb_lt; vm_compute; reflexivity|injection E as <- E]).
  destruct p; discriminate E.
Qed.

Print Assumptions C70_describes_account.
Print Assumptions C56_rows_are_accounts.
Print Assumptions C70_child_goroutine_refuted.
