(** The agent follows the ledger: starting, ending and whole histories. *)
From Verif Require Import GoInt M_Util M_Hash M_StrMatch M_Packs M_Steps M_Cache L_Cache M_Text M_Sampler M_Profile L_Profile S_Profile M_Trace
  L_Trace L_TraceRel S_Trace L_TraceInv L_TraceStart L_TraceSafe L_TraceHist S_Ledger L_Ledger.
From Coq Require Import ZifyBool Permutation.

Definition books (a : agent) (l : ledger) : Prop := Forall2 matches (a_ctx a) l.

Lemma f2_nth {A B} (P : A -> B -> Prop) l k : Forall2 P l k -> forall i y, nth_error k i = Some y -> exists x, nth_error l i = Some x /\ P x y.
Proof. induction 1; intros [|i] z E; try discriminate; cbn in *; [injection E as <-; eauto|eauto]. Qed.
Lemma f2_nth_l {A B} (P : A -> B -> Prop) l k : Forall2 P l k -> forall i x, nth_error l i = Some x -> exists y, nth_error k i = Some y /\ P x y.
Proof. induction 1; intros [|i] z E; try discriminate; cbn in *; [injection E as <-; eauto|eauto]. Qed.
Lemma f2_len {A B} (P : A -> B -> Prop) l k : Forall2 P l k -> length l = length k.
Proof. induction 1; cbn; congruence. Qed.
Lemma f2_set {A B} (P : A -> B -> Prop) l k : Forall2 P l k -> forall i x y, P x y -> Forall2 P (list_set l i x) (list_set k i y).
Proof. induction 1; intros [|i] u v Huv; cbn [list_set]; constructor; auto. Qed.
Lemma f2_snoc {A B} (P : A -> B -> Prop) l k x y : Forall2 P l k -> P x y -> Forall2 P (l ++ [x]) (k ++ [y]).
Proof. induction 1; cbn; intros; constructor; auto. Qed.

Lemma does_run {A} h c c' (m : M A) r a l : does h c c' m r -> books a l -> nth_error l h = Some c ->
  exists b, m a = (b, Some r) /\ books b (list_set l h c') /\ a_log b = a_log a.
Proof.
  intros D R E. destruct (f2_nth _ _ _ R h c E) as (x & Ex & Mx). destruct (D a x Ex Mx) as (b & y & E1 & Eb & My & Lb).
  exists b. split; [exact E1|]. split; [|exact Lb]. unfold books. rewrite Eb. apply f2_set; assumption.
Qed.

(** accounts that agree *)
Definition agree (c c' : account) : Prop :=
  (forall f, num_of c f = num_of c' f) /\ (forall f, txt_of c f = txt_of c' f) /\ stream c = stream c' /\ over c = over c' /\ did c = did c'.
Lemma matches_agree x c c' : matches x c -> agree c c' -> matches x c'.
Proof.
  intros [M1 M2 M3 M4 M5 M6 M7 M8] (A1 & A2 & A3 & A4 & A5). constructor.
  - intros f. rewrite M1. apply A1.
  - intros f. rewrite M2. apply A2.
  - congruence.
  - congruence.
  - exact M5.
  - exact M6.
  - congruence.
  - rewrite <- A4, <- A5, <- (A1 NTxid). exact M8.
Qed.
Lemma does_agree {A} h c c' c'' (m : M A) r : does h c c' m r -> agree c' c'' -> does h c c'' m r.
Proof.
  intros D G a x E Mx. destruct (D a x E Mx) as (b & y & E1 & Eb & My & Lb). exists b, y. split; [exact E1|]. split; [exact Eb|]. split; [|exact Lb].
  eapply matches_agree; eassumption.
Qed.
Ltac agrees := unfold agree; repeat match goal with |- _ /\ _ => split end; try reflexivity; intros f; destruct f; reflexivity.

(** * Starting *)
Lemma new_good keep key now : 1 <= keep -> exists x, new_tctx keep key now = Some x /\ exists p, new_prof keep = Some p /\
  x = mkX false false false [] 0 p key 0 0 now 0 [] [] 0 [] 0 0 0 0 0 0 0 0 false 0 0 [] [] [] [] [] [] [].
Proof.
  intros H. unfold new_tctx, new_prof. destruct (Z.ltb_spec keep 0); [lia|]. eexists. split; [reflexivity|]. eexists. split; reflexivity.
Qed.
Lemma start0_books n name addr a l : good n -> books a l -> exists b,
  start_service0 n name addr a = (b, Some (length l)) /\ books b (l ++ [opened n name addr 0]) /\ a_log b = a_log a.
Proof.
  intros (G1 & G2) R. destruct (new_good (cf_keep (n_conf n)) (n_key n) (n_now n) G1) as (x0 & E0 & p0 & Ep & Ex).
  rewrite (start0_eq n name addr a x0 E0). cbv zeta. rewrite <- (f2_len _ _ _ R).
  assert (x_Profile x0 = p0) as Epr by (subst x0; reflexivity). rewrite Epr. clear Epr.
  assert (room p0) as R0 by (eapply new_room; [exact G1|exact Ep]).
  set (e := env_of n (new_link n x0)). assert (good_env e) as Ge by (split; assumption).
  destruct (add_room e (goroutine_step n) p0 Ge R0) as (p & Ea & Rp). rewrite Ea. eexists. split; [reflexivity|]. split; [|reflexivity].
  unfold books. cbn [a_ctx]. apply f2_snoc; [exact R|]. subst x0.
  assert (p_heap p0 = []) as Hh by (unfold new_prof in Ep; destruct (_ <? 0); [discriminate|]; injection Ep as <-; reflexivity).
  constructor.
  - intros f. destruct f; reflexivity.
  - intros f. destruct f; try reflexivity. cbn. unfold normalize_ip. rewrite host_split. reflexivity.
  - reflexivity.
  - reflexivity.
  - split; reflexivity.
  - exact Rp.
  - cbn [new_named x_Profile set_RemoteIp set_ServiceHash set_ServiceName set_Profile]. unfold add in Ea. rewrite (process_heap _ _ _ _ Ea). cbn [p_heap]. rewrite Hh.
    cbn [app map opened did steps_of fold_left]. rewrite strip_links. reflexivity.
  - intros _. exists (cf_keep (n_conf n)), p0, [e]. split; [exact G1|]. split; [exact Ep|]. split; [reflexivity|]. split; [constructor; [|constructor]; split; [exact Ge|reflexivity]|].
    cbn [combine opened did pr_run]. unfold pr_step. cbn [snd fst]. unfold goroutine_step, message_step in Ea. unfold at_ms. rewrite Ea. reflexivity.
Qed.
Lemma nth_end {A} (l : list A) x : nth_error (l ++ [x]) (length l) = Some x.
Proof. induction l; [reflexivity|exact IHl]. Qed.
(** starting and then working on the new context *)
Lemma start0_does {A} n name addr a l (f : nat -> M A) c' r : good n -> books a l ->
  does (length l) (opened n name addr 0) c' (f (length l)) r ->
  exists b, bind (start_service0 n name addr) f a = (b, Some r) /\ books b (l ++ [c']) /\ a_log b = a_log a.
Proof.
  intros G R D. destruct (start0_books n name addr a l G R) as (b & E & Rb & Lb).
  destruct (does_run _ _ _ _ _ b _ D Rb (nth_end _ _)) as (d & Ed & Rd & Ld). exists d. rewrite (bind_some _ _ _ _ _ E). split; [exact Ed|].
  rewrite set_snoc in Rd. split; [exact Rd|congruence].
Qed.

Lemma get_none a l c : books a l -> c <> CNil -> account_of l c = None -> get_tctx c a = (a, Some None).
Proof.
  intros R Hc E. destruct c as [| |h]; [congruence|reflexivity|]. cbn in E |- *. destruct (nth_error l h) eqn:El; [discriminate|].
  destruct (nth_error (a_ctx a) h) as [x|] eqn:Ex; [|reflexivity]. destruct (f2_nth_l _ _ _ R h x Ex) as (y & Ey & _). congruence.
Qed.
Lemma get_some a l c h acc : books a l -> account_of l c = Some (h, acc) -> c = CTrace h /\ nth_error l h = Some acc /\ get_tctx c a = (a, Some (Some h)) /\
  exists x, nth_error (a_ctx a) h = Some x /\ matches x acc.
Proof.
  intros R E. destruct c as [| |h']; try discriminate. cbn in E. destruct (nth_error l h') as [y|] eqn:El; [|discriminate]. injection E as -> ->.
  split; [reflexivity|]. split; [exact El|]. destruct (f2_nth _ _ _ R h acc El) as (x & Ex & Mx). cbn. rewrite Ex. eauto.
Qed.
Lemma get_trace_none a l h : books a l -> account_of l (CTrace h) = None -> get_tctx (CTrace h) a = (a, Some None).
Proof. intros R E. eapply get_none; [exact R|discriminate|exact E]. Qed.
Lemma traced_none {A} a l c (d : A) k : books a l -> account_of l c = None -> traced c d k a = (a, Some d).
Proof.
  intros R E. destruct c as [| |h]; [reflexivity|reflexivity|]. unfold traced. rewrite (bind_some _ _ _ _ _ (get_trace_none _ _ _ R E)). reflexivity.
Qed.

Definition goes (n : env) (k : call) (a : agent) (l : ledger) : Prop :=
  forall l' r rs, ledger_call n k l = (l', r, rs) -> exists b, do_call n k a = (b, Some r) /\ books b l' /\ rs = [] /\ a_log b = a_log a.
Lemma fmap_eq {A B} (f : A -> B) m a b x : m a = (b, Some x) -> fmap f m a = (b, Some (f x)).
Proof. intros E. unfold fmap. rewrite (bind_some _ _ _ _ _ E). reflexivity. Qed.
Lemma recovered_eq {A} (d : A) m a b x : m a = (b, Some x) -> recovered d m a = (b, Some x).
Proof. intros E. unfold recovered. rewrite E. reflexivity. Qed.

Lemma start_service_goes n c name ip a l : good n -> books a l -> goes n (KStartService c name ip) a l.
Proof.
  intros G R l' r rs. cbn [ledger_call do_call]. destruct (account_of l c) as [[h acc]|] eqn:E; intros E1; injection E1 as <- <- <-.
  - destruct (get_some _ _ _ _ _ R E) as (-> & El & Eg & _). exists a. split; [|auto]. apply (fmap_eq RCtx), recovered_eq. rewrite (bind_some _ _ _ _ _ Eg). reflexivity.
  - edestruct (start0_does n name ip a l (fun h => modify h (set_XType XTYPE_APP) ;; ret (CTrace h))) as (b & Eb & Rb & Lb); [exact G|exact R| |].
    { eapply does_bind; [eapply does_agree; [apply does_set_xtype|]|apply does_ret]. instantiate (1 := opened n name ip XTYPE_APP). agrees. }
    exists b. split; [|auto]. apply (fmap_eq RCtx), recovered_eq. cbv zeta.
    assert (get_tctx (match c with CNil => CPlain | _ => c end) a = (a, Some None)) as Eg.
    { destruct c; [reflexivity|reflexivity|]. eapply get_none; [exact R|discriminate|exact E]. }
    rewrite (bind_some _ _ _ _ _ Eg). exact Eb.
Qed.

Lemma does_message h n s : good n -> forall c t, t = ms n c -> does h c (add_step_to (SMessage (at_ms (ms n c)) s) c) (profile_add n h (message_step s t)) tt.
Proof. intros G c t ->. apply does_add. exact G. Qed.
Lemma does_messages {A} h n (g : A -> list gostring) t : good n ->
  forall (l : list A) (f : A -> M unit) , (forall v c, ms n c = t -> does h c (fold_left (fun c s => add_step_to (SMessage (at_ms (ms n c)) s) c) (g v) c) (f v) tt) ->
  forall c, ms n c = t -> does h c (fold_left (fun c s => add_step_to (SMessage (at_ms (ms n c)) s) c) (flat_map g l) c) (for_each l f) tt.
Proof.
  intros G l f Hf. induction l as [|v l IH]; intros c Hc; [apply does_ret|]. cbn [for_each flat_map]. rewrite fold_left_app.
  eapply does_bind; [apply Hf; exact Hc|]. apply IH. rewrite <- Hc. generalize (g v). clear. intros l. revert c. induction l as [|s l IH]; intros c; [reflexivity|].
  cbn [fold_left]. rewrite IH. reflexivity.
Qed.
Lemma fold_msgs_ms n l : forall c, ms n (fold_left (fun c s => add_step_to (SMessage (at_ms (ms n c)) s) c) l c) = ms n c.
Proof. induction l as [|s l IH]; intros c; [reflexivity|]. cbn [fold_left]. rewrite IH. reflexivity. Qed.
Lemma map_flat {A B} (f : A -> B) l : map f l = flat_map (fun x => [f x]) l.
Proof. induction l; [reflexivity|]. cbn. rewrite IHl. reflexivity. Qed.
Lemma does_headers h c n r : good n -> does h c (fold_left (fun c s => add_step_to (SMessage (at_ms (ms n c)) s) c) (http_texts n r) c) (profile_http_headers n r h) tt.
Proof.
  intros G. unfold profile_http_headers, http_texts. rewrite fold_left_app. eapply does_bind; [apply does_millis|].
  match goal with |- does _ _ (fold_left ?F _ ?C1) _ _ => eapply (does_bind _ _ C1) end.
  - destruct (cf_header (n_conf n)); [|apply does_ret]. destruct (cf_header_keys (n_conf n)) as [|b ks].
    + rewrite map_flat. apply (does_messages h n _ (ms n c)); [exact G| |reflexivity]. intros v c0 H0. cbn [fold_left]. unfold header_text. rewrite <- comma_eq. apply does_message; [exact G|congruence].
    + apply (does_messages h n _ (ms n c)); [exact G| |reflexivity]. intros v c0 H0. destruct (rq_values r v) as [|s ss]; [apply does_ret|].
      cbn [fold_left]. unfold header_text. rewrite <- comma_eq. apply does_message; [exact G|congruence].
  - destruct (cf_query (n_conf n)); [|apply does_ret]. cbn [fold_left]. apply does_message; [exact G|]. rewrite fold_msgs_ms. reflexivity.
Qed.
Lemma http_new n r a l : good n -> books a l -> exists b,
  (h <- start_service0 n (rq_path r ++ of_string "<" ++ rq_method r ++ of_string ">") (get_remote_ip r) ;;
   (modify h (set_XType XTYPE_WEB) ;;
    ua <- send_text n KUserAgent (rq_ua r) ;;
    modify h (set_UserAgent ua) ;;
    modify h (set_HttpMethod (rq_method r)) ;;
    rf <- send_text n KReferer (rq_referer r) ;;
    modify h (set_Referer rf) ;;
    profile_http_headers n r h ;;
    ret (CTrace h))) a = (b, Some (CTrace (length l))) /\ books b (l ++ [opened_http n r]) /\ a_log b = a_log a.
Proof.
  intros G R. apply start0_does; [exact G|exact R|]. unfold opened_http. cbv zeta. fold (get_remote_ip r).
  eapply does_bind; [apply does_set_xtype|]. eapply does_bind; [apply does_send|]. eapply does_bind; [apply does_set_ua|]. eapply does_bind; [apply does_set_http|].
  eapply does_bind; [apply does_send|]. eapply does_bind; [eapply does_agree; [apply does_set_referer|]|]; [|eapply does_bind; [apply does_headers; exact G|apply does_ret]].
  agrees.
Qed.
Lemma start_http_goes n c req a l : good n -> req <> None -> books a l -> goes n (KStartHttp c req) a l.
Proof.
  intros G Hr R l' r rs. cbn [ledger_call do_call]. destruct req as [r0|]; [|congruence]. destruct (http_new n r0 a l G R) as (b & Eb & Rb & Lb).
  destruct c as [| |h] eqn:Ec.
  - intros E1. injection E1 as <- <- <-. exists a. auto.
  - intros E1. cbn [account_of] in E1. injection E1 as <- <- <-. exists b. split; [|split; [exact Rb|auto]].
    apply (fmap_eq RCtx), recovered_eq. erewrite bind_some by reflexivity. exact Eb.
  - destruct (account_of l (CTrace h)) as [[h' acc]|] eqn:E.
    + intros E1. injection E1 as <- <- <-. destruct (get_some _ _ _ _ _ R E) as (Eh & El & Eg & _). injection Eh as ->. exists a. split; [|auto].
      apply (fmap_eq RCtx), recovered_eq. rewrite (bind_some _ _ _ _ _ Eg). reflexivity.
    + intros E1. injection E1 as <- <- <-. exists b. split; [|split; [exact Rb|auto]]. apply (fmap_eq RCtx), recovered_eq.
      rewrite (bind_some _ _ _ _ _ (get_trace_none _ _ _ R E)). exact Eb.
Qed.

Lemma read_at a l h c : books a l -> nth_error l h = Some c -> exists x, read h (fun x => x) a = (a, Some x) /\ matches x c.
Proof. intros R E. destruct (f2_nth _ _ _ R h c E) as (x & Ex & Mx). exists x. rewrite (read_eq _ _ _ _ Ex). auto. Qed.
Lemma nth_app_l {A} (l k : list A) i x : nth_error l i = Some x -> nth_error (l ++ k) i = Some x.
Proof. intros E. rewrite nth_error_app1; [exact E|]. apply nth_error_Some. congruence. Qed.

Lemma inherit_goes n c p a l : good n -> (p < length (a_ctx a))%nat -> books a l -> goes n (KInherit c p) a l.
Proof.
  intros G Hp R l' r rs. cbn [ledger_call do_call]. rewrite (f2_len _ _ _ R) in Hp. destruct (nth_lt _ _ Hp) as (acc & El). rewrite El.
  intros E1. injection E1 as <- <- <-. destruct (read_at _ _ _ _ R El) as (xp & Er & Mp).
  destruct (start0_books n (x_ServiceName xp) (x_RemoteIp xp) a l G R) as (b & Eb & Rb & Lb).
  rewrite (mt_txt _ _ Mp TName : x_ServiceName xp = _), (mt_txt _ _ Mp TIp : x_RemoteIp xp = _) in Eb, Rb. set (c0 := opened n _ _ 0) in Rb.
  destruct (read_at _ _ _ _ Rb (nth_app_l _ _ _ _ El)) as (x1 & Er1 & M1).
  set (c1 := put_num NXtype (num_of acc NXtype) (put_num NGxid (num_of acc NGxid) c0)).
  assert (does (length l) c0 c1 (modify (length l) (fun x => set_XType (x_XType x1) (set_Gxid (x_Gxid x1) (set_Inherit true x)))) tt) as D1.
  { rewrite (mt_num _ _ M1 NXtype : x_XType x1 = _), (mt_num _ _ M1 NGxid : x_Gxid x1 = _). apply does_modify. intros x Mx.
    apply (put_match x c0); auto; try reflexivity; try exact (mt_txt _ _ Mx); try exact (mt_stream _ _ Mx). intros g. generalize (mt_num _ _ Mx g). destruct g; cbn; congruence. }
  destruct (does_run _ _ _ _ _ b _ D1 Rb (nth_end _ _)) as (b1 & Eb1 & Rb1 & Lb1). rewrite set_snoc in Rb1.
  destruct (does_run _ _ _ _ _ b1 _ (does_add (length l) c1 n (message_step (of_string "scouter inheritance step") 0) G) Rb1 (nth_end _ _)) as (d & Ed & Rd & Ld).
  rewrite set_snoc in Rd. set (c2 := add_step_to _ c1) in Rd.
  destruct (read_at _ _ _ _ Rd (nth_app_l _ _ _ _ El)) as (x2 & Er2 & M2).
  assert (does (length l) c2 (opened_inherited n acc) (modify (length l) (inherit_fields (cf_obj (n_conf n)) x2)) tt) as D3.
  { apply does_modify. intros x Mx. destruct (mt_sql _ _ Mx) as (S1 & S2), (mt_sql _ _ M2) as (S3 & S4). apply (put_match x c2); auto; try reflexivity.
    - intros g. generalize (mt_num _ _ Mx g), (mt_num _ _ M2 g), (mt_num _ _ M2 NTxid). destruct g; cbn; congruence.
    - intros g. generalize (mt_txt _ _ Mx g), (mt_txt _ _ M2 g). destruct g; cbn; congruence.
    - exact (mt_stream _ _ M2).
    - cbn. congruence.
    - cbn. congruence. }
  destruct (does_run _ _ _ _ _ d _ D3 Rd (nth_end _ _)) as (e & Ee & Re & Le). rewrite set_snoc in Re.
  exists e. split; [|split; [exact Re|split; [reflexivity|congruence]]]. apply (fmap_eq RCtx), recovered_eq. rewrite (bind_some _ _ _ _ _ Er).
  rewrite (mt_txt _ _ Mp TName : x_ServiceName xp = _), (mt_txt _ _ Mp TIp : x_RemoteIp xp = _). rewrite (bind_some _ _ _ _ _ Eb).
  assert (inherit_tctx n (length l) p b = (e, Some tt)) as Ei.
  { unfold inherit_tctx. rewrite (bind_some _ _ _ _ _ Er1), (bind_some _ _ _ _ _ Eb1), (bind_some _ _ _ _ _ Ed), (bind_some _ _ _ _ _ Er2). exact Ee. }
  rewrite (bind_some _ _ _ _ _ Ei). reflexivity.
Qed.

Lemma go_goes n c name a l : good n -> books a l -> goes n (KGo c name) a l.
Proof.
  intros G R l' r rs. cbn [ledger_call do_call]. destruct (account_of l c) as [[p acc]|] eqn:E; intros E1; injection E1 as <- <- <-.
  2: { exists a. split; [|auto]. apply (fmap_eq RRun). unfold go_with_trace. apply recovered_eq. unfold start_child. rewrite (bind_some _ _ _ _ _ (traced_none _ _ _ _ _ R E)). reflexivity. }
  destruct (get_some _ _ _ _ _ R E) as (-> & El & Eg & _). assert (p < length l)%nat as Hp by (apply nth_error_Some; congruence).
  assert (forall k, nth_error (l ++ [k]) p = Some acc) as Ep by (intros; apply nth_app_l; exact El).
  destruct (does_run _ _ _ _ _ a _ (does_ip p acc) R El) as (a0 & Ea0 & Ra0 & La0). rewrite (list_set_id _ _ _ El) in Ra0.
  destruct (start0_books n name (txt_of acc TIp) a0 l G Ra0) as (b & Eb & Rb & Lb).
  destruct (does_run _ _ _ _ _ b _ (does_set_xtype (length l) _ XTYPE_BACK_THREAD2) Rb (nth_end _ _)) as (b1 & Eb1 & Rb1 & Lb1). rewrite set_snoc in Rb1.
  destruct (does_run _ _ _ _ _ b1 _ (does_txid p acc) Rb1 (Ep _)) as (b2 & Eb2 & Rb2 & Lb2). rewrite (list_set_id _ _ _ (Ep _)) in Rb2.
  destruct (does_run _ _ _ _ _ b2 _ (does_gxid p acc) Rb2 (Ep _)) as (b3 & Eb3 & Rb3 & Lb3). rewrite (list_set_id _ _ _ (Ep _)) in Rb3.
  set (c0 := put_num NXtype _ _) in Rb3. set (c1 := put_num NGxid (num_of acc NGxid) (put_num NCaller (num_of acc NTxid) c0)).
  assert (does (length l) c0 c1 (modify (length l) (fun x => set_Gxid (num_of acc NGxid) (set_Caller (num_of acc NTxid) x))) tt) as D1.
  { apply does_modify. intros x Mx. apply (put_match x c0); auto; try reflexivity; try exact (mt_txt _ _ Mx); try exact (mt_stream _ _ Mx).
    intros g. generalize (mt_num _ _ Mx g). destruct g; cbn; congruence. }
  destruct (does_run _ _ _ _ _ b3 _ D1 Rb3 (nth_end _ _)) as (b4 & Eb4 & Rb4 & Lb4). rewrite set_snoc in Rb4.
  assert (exists b5, (if num_of acc NGxid =? 0 then modify (length l) (set_Gxid (num_of acc NTxid)) ;; modify p (set_Gxid (num_of acc NTxid)) else ret tt) b4 = (b5, Some tt) /\
    books b5 (list_set l p (with_gxid acc) ++ [opened_child n name acc]) /\ a_log b5 = a_log b4) as (b5 & Eb5 & Rb5 & Lb5).
  { unfold opened_child, with_gxid. destruct (num_of acc NGxid =? 0) eqn:Z0.
    - destruct (does_run _ _ _ _ _ b4 _ (does_set_gxid (length l) _ (num_of acc NTxid)) Rb4 (nth_end _ _)) as (d & Ed & Rd & Ld). rewrite set_snoc in Rd.
      destruct (does_run _ _ _ _ _ d _ (does_set_gxid p acc (num_of acc NTxid)) Rd (Ep _)) as (e & Ee & Re & Le). exists e. rewrite (bind_some _ _ _ _ _ Ed).
      split; [exact Ee|]. split; [|congruence]. rewrite list_set_app1 in Re by exact Hp. unfold books in *. apply Forall2_app_inv_r in Re. destruct Re as (l1 & l2 & F1 & F2 & ->).
      apply Forall2_app; [exact F1|]. inversion F2 as [|x y ? ? Mx F3]; subst. constructor; [|exact F3]. eapply matches_agree; [exact Mx|]. agrees.
    - exists b4. split; [reflexivity|]. split; [|reflexivity]. rewrite list_set_id by exact El. unfold books in *. apply Forall2_app_inv_r in Rb4. destruct Rb4 as (l1 & l2 & F1 & F2 & F0).
      rewrite F0. apply Forall2_app; [exact F1|]. inversion F2 as [|x y ? ? Mx F3]; subst. constructor; [|exact F3]. eapply matches_agree; [exact Mx|]. agrees. }
  assert (length (list_set l p (with_gxid acc)) = length l) as Ll by apply list_set_length.
  assert (nth_error (list_set l p (with_gxid acc) ++ [opened_child n name acc]) (length l) = Some (opened_child n name acc)) as En by (rewrite <- Ll; apply nth_end).
  assert (nth_error (list_set l p (with_gxid acc) ++ [opened_child n name acc]) p = Some (with_gxid acc)) as Eq by (apply nth_app_l; eapply nth_set_lt; exact El).
  destruct (does_run _ _ _ _ _ b5 _ (does_txid (length l) _) Rb5 En) as (b6 & Eb6 & Rb6 & Lb6). rewrite (list_set_id _ _ _ En) in Rb6.
  assert (does p (with_gxid acc) (spawned_from n name acc) (st <- millis n p ;; hs <- send_text n KApicall name ;; profile_add n p (SAsync (mk_single 0 0 st) (num_of (opened_child n name acc) NTxid) hs 0)) tt) as D2.
  { eapply does_bind; [apply does_millis|]. eapply does_bind; [apply does_send|]. unfold spawned_from.
    replace (ms n acc) with (ms n (with_gxid acc)) by (unfold with_gxid; destruct (_ =? 0); reflexivity). apply does_add. exact G. }
  destruct (does_run _ _ _ _ _ b6 _ D2 Rb6 Eq) as (b7 & Eb7 & Rb7 & Lb7). rewrite list_set_app1, list_set_twice in Rb7 by (rewrite Ll; exact Hp).
  exists b7. split; [|split; [exact Rb7|split; [reflexivity|congruence]]].
  apply (fmap_eq RRun). unfold go_with_trace. apply recovered_eq. unfold start_child.
  assert (forall (d : ctx) (k : nat -> M ctx), traced (CTrace p) d k a = k p a) as Et by (intros d k; unfold traced; rewrite (bind_some _ _ _ _ _ Eg); reflexivity).
  erewrite bind_some; [reflexivity|]. rewrite Et. rewrite (bind_some _ _ _ _ _ Ea0), (bind_some _ _ _ _ _ Eb), (bind_some _ _ _ _ _ Eb1), (bind_some _ _ _ _ _ Eb2), (bind_some _ _ _ _ _ Eb3), (bind_some _ _ _ _ _ Eb4).
  rewrite (bind_some _ _ _ _ _ Eb5), (bind_some _ _ _ _ _ Eb6).
  revert Eb7. unfold bind. destruct (millis n p b6) as [e1 [st|]]; [|discriminate]. destruct (send_text n KApicall name e1) as [e2 [hs|]]; [|discriminate].
  intros ->. reflexivity.
Qed.
