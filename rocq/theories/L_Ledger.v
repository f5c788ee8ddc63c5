(** The agent follows the ledger of S_Ledger.v. *)
From Verif Require Import GoInt M_Util M_Hash M_StrMatch M_Packs M_Steps M_Cache L_Cache M_Text M_Sampler M_Profile L_Profile S_Profile M_Trace
  L_Trace L_TraceRel S_Trace L_TraceInv L_TraceStart L_TraceSafe L_TraceHist S_Ledger.
From Coq Require Import ZifyBool Permutation.

(** * Accounts and trace contexts *)

Definition x_num (f : num) (x : tctx) : Z :=
  match f with
  | NTxid => x_Txid x | NGxid => x_Gxid x | NCaller => x_Caller x | NXtype => x_XType x | NStart => x_StartTime x | NError => x_Error x
  | NStatus => x_Status x | NUserid => x_Userid x | NUserAgent => x_UserAgent x | NReferer => x_Referer x | NApiCount => x_ApicallCount x
  | NApiTime => x_ApicallTime x | NGoid => x_Goid x
  end.
Definition x_txt (f : txt) (x : tctx) : gostring :=
  match f with
  | TName => x_ServiceName x | TIp => x_RemoteIp x | TLogin => x_Login x | TDesc => x_Desc x | TText1 => x_Text1 x | TText2 => x_Text2 x
  | TText3 => x_Text3 x | TText4 => x_Text4 x | TText5 => x_Text5 x | TMethod => x_LastMethod x
  end.

(** the profile of a service that runs is what the operations make of an empty one *)
Definition traced_prof (tx : Z) (ops : list prof_op) (p : prof) : Prop :=
  exists keep p0 es, 1 <= keep /\ new_prof keep = Some p0 /\ length es = length ops /\
    Forall (fun e => good_env e /\ e_txid e = tx) es /\ pr_run (combine es ops) p0 = Some p.

Record matches (x : tctx) (c : account) : Prop := mkMatch {
  mt_num : forall f, x_num f x = num_of c f;
  mt_txt : forall f, x_txt f x = txt_of c f;
  mt_stream : x_IsStream x = stream c;
  mt_over : x_Closed x = over c;
  mt_sql : x_SqlCount x = 0 /\ x_SqlTime x = 0;
  mt_room : room (x_Profile x);
  mt_steps : map strip (p_heap (x_Profile x)) = steps_of (did c);
  mt_prof : over c = false -> traced_prof (num_of c NTxid) (did c) (x_Profile x) }.

Lemma text_id_hash s : text_id s = text_hash s. Proof. reflexivity. Qed.
Lemma host_split ip : hd [] (split_byte 58 ip) = host_of ip.
Proof.
  unfold split_byte. enough (forall cur, hd [] (split_go 58 cur ip) = rev cur ++ host_of ip) as H by apply H.
  induction ip as [|b r IH]; intros cur; cbn [split_go host_of hd]; [rewrite app_nil_r; reflexivity|].
  destruct (Z.eqb_spec b 58); [cbn [hd]; rewrite app_nil_r; reflexivity|]. rewrite IH. cbn [rev]. rewrite <- app_assoc. reflexivity.
Qed.

Lemma comma_eq l : join_comma l = comma_list l.
Proof.
  destruct l as [|x l]; [reflexivity|]. cbn [join_comma]. revert x. induction l as [|y l IH]; intros x; [cbn; apply app_nil_r|].
  change (comma_list (x :: y :: l)) with (x ++ of_string "," ++ comma_list (y :: l)). rewrite <- IH. reflexivity.
Qed.
Lemma called_eq f : method_name f = called f.
Proof.
  unfold method_name, called. f_equal. unfold split_byte.
  enough (forall cur, last (split_go 47 cur f) [] = if existsb (Z.eqb 47) f then behind_slashes f else rev cur ++ f) as H.
  { rewrite H. destruct (existsb _ f) eqn:E; [reflexivity|]. destruct f as [|b r]; [reflexivity|]. cbn [behind_slashes]. rewrite E. reflexivity. }
  induction f as [|b r IH]; intros cur; [cbn; rewrite app_nil_r; reflexivity|]. cbn [split_go existsb behind_slashes].
  assert (split_go 47 [] r <> []) as Ne by (clear; generalize (@nil Z); induction r as [|x r IH]; intros cur; cbn [split_go]; [discriminate|]; destruct (x =? 47); [discriminate|apply IH]).
  destruct (Z.eqb_spec b 47) as [-> |N].
  - cbn [Z.eqb Pos.eqb orb]. replace (last (rev cur :: split_go 47 [] r) []) with (last (split_go 47 [] r) []) by (destruct (split_go 47 [] r); [contradiction|reflexivity]).
    rewrite IH. destruct (existsb _ r) eqn:E; [reflexivity|]. destruct r as [|x r]; [reflexivity|]. cbn [behind_slashes]. rewrite E. reflexivity.
  - rewrite IH. replace (47 =? b) with false by (symmetry; apply Z.eqb_neq; congruence). cbn [orb]. destruct (existsb _ r); [reflexivity|]. cbn [rev]. rewrite <- app_assoc. reflexivity.
Qed.
Lemma etx_eq ps : param_string ps = etx_list ps.
Proof. unfold param_string, etx_list. rewrite flat_map_concat_map. reflexivity. Qed.

(** * Triples: a computation on the context of service [h] that takes account [c] to [c'] and gives [r] *)
Definition does {A} (h : nat) (c c' : account) (m : M A) (r : A) : Prop :=
  forall a x, nth_error (a_ctx a) h = Some x -> matches x c ->
  exists b y, m a = (b, Some r) /\ a_ctx b = list_set (a_ctx a) h y /\ matches y c' /\ a_log b = a_log a.

Lemma does_ret {A} h c (r : A) : does h c c (ret r) r.
Proof. intros a x E Mx. exists a, x. rewrite (list_set_id _ _ _ E). auto. Qed.
Lemma nth_set_lt {A} (l : list A) h x y : nth_error l h = Some x -> nth_error (list_set l h y) h = Some y.
Proof. intros E. apply list_set_same. apply nth_error_Some. congruence. Qed.
Lemma does_bind {A B} h c c1 c2 (m : M A) (f : A -> M B) r1 r2 : does h c c1 m r1 -> does h c1 c2 (f r1) r2 -> does h c c2 (bind m f) r2.
Proof.
  intros H1 H2 a x E Mx. destruct (H1 a x E Mx) as (b & y & E1 & Eb & My & Lb). destruct (H2 b y) as (d & z & E2 & Ed & Mz & Ld).
  - rewrite Eb. eapply nth_set_lt; exact E.
  - exact My.
  - exists d, z. rewrite (bind_some _ _ _ _ _ E1). rewrite Ed, Eb, list_set_twice. split; [exact E2|]. split; [reflexivity|]. split; [exact Mz|congruence].
Qed.
Lemma does_read {A} h c (f : tctx -> A) v : (forall x, matches x c -> f x = v) -> does h c c (read h f) v.
Proof. intros Hf a x E Mx. exists a, x. rewrite (read_eq _ _ _ _ E), (Hf x Mx), (list_set_id _ _ _ E). auto. Qed.
Lemma does_modify h c c' f : (forall x, matches x c -> matches (f x) c') -> does h c c' (modify h f) tt.
Proof. intros Hf a x E Mx. eexists _, (f x). rewrite (modify_eq _ _ _ _ E). split; [reflexivity|]. split; [reflexivity|]. split; [auto|reflexivity]. Qed.
Lemma does_send h c n k s : does h c c (send_text n k s) (text_id s).
Proof. intros a x E Mx. eexists _, x. rewrite send_text_eq. split; [reflexivity|]. rewrite (list_set_id _ _ _ E). auto. Qed.
Lemma does_recovered {A} h c c' (d : A) m r : does h c c' m r -> does h c c' (recovered d m) r.
Proof. intros H a x E Mx. destruct (H a x E Mx) as (b & y & E1 & R). exists b, y. unfold recovered. rewrite E1. auto. Qed.
Lemma does_traced {A} h c c' (d : A) k r : does h c c' (k h) r -> does h c c' (traced (CTrace h) d k) r.
Proof.
  intros H a x E Mx. destruct (H a x E Mx) as (b & y & E1 & R). exists b, y. unfold traced, bind, get_tctx. rewrite E. auto.
Qed.
Lemma does_fmap {A B} h c c' (f : A -> B) m r : does h c c' m r -> does h c c' (fmap f m) (f r).
Proof. intros H. unfold fmap. eapply does_bind; [exact H|]. apply does_ret. Qed.
Lemma does_eq {A} h c c' c'' (m : M A) r r' : does h c c' m r -> c' = c'' -> r = r' -> does h c c'' m r'.
Proof. intros H -> ->. exact H. Qed.

(** ** Profile operations *)
Lemma steps_of_snoc ops o : steps_of (ops ++ [o]) =
  match o with OPush st | OAdd st => steps_of ops ++ [strip st] | OPop a st => heap_set (steps_of ops) a (strip st) end.
Proof. unfold steps_of. rewrite fold_left_app. reflexivity. Qed.
Lemma strip_links p i st : strip (set_links p i st) = strip st.
Proof. destruct st; reflexivity. Qed.
Lemma links_strip p i st : set_links p i (strip st) = set_links p i st.
Proof. destruct st; reflexivity. Qed.
Lemma map_heap_set f (l : list step) a st : map f (heap_set l a st) = heap_set (map f l) a (f st).
Proof. revert a. induction l as [|y l IH]; intros [|a]; cbn [heap_set map]; try reflexivity. rewrite IH. reflexivity. Qed.
Lemma heap_set_none (l : list step) a st : nth_error l a = None -> heap_set l a st = l.
Proof. revert a. induction l as [|y l IH]; intros [|a]; cbn [heap_set nth_error]; try reflexivity; try discriminate. intros H. rewrite IH by exact H. reflexivity. Qed.

Lemma process_heap e a p p' : process e a p = Some p' -> p_heap p' = p_heap p.
Proof.
  unfold process. destruct (_ <=? _); [discriminate|]. cbv zeta. destruct (p_len p <=? _); [|intros E; injection E as <-; reflexivity].
  destruct (e_keep e <? 0); [discriminate|]. unfold send_profile. destruct (send_groups _ _) as [gs|]; [|discriminate]. intros E. injection E as <-.
  set (p1 := mkProf _ _ _ _ _ _ _ _). change (p_heap p) with (p_heap p1). generalize p1. clear. induction gs as [|g gs IH]; intros p; [reflexivity|].
  cbn [fold_left]. rewrite IH. apply send_profile0_frame.
Qed.

Lemma pr_run_app a b p : pr_run (a ++ b) p = match pr_run a p with Some q => pr_run b q | None => None end.
Proof. revert p. induction a as [|o a IH]; intros p; [reflexivity|]. cbn [app pr_run]. destruct (pr_step o p); [apply IH|reflexivity]. Qed.
Lemma combine_snoc {A B} (l : list A) (k : list B) x y : length l = length k -> combine (l ++ [x]) (k ++ [y]) = combine l k ++ [(x, y)].
Proof. revert k. induction l as [|u l IH]; intros [|v k]; cbn; try discriminate; [reflexivity|]. intros E. rewrite IH by lia. reflexivity. Qed.
Lemma traced_snoc tx ops p e o p' : traced_prof tx ops p -> good_env e -> e_txid e = tx -> pr_step (e, o) p = Some p' -> traced_prof tx (ops ++ [o]) p'.
Proof.
  intros (keep & p0 & es & Hk & Hn & L & F & R) G T S. exists keep, p0, (es ++ [e]). split; [exact Hk|]. split; [exact Hn|].
  split; [rewrite !app_length; cbn; lia|]. split; [apply Forall_app; split; [exact F|constructor; [auto|constructor]]|].
  rewrite combine_snoc by exact L. rewrite pr_run_app, R. cbn [pr_run]. rewrite S. reflexivity.
Qed.

Lemma matches_prof x c o p' : matches x c -> room p' -> map strip (p_heap p') = steps_of (did c ++ [o]) ->
  (over c = false -> traced_prof (num_of c NTxid) (did c ++ [o]) p') -> matches (set_Profile p' x) (put_did o c).
Proof.
  intros [M1 M2 M3 M4 M5 M6 M7 M8] R H T. constructor; assumption.
Qed.
Lemma env_txid n x c : matches x c -> e_txid (env_of n x) = num_of c NTxid.
Proof. intros Mx. exact (mt_num _ _ Mx NTxid). Qed.

Lemma does_add h c n st : good n -> does h c (add_step_to st c) (profile_add n h st) tt.
Proof.
  intros G a x E Mx. unfold profile_add, profile_op. rewrite E.
  destruct (add_room (env_of n x) st (x_Profile x) (good_env_of n x G) (mt_room _ _ Mx)) as (p' & Ea & Rp). rewrite Ea. cbn [unit_op option_map].
  eexists _, _. split; [reflexivity|]. split; [reflexivity|]. split; [|reflexivity]. apply matches_prof; [exact Mx|exact Rp| |].
  - unfold add in Ea. rewrite (process_heap _ _ _ _ Ea). cbn [p_heap]. rewrite map_app, (mt_steps _ _ Mx), steps_of_snoc. cbn [map]. rewrite strip_links. reflexivity.
  - intros O. eapply traced_snoc; [exact (mt_prof _ _ Mx O)|apply good_env_of; exact G|apply env_txid; exact Mx|exact Ea].
Qed.
Lemma does_push h c n st : good n -> does h c (put_did (OPush st) c) (profile_push h st) (next_step c).
Proof.
  intros G a x E Mx. unfold profile_push, profile_op. rewrite E. replace (length (p_heap (x_Profile x))) with (next_step c) by (unfold next_step; rewrite <- (mt_steps _ _ Mx), map_length; reflexivity).
  eexists _, _. split; [reflexivity|]. split; [reflexivity|]. split; [|reflexivity].
  - apply matches_prof; [exact Mx|exact (mt_room _ _ Mx)| |].
    + cbn [push p_heap]. rewrite map_app, (mt_steps _ _ Mx), steps_of_snoc. cbn [map]. rewrite strip_links. reflexivity.
    + intros O. eapply (traced_snoc _ _ _ (env_of n x)); [exact (mt_prof _ _ Mx O)|apply good_env_of; exact G|apply env_txid; exact Mx|reflexivity].
Qed.
Lemma pop_strip e a st st' p : strip st' = strip st -> pop e a st' p = pop e a st p.
Proof. intros H. unfold pop. destruct (deref (p_heap p) a) as [old|]; [|reflexivity]. rewrite <- (links_strip _ _ st'), H, links_strip. reflexivity. Qed.
Lemma does_pop h c n ptr st st' : good n -> strip st' = strip st -> does h c (put_did (OPop ptr st) c) (profile_pop n h ptr st') tt.
Proof.
  intros G Hs a x E Mx. unfold profile_pop, profile_op. rewrite E, (pop_strip _ _ _ _ _ Hs).
  destruct (pop_room (env_of n x) ptr st (x_Profile x) (good_env_of n x G) (mt_room _ _ Mx)) as (p' & Ea & Rp). rewrite Ea. cbn [unit_op option_map].
  eexists _, _. split; [reflexivity|]. split; [reflexivity|]. split; [|reflexivity]. apply matches_prof; [exact Mx|exact Rp| |].
  - rewrite steps_of_snoc, <- (mt_steps _ _ Mx). unfold pop in Ea. destruct (deref (p_heap (x_Profile x)) ptr) as [old|] eqn:Ed.
    + rewrite (process_heap _ _ _ _ Ea). cbn [p_heap]. rewrite map_heap_set, strip_links. reflexivity.
    + injection Ea as <-. symmetry. apply heap_set_none. rewrite nth_error_map. unfold deref in Ed. rewrite Ed. reflexivity.
  - intros O. eapply traced_snoc; [exact (mt_prof _ _ Mx O)|apply good_env_of; exact G|apply env_txid; exact Mx|exact Ea].
Qed.
Lemma does_millis h c n : does h c c (millis n h) (ms n c).
Proof. apply does_read. intros x Mx. unfold ms. rewrite <- (mt_num _ _ Mx NStart). reflexivity. Qed.

(** ** Assignments *)
Lemma put_match x c x' c' : matches x c -> (forall f, x_num f x' = num_of c' f) -> (forall f, x_txt f x' = txt_of c' f) -> x_IsStream x' = stream c' ->
  x_Closed x' = x_Closed x -> over c' = over c -> did c' = did c -> num_of c' NTxid = num_of c NTxid -> x_SqlCount x' = x_SqlCount x -> x_SqlTime x' = x_SqlTime x ->
  x_Profile x' = x_Profile x -> matches x' c'.
Proof.
  intros [M1 M2 M3 M4 M5 M6 M7 M8] H1 H2 H3 H4 H5 H6 H7 H8 H9 H10. constructor; try assumption.
  - congruence.
  - destruct M5. split; congruence.
  - rewrite H10. exact M6.
  - rewrite H10, H6. exact M7.
  - rewrite H10, H6, H5, H7. exact M8.
Qed.
Ltac assign := match goal with M : matches _ _ |- _ =>
  apply (put_match _ _ _ _ M); try reflexivity; try exact (mt_stream _ _ M);
  [ let f := fresh "f" in intros f; generalize (mt_num _ _ M f); destruct f; cbn; congruence
  | let f := fresh "f" in intros f; generalize (mt_txt _ _ M f); destruct f; cbn; congruence ] end.
Lemma does_set h c f (v : Z) (set : Z -> tctx -> tctx) : f <> NTxid ->
  (forall x, x_num f (set v x) = v /\ (forall g, g <> f -> x_num g (set v x) = x_num g x) /\ (forall g, x_txt g (set v x) = x_txt g x) /\
     x_IsStream (set v x) = x_IsStream x /\ x_Closed (set v x) = x_Closed x /\ x_SqlCount (set v x) = x_SqlCount x /\ x_SqlTime (set v x) = x_SqlTime x /\
     x_Profile (set v x) = x_Profile x) -> does h c (put_num f v c) (modify h (set v)) tt.
Proof.
  intros Hf Hs. apply does_modify. intros x Mx. destruct (Hs x) as (H1 & H2 & H3 & H4 & H5 & H6 & H7 & H8).
  apply (put_match x c); auto; [| | | ].
  - intros g. cbn [num_of put_num]. destruct (num_eqb f g) eqn:Eg.
    + replace g with f by (destruct f, g; try discriminate; reflexivity). exact H1.
    + rewrite H2; [apply (mt_num _ _ Mx)|]. intros ->. destruct f; discriminate.
  - intros g. rewrite H3. apply (mt_txt _ _ Mx).
  - rewrite H4. apply (mt_stream _ _ Mx).
  - cbn. destruct f; try reflexivity. congruence.
Qed.

Lemma does_num h c f : does h c c (read h (x_num f)) (num_of c f).
Proof. apply does_read. intros x Mx. apply (mt_num _ _ Mx). Qed.
Lemma does_error h c : does h c c (read h x_Error) (num_of c NError). Proof. exact (does_num h c NError). Qed.
Lemma does_gxid h c : does h c c (read h x_Gxid) (num_of c NGxid). Proof. exact (does_num h c NGxid). Qed.
Lemma does_txid h c : does h c c (read h x_Txid) (num_of c NTxid). Proof. exact (does_num h c NTxid). Qed.
Lemma does_ip h c : does h c c (read h x_RemoteIp) (txt_of c TIp).
Proof. apply does_read. intros x Mx. exact (mt_txt _ _ Mx TIp). Qed.
Lemma does_closed h c : does h c c (read h x_Closed) (over c).
Proof. apply does_read. intros x Mx. apply (mt_over _ _ Mx). Qed.
Ltac set_tac := apply does_set; [discriminate|]; let x := fresh in intros x; repeat split; let g := fresh in intros g; destruct g; try reflexivity; congruence.
Lemma does_set_error h c e : does h c (put_num NError e c) (modify h (set_Error e)) tt. Proof. set_tac. Qed.
Lemma does_set_start h c e : does h c (put_num NStart e c) (modify h (set_StartTime e)) tt. Proof. set_tac. Qed.
Lemma does_set_status h c e : does h c (put_num NStatus e c) (modify h (set_Status e)) tt. Proof. set_tac. Qed.
Lemma does_set_xtype h c e : does h c (put_num NXtype e c) (modify h (set_XType e)) tt. Proof. set_tac. Qed.
Lemma does_set_ua h c e : does h c (put_num NUserAgent e c) (modify h (set_UserAgent e)) tt. Proof. set_tac. Qed.
Lemma does_set_referer h c e : does h c (put_num NReferer e c) (modify h (set_Referer e)) tt. Proof. set_tac. Qed.
Lemma does_set_gxid h c e : does h c (put_num NGxid e c) (modify h (set_Gxid e)) tt. Proof. set_tac. Qed.
Lemma does_keep h c f : (forall x, (forall g, x_num g (f x) = x_num g x) /\ (forall g, x_txt g (f x) = x_txt g x) /\ x_IsStream (f x) = x_IsStream x /\ x_Closed (f x) = x_Closed x /\
  x_SqlCount (f x) = x_SqlCount x /\ x_SqlTime (f x) = x_SqlTime x /\ x_Profile (f x) = x_Profile x) -> does h c c (modify h f) tt.
Proof.
  intros H. apply does_modify. intros x Mx. destruct (H x) as (H1 & H2 & H3 & H4 & H5 & H6 & H7). apply (put_match x c); auto.
  - intros g. rewrite H1. apply (mt_num _ _ Mx).
  - intros g. rewrite H2. apply (mt_txt _ _ Mx).
  - rewrite H3. apply (mt_stream _ _ Mx).
Qed.
Lemma does_set_hash h c e : does h c c (modify h (set_ServiceHash e)) tt. Proof. apply does_keep. intros x. repeat split; intros g; destruct g; reflexivity. Qed.
Lemma does_set_method h c s : does h c (put_txt TMethod s c) (modify h (set_LastMethod s)) tt.
Proof.
  apply does_modify. intros x Mx. apply (put_match x c); auto; try reflexivity; try exact (mt_num _ _ Mx); try exact (mt_stream _ _ Mx).
  intros g. generalize (mt_txt _ _ Mx g). destruct g; cbn; congruence.
Qed.
Lemma does_set_http h c e : does h c c (modify h (set_HttpMethod e)) tt. Proof. apply does_keep. intros x. repeat split; intros g; destruct g; reflexivity. Qed.
Lemma does_set_name h c s : does h c (put_txt TName s c) (modify h (set_ServiceName s)) tt.
Proof.
  apply does_modify. intros x Mx. apply (put_match x c); auto; try reflexivity; try exact (mt_num _ _ Mx); try exact (mt_stream _ _ Mx).
  intros g. generalize (mt_txt _ _ Mx g). destruct g; cbn; congruence.
Qed.
Lemma does_set_stream h c : does h c (as_stream c) (modify h (set_IsStream true)) tt.
Proof. apply does_modify. intros x Mx. apply (put_match x c); auto; try reflexivity; [exact (mt_num _ _ Mx)|exact (mt_txt _ _ Mx)]. Qed.

Lemma put_num_stable f v c : num_of (put_num f v c) f = v.
Proof. destruct f; reflexivity. Qed.
Lemma does_error_unless h c n k m : does h c (error_unless_set (text_id m) c)
  (err <- read h x_Error ;; if err =? 0 then e <- send_text n k m ;; modify h (set_Error e) else ret tt) tt.
Proof.
  eapply does_bind; [apply does_error|]. unfold error_unless_set. destruct (num_of c NError =? 0); [|apply does_ret].
  eapply does_bind; [apply does_send|apply does_set_error].
Qed.
Lemma does_assoc {A B C} h c c' (m : M A) (f : A -> M B) (g : B -> M C) r : does h c c' (bind (bind m f) g) r -> does h c c' (bind m (fun x => bind (f x) g)) r.
Proof. intros H a x E Mx. specialize (H a x E Mx). rewrite bind_assoc in H. exact H. Qed.

(** ** The calls on one context *)
Lemma does_pmessage h c n lv m e ps : good n ->
  does h c (add_step_to (SPMessage (at_ms (ms n c)) (text_id m) e lv (etx_list ps)) c) (add_pmessage_step n (CTrace h) lv m e ps) tt.
Proof.
  intros G. unfold add_pmessage_step. rewrite <- etx_eq. apply does_recovered, does_traced. eapply does_bind; [apply does_millis|]. eapply does_bind; [apply does_send|].
  apply does_add. exact G.
Qed.
Lemma ms_error n e c : ms n (error_unless_set e c) = ms n c.
Proof. unfold error_unless_set. destruct (_ =? 0); reflexivity. Qed.
Lemma does_params h n ps : good n -> forall c, does h c (add_params_to n ps c) (add_params n h ps) tt.
Proof.
  intros G. induction ps as [|p ps IH]; intros c; [apply does_ret|]. unfold add_params, add_params_to in *. cbn [for_each fold_left].
  eapply does_bind; [|apply IH]. destruct p as [s|]; [|apply does_ret]. eapply does_bind; [apply does_millis|]. apply does_add. exact G.
Qed.
Lemma does_method h c n f m ps : good n -> does h c (becomes (method_started n f m ps c)) (start_method0 n h f m ps) (Some (next_step (add_params_to n ps c))).
Proof.
  intros G. unfold start_method0, method_started. cbv zeta. cbn [becomes]. eapply does_bind; [apply does_params; exact G|].
  eapply does_bind; [apply does_set_method|]. eapply does_bind; [apply does_send|]. eapply does_bind; [apply does_millis|].
  eapply does_bind; [apply (does_push _ _ n); exact G|]. apply does_ret.
Qed.
Lemma does_read_step {A} h c c' ptr (k : option step -> M A) r :
  (forall o, option_map strip o = step_of c ptr -> does h c c' (k o) r) -> does h c c' (bind (read_step h ptr) k) r.
Proof.
  intros H a x E Mx. unfold read_step. rewrite (bind_some _ _ _ _ _ (read_eq _ _ _ _ E)).
  apply (H (deref (p_heap (x_Profile x)) ptr)) with x; [|exact E|exact Mx]. unfold step_of. rewrite <- (mt_steps _ _ Mx), nth_error_map. reflexivity.
Qed.
Lemma does_api0 h c n m ad : good n -> does h c (put_did (OPush (api_step n m ad c)) c) (start_api_call0 n h m ad) (next_step c).
Proof.
  intros G. unfold start_api_call0. eapply does_bind; [apply does_send|]. eapply does_bind; [apply does_millis|]. apply (does_push _ _ n). exact G.
Qed.
Lemma does_fix_gxid h c : does h c (with_gxid c) (gx <- read h x_Gxid ;; if gx =? 0 then modify h (fun x => set_Gxid (x_Txid x) x) else ret tt) tt.
Proof.
  eapply does_bind; [apply does_gxid|]. unfold with_gxid. destruct (num_of c NGxid =? 0); [|apply does_ret].
  apply does_modify. intros x Mx. rewrite (mt_num _ _ Mx NTxid : x_Txid x = _).
  apply (put_match x c); auto; try reflexivity; try exact (mt_txt _ _ Mx); try exact (mt_stream _ _ Mx).
  intros g. generalize (mt_num _ _ Mx g). destruct g; cbn; congruence.
Qed.

Definition on_one (k : call) : Prop :=
  match k with
  | KStartService _ _ _ | KStartHttp _ _ | KInherit _ _ | KGo _ _ | KActiveCount | KResetText | KConf | KEndService _ | KGoEnd _ | KEndHttp _ _ => False
  | KAddStep _ st => st <> None
  | _ => True
  end.
Lemma does_call h c n k : good n -> on_one k -> ctx_arg k = CTrace h ->
  does h c (becomes (on_account n k c)) (do_call n k) (gives (on_account n k c)).
Proof.
  intros G Hk Hc. destruct k; try exact (False_ind _ Hk); cbn [ctx_arg] in Hc; subst; cbn [do_call on_account quiet becomes gives].
  - eapply (does_eq); [apply does_fmap; apply does_set_start|reflexivity|reflexivity].
  - eapply does_eq; [apply does_fmap; apply does_recovered, does_traced, does_read; intros x Mx; apply (mt_stream _ _ Mx)|reflexivity|reflexivity].
  - eapply does_eq; [apply does_fmap; apply does_recovered, does_traced; eapply does_bind; [apply does_set_stream|apply does_ret]|reflexivity|reflexivity].
  - eapply does_eq; [apply does_fmap; apply does_recovered, does_traced; apply does_assoc; eapply does_bind; [apply does_error_unless|]; apply does_pmessage; exact G| |reflexivity].
    rewrite ms_error. reflexivity.
  - eapply does_eq; [apply does_fmap; apply does_recovered, does_traced; eapply does_bind; [apply does_send|apply does_set_error]|reflexivity|reflexivity].
  - eapply does_eq; [apply does_fmap; apply does_recovered, does_traced; eapply does_bind; [apply does_set_name|]; eapply does_bind; [apply does_send|apply does_set_hash]|reflexivity|reflexivity].
  - destruct st as [st|]; [|congruence].
    eapply does_eq; [apply does_fmap; apply does_recovered, does_traced; apply does_add; exact G|reflexivity|reflexivity].
  - eapply does_eq; [apply does_fmap; apply does_recovered, does_traced; eapply does_bind; [apply does_millis|]; apply does_add; exact G|reflexivity|reflexivity].
  - eapply does_eq; [apply does_fmap; apply does_recovered, does_traced; eapply does_bind; [apply does_send|]; eapply does_bind; [apply does_millis|]; apply does_add; exact G|reflexivity|reflexivity].
  - eapply does_eq; [apply does_fmap; apply does_pmessage; exact G|reflexivity|reflexivity].
  - rewrite <- called_eq. eapply does_eq; [apply does_fmap; apply does_recovered, does_traced; apply does_method; exact G|reflexivity|reflexivity].
  - eapply does_eq; [apply does_fmap; apply does_recovered, does_traced; apply does_method; exact G|reflexivity|reflexivity].
  - destruct ptr as [ptr|]; [|eapply does_eq; [apply does_fmap; apply does_recovered, does_ret|reflexivity|reflexivity]].
    unfold end_method. match goal with |- does _ _ ?c' _ _ => enough (does h c c' (end_method n (CTrace h) (Some ptr)) tt) as H end.
    { eapply does_eq; [apply does_fmap; exact H|reflexivity|]. destruct (step_of c ptr) as [[]|]; reflexivity. }
    apply does_recovered, does_traced, does_read_step. intros o Ho. destruct (step_of c ptr) as [st|]; destruct o as [st'|]; try discriminate; [|apply does_ret].
    cbn in Ho. injection Ho as <-. destruct st'; try apply does_ret. cbn [strip set_links step_single].
    eapply does_bind; [apply does_millis|]. apply does_pop; [exact G|reflexivity].
  - eapply does_eq; [apply does_fmap; apply does_recovered, does_traced; eapply does_bind; [apply does_api0; exact G|apply does_ret]|reflexivity|reflexivity].
  - eapply does_eq; [apply does_fmap; apply does_recovered, does_traced; eapply does_bind; [apply does_api0; exact G|]; apply does_assoc; eapply does_bind; [apply does_fix_gxid|];
      eapply does_bind; [apply does_gxid|]; eapply does_bind; [apply does_txid|]; apply does_ret|reflexivity|].
    cbn [fst snd]. f_equal. destruct req; [|reflexivity]. unfold with_gxid. cbn [num_of put_did]. destruct (num_of c NGxid =? 0); reflexivity.
  - destruct ptr as [ptr|]; [|eapply does_eq; [apply does_fmap; apply does_recovered, does_ret|reflexivity|reflexivity]].
    match goal with |- does _ _ ?c' _ _ => enough (does h c c' (end_api_call n (CTrace h) (Some ptr) err) tt) as H end.
    { eapply does_eq; [apply does_fmap; exact H|reflexivity|]. destruct (step_of c ptr) as [[]|]; reflexivity. }
    apply does_recovered, does_traced, does_read_step. intros o Ho. destruct (step_of c ptr) as [st|]; destruct o as [st'|]; try discriminate; [|apply does_ret].
    cbn in Ho. injection Ho as <-. destruct st'; try apply does_ret. cbn [strip set_links step_single ss_StartTime quiet becomes].
    eapply does_bind; [apply does_millis|]. cbv zeta.
    match goal with |- context [int32 (ms n c - ?t)] => set (el := int32 (ms n c - t)) end.
    set (c1 := put_num NApiTime _ _). eapply (does_bind _ _ c1).
    { apply does_modify. intros x Mx. apply (put_match x c); auto; try reflexivity; try exact (mt_txt _ _ Mx); try exact (mt_stream _ _ Mx).
      intros g. generalize (mt_num _ _ Mx g), (mt_num _ _ Mx NApiTime), (mt_num _ _ Mx NApiCount). destruct g; cbn; congruence. }
    destruct err as [m|].
    + eapply does_bind; [|apply does_pop; [exact G|reflexivity]]. eapply does_bind; [apply does_send|]. eapply does_bind; [|apply does_ret].
      apply does_modify. intros x Mx. unfold error_unless_set. rewrite <- (mt_num _ _ Mx NError). cbn [x_num]. destruct (x_Error x =? 0); [|exact Mx].
      apply (put_match x c1); auto; try reflexivity; try exact (mt_txt _ _ Mx); try exact (mt_stream _ _ Mx).
      intros g. generalize (mt_num _ _ Mx g). destruct g; cbn; congruence.
    + eapply does_bind; [apply does_ret|]. apply does_pop; [exact G|reflexivity].
  - eapply does_eq; [apply does_fmap; apply does_traced, does_modify|reflexivity|reflexivity].
    intros x Mx. apply (put_match x c); auto; try reflexivity; try exact (mt_stream _ _ Mx).
    + intros g. generalize (mt_num _ _ Mx g). destruct g; cbn; congruence.
    + intros g. generalize (mt_txt _ _ Mx g). destruct g; cbn; congruence.
Qed.
