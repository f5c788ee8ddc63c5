From Verif Require Import GoInt M_OutX M_Packs M_Udp M_Net M_NetLimit M_Redirect S_Redirect.

Definition cls (s : redir) : list client := x_clients (l_net (rd_net s)).
(** what the moves other than Assign and Reload leave alone *)
Definition same_aim (s s' : redir) : Prop :=
  rd_set s' = rd_set s /\ rd_vars s' = rd_vars s /\ rd_addr s' = rd_addr s /\ rd_pc s' = rd_pc s /\ cls s' = cls s /\ l_max (rd_net s') = l_max (rd_net s).
Lemma same_refl s : same_aim s s.
Proof. repeat split. Qed.
Lemma put_clients cd n : x_clients (put_datagram cd n) = x_clients n.
Proof. unfold put_datagram. destruct (usable n (fst cd)); reflexivity. Qed.
Lemma ws_clients n : x_clients (net_write_sender n) = x_clients n.
Proof. unfold net_write_sender. destruct (x_uout n); [reflexivity|]. rewrite put_clients. reflexivity. Qed.
Lemma wj_clients i n : x_clients (net_write_job i n) = x_clients n.
Proof. unfold net_write_job. destruct (nth_error (x_jobs n) i) as [[|cd more]|]; try reflexivity. rewrite put_clients. reflexivity. Qed.
Lemma direct_same pkid p n n' : l_direct pkid p n = Some n' -> x_clients (l_net n') = x_clients (l_net n) /\ l_max n' = l_max n.
Proof.
  unfold l_direct, net_direct. destruct (write_buffer _ _ _); [|discriminate]. intros [= <-]. split; reflexivity.
Qed.
Lemma sender_same thr pkids n n' : l_sender thr pkids n = Some n' -> x_clients (l_net n') = x_clients (l_net n) /\ l_max n' = l_max n.
Proof.
  unfold l_sender. cbv zeta. destruct (x_uout (l_net n)); [|intros [= <-]; auto]. destruct (sender_step2 _ _ _ _); [|discriminate]. intros [= <-]. split; reflexivity.
Qed.
Lemma other_moves qcap m s s' : redir_move qcap m s = Some s' ->
  match m with Assign w => rd_set s' = assign w (rd_set s) /\ rd_vars s' = rd_vars s /\ rd_addr s' = rd_addr s /\ rd_pc s' = rd_pc s /\ rd_net s' = rd_net s
  | Reload conn => s' = reload_step conn s | _ => same_aim s s' end.
Proof.
  destruct m; cbn [redir_move].
  - intros [= <-]. repeat split.
  - intros [= <-]. reflexivity.
  - intros [= <-]. repeat split.
  - destruct (l_direct pkid p (rd_net s)) as [n|] eqn:E; [|discriminate]. intros [= <-]. apply direct_same in E as (A & B). repeat split; assumption.
  - destruct (l_sender (to_max (rd_set s)) pkids (rd_net s)) as [n|] eqn:E; [|discriminate]. intros [= <-]. apply sender_same in E as (A & B). repeat split; assumption.
  - intros [= <-]. repeat split. unfold cls. cbn. apply ws_clients.
  - intros [= <-]. repeat split. unfold cls. cbn. apply wj_clients.
Qed.
Lemma run_app qcap a b s : redir_run qcap (a ++ b) s = match redir_run qcap a s with Some s1 => redir_run qcap b s1 | None => None end.
Proof. revert s. induction a as [|m a IH]; intros s; [reflexivity|]. cbn [app redir_run]. destruct (redir_move qcap m s); [apply IH|reflexivity]. Qed.

(** ** The invariant of the following goroutine *)
Definition published (s : redir) : Prop := match rd_pc s with Take2 | Take3 | Make | Publish _ => False | _ => True end.
Definition closed_before (n : nat) (l : list client) : Prop := forall c cl, (c < n)%nat -> nth_error l c = Some cl -> cl_conn cl = true -> cl_open cl = false.
Record follows (s : redir) : Prop := {
  fo_some : cls s <> [];
  fo_addr : length (rd_addr s) = length (cls s);
  fo_max : length (l_max (rd_net s)) = length (cls s);
  fo_vars : published s -> points_to s (rd_vars s);
  fo_open : exists cl, nth_error (cls s) (pred (length (cls s))) = Some cl /\ cl_open cl = true;
  fo_closed : match rd_pc s with
              | ClosePrev prev => (S prev = pred (length (cls s)))%nat /\ closed_before prev (cls s)
              | _ => closed_before (pred (length (cls s))) (cls s)
              end }.
Lemma follows0 conn t : follows (redir0 conn t).
Proof.
  constructor; cbn; try reflexivity; try discriminate.
  - intros _. split; reflexivity.
  - eexists. split; reflexivity.
  - intros c cl H. lia.
Qed.
Lemma same_follows s s' : same_aim s s' -> follows s -> follows s'.
Proof.
  intros (E1 & E2 & E3 & E4 & E5 & E6) [A B C D O K]. constructor.
  - congruence.
  - congruence.
  - congruence.
  - unfold published, points_to in *. fold (cls s') (cls s) in *. rewrite E2, E3, E4, E5, E6. exact D.
  - rewrite E5. exact O.
  - rewrite E4, E5. exact K.
Qed.
Lemma last_snoc {A} (l : list A) x : nth_error (l ++ [x]) (pred (length (l ++ [x]))) = Some x.
Proof. rewrite app_length. cbn [length]. replace (pred (length l + 1)) with (length l) by lia. rewrite nth_error_app2, Nat.sub_diag by lia. reflexivity. Qed.
Lemma close_clients c n : x_clients (net_close c n) =
  if (c <? current n)%nat then match nth_error (x_clients n) c with Some cl => firstn c (x_clients n) ++ mkClient (cl_conn cl) false :: skipn (S c) (x_clients n) | None => x_clients n end
  else x_clients n.
Proof. unfold net_close. destruct (c <? current n)%nat; [|reflexivity]. destruct (nth_error (x_clients n) c); reflexivity. Qed.
Lemma nth_put {A} (l : list A) c x i : (c < length l)%nat -> nth_error (firstn c l ++ x :: skipn (S c) l) i = if (i =? c)%nat then Some x else nth_error l i.
Proof.
  intros H. destruct (Nat.eqb_spec i c) as [->|Hn].
  - rewrite nth_error_app2 by (rewrite firstn_length; lia). rewrite firstn_length, Nat.min_l, Nat.sub_diag by lia. reflexivity.
  - destruct (Nat.lt_ge_cases i c) as [L|L].
    + rewrite nth_error_app1 by (rewrite firstn_length; lia). revert c H Hn L. revert i. induction l as [|y l IH]; intros i c H Hn L; [cbn in H; lia|].
      destruct c as [|c]; [lia|]. cbn [firstn]. destruct i as [|i]; [reflexivity|]. cbn [nth_error]. apply IH; cbn in H; lia.
    + rewrite nth_error_app2 by (rewrite firstn_length; lia). rewrite firstn_length, Nat.min_l by lia. destruct (i - c)%nat as [|k] eqn:E; [lia|]. cbn [nth_error].
      replace i with (S c + k)%nat by lia. clear - l. revert l k. generalize (S c). intros n. induction n as [|n IH]; intros l k; [reflexivity|].
      destruct l as [|y l]; [cbn; destruct k; reflexivity|]. cbn [skipn Nat.add nth_error]. apply IH.
Qed.
Lemma len_put {A} (l : list A) c x : (c < length l)%nat -> length (firstn c l ++ x :: skipn (S c) l) = length l.
Proof. intros H. rewrite app_length, firstn_length. cbn [length]. rewrite skipn_length. lia. Qed.

Lemma reload_follows conn s : follows s -> follows (reload_step conn s).
Proof.
  intros [A B C D O K]. unfold reload_step. cbv zeta. destruct s as [t v ad n pc]. cbn [rd_set rd_vars rd_addr rd_net rd_pc] in *. unfold cls in *. cbn [rd_net] in *.
  destruct pc; cbn [published rd_pc] in *.
  - destruct (beqb _ _); (constructor; cbn; [exact A|exact B|exact C| |exact O|exact K]; intros _; apply D; exact I).
  - destruct (_ =? _); (constructor; cbn; [exact A|exact B|exact C| |exact O|exact K]; intros _; apply D; exact I).
  - destruct (_ =? _); (constructor; cbn; [exact A|exact B|exact C| |exact O|exact K]; intros _; apply D; exact I).
  - constructor; cbn; [exact A|exact B|exact C|intros []|exact O|exact K].
  - constructor; cbn; [exact A|exact B|exact C|intros []|exact O|exact K].
  - constructor; cbn; [exact A|exact B|exact C|intros []|exact O|exact K].
  - constructor; cbn; [exact A|exact B|exact C|intros []|exact O|exact K].
  - clear D. constructor; unfold cls; cbn [rd_net rd_addr rd_vars rd_pc rd_set l_net l_max l_reload net_reload x_clients].
    + destruct (x_clients (l_net n)); discriminate.
    + rewrite !app_length, B. reflexivity.
    + rewrite !app_length, C. reflexivity.
    + intros _. unfold points_to. cbn [rd_net rd_addr l_net l_max l_reload net_reload x_clients]. split; [|].
      * replace (length (x_clients (l_net n) ++ [mkClient conn0 true])) with (length (ad ++ [(to_ip v, to_port v)])) by (rewrite !app_length, B; reflexivity). apply last_snoc.
      * replace (length (x_clients (l_net n) ++ [mkClient conn0 true])) with (length (l_max n ++ [to_max v])) by (rewrite !app_length, C; reflexivity). apply last_snoc.
    + eexists. split; [apply last_snoc|reflexivity].
    + unfold current. rewrite app_length. cbn [length]. destruct (x_clients (l_net n)) as [|y l] eqn:E; [congruence|]. cbn [length] in *. split; [lia|].
      intros c cl Hc Hn Hk. cbn [pred] in *. apply (K c cl Hc); [|exact Hk]. rewrite nth_error_app1 in Hn by (cbn [length]; lia). exact Hn.
  - destruct K as (Hp & K). specialize (D I). destruct (nth_error (x_clients (l_net n)) prev) as [cl|] eqn:E.
    2: { exfalso. apply nth_error_None in E. lia. }
    assert (prev < length (x_clients (l_net n)))%nat as Hl by (apply nth_error_Some; congruence).
    destruct (cl_conn cl) eqn:Ec.
    + assert (x_clients (l_net (l_move (net_close prev) n)) = firstn prev (x_clients (l_net n)) ++ mkClient (cl_conn cl) false :: skipn (S prev) (x_clients (l_net n))) as Ex.
      { cbn [l_move l_net]. rewrite close_clients, E. unfold current. destruct (Nat.ltb_spec prev (pred (length (x_clients (l_net n))))); [reflexivity|lia]. }
      constructor; unfold cls; cbn [rd_net rd_addr rd_vars rd_pc rd_set]; rewrite ?Ex, ?len_put by exact Hl.
      * destruct (firstn prev _); discriminate.
      * exact B.
      * exact C.
      * intros _. unfold points_to in *. cbn [rd_net rd_addr] in *. rewrite Ex, len_put by exact Hl. exact D.
      * rewrite nth_put by exact Hl. destruct (Nat.eqb_spec (pred (length (x_clients (l_net n)))) prev); [lia|exact O].
      * intros c cl' Hc Hn Hk. rewrite nth_put in Hn by exact Hl. destruct (Nat.eqb_spec c prev); [injection Hn as <-; reflexivity|].
        apply (K c cl'); [lia|exact Hn|exact Hk].
    + constructor; unfold cls; cbn [rd_net rd_addr rd_vars rd_pc rd_set]; [exact A|exact B|exact C|intros _; exact D|exact O|].
      intros c cl' Hc Hn Hk. destruct (Nat.eq_dec c prev) as [->|Hne]; [congruence|]. apply (K c cl'); [lia|exact Hn|exact Hk].
Qed.
Lemma move_follows qcap m s s' : redir_move qcap m s = Some s' -> follows s -> follows s'.
Proof.
  intros E F. apply other_moves in E. destruct m; try (eapply same_follows; eassumption).
  - destruct E as (E1 & E2 & E3 & E4 & E5). destruct F as [A B C D O K]. unfold cls in *. constructor; unfold cls; rewrite ?E3, ?E5, ?E4; try assumption.
    intros P. unfold published, points_to in *. rewrite E2, E3, E5. rewrite E4 in P. apply D, P.
  - subst s'. apply reload_follows, F.
Qed.
Lemma run_follows qcap ms : forall s s', redir_run qcap ms s = Some s' -> follows s -> follows s'.
Proof.
  induction ms as [|m ms IH]; intros s s'; cbn [redir_run]; [intros [= <-]; auto|]. destruct (redir_move qcap m s) as [s1|] eqn:E; [|discriminate].
  intros R F. apply (IH _ _ R). eapply move_follows; eassumption.
Qed.

(** ** Settling *)
Definition settled (s : redir) : Prop :=
  follows s /\ rd_vars s = rd_set s /\ match rd_pc s with Compare1 | Compare2 | Compare3 | ClosePrev _ => True | _ => False end.
Definition within (k : nat) (s : redir) : Prop :=
  settled s \/ follows s /\
  let t := rd_set s in let v := rd_vars s in
  match rd_pc s with
  | Compare1 => 8 <= k
  | Compare2 => (to_ip v = to_ip t /\ 7 <= k) \/ 10 <= k
  | Compare3 => (to_ip v = to_ip t /\ to_port v = to_port t /\ 6 <= k) \/ 9 <= k
  | Take1 => 5 <= k
  | Take2 => (to_ip v = to_ip t /\ 4 <= k) \/ 13 <= k
  | Take3 => (to_ip v = to_ip t /\ to_port v = to_port t /\ 3 <= k) \/ 12 <= k
  | Make => (v = t /\ 2 <= k) \/ 11 <= k
  | Publish _ => (v = t /\ 1 <= k) \/ 10 <= k
  | ClosePrev _ => 9 <= k
  end%nat.
Lemma within_any s : follows s -> within 13 s.
Proof. intros F. right. split; [exact F|]. cbv zeta. destruct (rd_pc s); lia. Qed.
Lemma within_0 s : within 0 s -> settled s.
Proof. intros [H|(F & H)]; [exact H|]. exfalso. cbv zeta in H. destruct (rd_pc s); lia. Qed.
Lemma settled_reload conn s : settled s -> settled (reload_step conn s) /\ length (cls (reload_step conn s)) = length (cls s).
Proof.
  intros (F & V & P). pose proof (reload_follows conn s F) as F'. split.
  - split; [exact F'|]. clear F F'. destruct s as [t v ad n pc]. cbn [rd_vars rd_set rd_pc] in *. subst v. unfold reload_step. cbv zeta. cbn [rd_vars rd_set rd_pc rd_addr rd_net].
    destruct pc; try contradiction; cbn [rd_vars rd_set rd_pc].
    + destruct (beqb_spec (to_ip t) (to_ip t)); [auto|congruence].
    + rewrite Z.eqb_refl. auto.
    + rewrite Z.eqb_refl. auto.
    + auto.
  - destruct s as [t v ad n pc]. cbn [rd_vars rd_set rd_pc] in *. unfold reload_step, cls in *. cbv zeta. cbn [rd_vars rd_set rd_pc rd_addr rd_net].
    destruct pc; try contradiction; cbn [rd_net]; try reflexivity.
    destruct (nth_error (x_clients (l_net n)) prev) as [cl|] eqn:E; [|reflexivity]. destruct (cl_conn cl); [|reflexivity].
    cbn [l_move l_net]. rewrite close_clients, E. destruct (prev <? current (l_net n))%nat; [|reflexivity]. apply len_put. apply nth_error_Some. congruence.
Qed.
Lemma within_reload k conn s : within (S k) s -> within k (reload_step conn s).
Proof.
  intros [S0|(F & H)]; [left; apply settled_reload, S0|]. pose proof (reload_follows conn s F) as F'. clear F.
  assert (match rd_pc (reload_step conn s) with
          | Compare1 => rd_vars (reload_step conn s) = rd_set (reload_step conn s) \/ (8 <= k)%nat
          | ClosePrev _ => rd_vars (reload_step conn s) = rd_set (reload_step conn s) \/ (9 <= k)%nat
          | _ => within k (reload_step conn s) end) as G.
  { revert F'. destruct s as [t v ad n pc]. cbv zeta in H. cbn [rd_vars rd_set rd_pc] in *. unfold reload_step. cbv zeta. cbn [rd_vars rd_set rd_pc rd_addr rd_net].
    destruct pc; cbn [rd_vars rd_set rd_pc]; intros F'.
    - destruct (beqb_spec (to_ip v) (to_ip t)) as [E|E]; cbn [rd_vars rd_set rd_pc]; (right; split; [exact F'|]; cbn); [left; split; [exact E|lia]|lia].
    - destruct (Z.eqb_spec (to_port v) (to_port t)) as [E|E]; cbn [rd_vars rd_set rd_pc]; (right; split; [exact F'|]; cbn);
        (destruct H as [(E1 & H)|H]; [|try (right; lia); lia]); [left; split; [exact E1|split; [exact E|lia]]|lia].
    - destruct (Z.eqb_spec (to_max v) (to_max t)); cbn [rd_vars rd_set rd_pc]; [|right; split; [exact F'|]; cbn; lia].
      destruct H as [(E1 & E2 & _)|H]; [left; destruct v, t; cbn in *; congruence|right; lia].
    - right. split; [exact F'|]. cbn. left. split; [reflexivity|lia].
    - right. split; [exact F'|]. cbn. destruct H as [(E1 & H)|H]; [left; split; [exact E1|split; [reflexivity|lia]]|right; lia].
    - right. split; [exact F'|]. cbn. destruct H as [(E1 & E2 & H)|H]; [left; split; [destruct v, t; cbn in *; congruence|lia]|right; lia].
    - right. split; [exact F'|]. cbn. destruct H as [(E1 & H)|H]; [left; split; [exact E1|lia]|right; lia].
    - destruct H as [(E1 & H)|H]; [left; exact E1|right; lia].
    - right. lia. }
  destruct (rd_pc (reload_step conn s)) eqn:Ep; try exact G.
  - destruct G as [G|G]; [left; split; [exact F'|split; [exact G|rewrite Ep; exact I]]|right; split; [exact F'|rewrite Ep; exact G]].
  - destruct G as [G|G]; [left; split; [exact F'|split; [exact G|rewrite Ep; exact I]]|right; split; [exact F'|rewrite Ep; exact G]].
Qed.
Lemma same_settled s s' : same_aim s s' -> settled s -> settled s'.
Proof.
  intros Sm (F & V & P). split; [eapply same_follows; eassumption|]. destruct Sm as (E1 & E2 & _ & E4 & _). rewrite E1, E2, E4. auto.
Qed.
Lemma same_within k s s' : same_aim s s' -> within k s -> within k s'.
Proof.
  intros Sm [H|(F & H)]; [left; eapply same_settled; eassumption|]. right. split; [eapply same_follows; eassumption|]. destruct Sm as (E1 & E2 & _ & E4 & _). rewrite E1, E2, E4. exact H.
Qed.
Lemma run_within qcap ms : forall k s s', unchanged ms -> redir_run qcap ms s = Some s' -> within k s -> within (k - reloads ms) s'.
Proof.
  induction ms as [|m ms IH]; intros k s s' U; cbn [redir_run reloads]; [intros [= <-]; rewrite Nat.sub_0_r; auto|].
  destruct (redir_move qcap m s) as [s1|] eqn:E; [|discriminate]. intros R W. inversion U as [|? ? Hm U']; subst. apply other_moves in E.
  destruct m; try contradiction; try (apply (IH _ _ _ U' R); eapply same_within; eassumption).
  subst s1. destruct k as [|k].
  - apply within_0 in W. replace (0 - S (reloads ms))%nat with (0 - reloads ms)%nat by lia. apply (IH _ _ _ U' R). left. apply settled_reload, W.
  - cbn [Nat.sub]. apply (IH _ _ _ U' R), within_reload, W.
Qed.
Lemma run_settled qcap ms : forall s s', unchanged ms -> redir_run qcap ms s = Some s' -> settled s -> settled s' /\ length (cls s') = length (cls s) /\ rd_addr s' = rd_addr s /\ l_max (rd_net s') = l_max (rd_net s) /\ rd_set s' = rd_set s.
Proof.
  induction ms as [|m ms IH]; intros s s' U; cbn [redir_run]; [intros [= <-]; auto|].
  destruct (redir_move qcap m s) as [s1|] eqn:E; [|discriminate]. intros R W. inversion U as [|? ? Hm U']; subst. apply other_moves in E.
  assert (settled s1 /\ length (cls s1) = length (cls s) /\ rd_addr s1 = rd_addr s /\ l_max (rd_net s1) = l_max (rd_net s) /\ rd_set s1 = rd_set s) as (W1 & L1 & A1 & M1 & T1).
  { destruct m; try contradiction; try (split; [eapply same_settled; eassumption|]; destruct E as (? & ? & ? & ? & Ec & ?); rewrite Ec; auto).
    subst s1. destruct (settled_reload conn s W) as (W1 & L1). split; [exact W1|]. split; [exact L1|]. destruct W as (_ & V & P). unfold reload_step. cbv zeta.
    destruct (rd_pc s); try contradiction; cbn; auto. destruct (nth_error _ _) as [cl|]; [|auto]. destruct (cl_conn cl); auto. }
  destruct (IH _ _ U' R W1) as (W2 & L2 & A2 & M2 & T2). split; [exact W2|]. repeat split; congruence.
Qed.
