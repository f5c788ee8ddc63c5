From Verif Require Import GoInt M_Locks S_Locks L_Locks P_Locks M_Maps S_Maps.
From Coq Require Import Lia.

(** ** The lock calls are those of M_Locks.v *)
Lemma locks_app a b : locks_of (a ++ b) = locks_of a ++ locks_of b.
Proof. apply flat_map_app. Qed.
Lemma locks_under l b : locks_of (x_under l b) = under l (locks_of b).
Proof. unfold x_under, under. cbn [locks_of flat_map]. fold (locks_of (b ++ [XLock (Release l)])). rewrite locks_app. reflexivity. Qed.
Lemma locks_under_shared l b : locks_of (x_under_shared l b) = under_shared l (locks_of b).
Proof. unfold x_under_shared, under_shared. cbn [locks_of flat_map]. fold (locks_of (b ++ [XLock (Release l)])). rewrite locks_app. reflexivity. Qed.
Lemma locks_once l st b : locks_of (x_once l st b) = once l st (locks_of b).
Proof. destruct st; cbn [x_once once]; [reflexivity|apply locks_under|apply locks_under]. Qed.
Lemma locks_repeat p n : locks_of (concat (repeat p n)) = concat (repeat (locks_of p) n).
Proof. induction n as [|n IH]; [reflexivity|]. cbn [repeat concat]. rewrite locks_app, IH. reflexivity. Qed.
Lemma locks_nothing m n : locks_of (concat (repeat (looks m) n)) = [].
Proof. rewrite locks_repeat. induction n as [|n IH]; [reflexivity|exact IH]. Qed.
Lemma locks_udp st cst : locks_of (x_udp st cst) = udp_instance st cst.
Proof. unfold x_udp, udp_instance. rewrite !locks_once. reflexivity. Qed.
Lemma locks_text c h st cst : locks_of (x_text c h st cst) = send_text (is_hit h) st cst.
Proof.
  unfold x_text, send_text. rewrite locks_app. unfold x_get. rewrite locks_under_shared. f_equal.
  destruct h as [|a]; [reflexivity|]. cbn [is_hit]. rewrite locks_app, locks_udp. f_equal. destruct a; reflexivity.
Qed.
Lemma locks_op o : locks_of (map_acts o) = op_acts (lock_op o).
Proof.
  destruct o as [n loaded changed obs|e|st|st c h ust cst|c h st cst|st cst|c|c h|c hit|c n|cs|st|st| | | |]; cbn [map_acts lock_op op_acts].
  - unfold x_refresh, refresh_acts. rewrite locks_under. f_equal. destruct loaded; [|reflexivity].
    rewrite !locks_app. unfold x_conf_changed, conf_changed. rewrite locks_under_shared, locks_nothing.
    assert (locks_of x_setting = setting) as Es by reflexivity. rewrite locks_repeat, Es. do 2 f_equal. f_equal.
    destruct changed as [[[[[c h] st] cst]|]|]; cbn [option_map]; [|reflexivity|reflexivity]. unfold x_obj_changed, obj_changed. rewrite locks_under_shared, locks_text. reflexivity.
  - rewrite locks_under_shared, locks_nothing. reflexivity.
  - rewrite locks_once, locks_under. reflexivity.
  - rewrite locks_once, locks_app, locks_text, locks_udp. reflexivity.
  - apply locks_text.
  - apply locks_udp.
  - reflexivity.
  - destruct h; reflexivity.
  - destruct hit; reflexivity.
  - induction n as [|n IH]; [reflexivity|]. cbn [x_values list_acts]. rewrite locks_app, IH. reflexivity.
  - induction cs as [|c cs IH]; [reflexivity|]. cbn [flat_map length repeat concat]. rewrite locks_app, IH. reflexivity.
  - rewrite locks_app, locks_once. reflexivity.
  - rewrite locks_app, locks_once. reflexivity.
  - reflexivity.
  - reflexivity.
  - reflexivity.
  - reflexivity.
Qed.
Lemma lockers_start callers : map as_locker (x_programs callers) = l_programs (map (map lock_op) callers).
Proof.
  unfold x_programs, l_programs. rewrite !map_map. apply map_ext. intro ops. unfold as_locker, x_program, l_program. cbn [x_todo x_held x_wait]. f_equal.
  induction ops as [|o ops IH]; [reflexivity|]. cbn [flat_map map]. rewrite locks_app, locks_op, IH. reflexivity.
Qed.

(** ** Every run is a run of M_Locks.v *)
Lemma advance_todo ts t t' a r : l_advance ts t = Some t' -> l_todo t = a :: r -> l_todo t' = match l_wait t' with Some _ => a :: r | None => r end.
Proof.
  unfold l_advance. intros E T. rewrite T in E. destruct a as [l|l|l], (l_wait t); try discriminate E.
  - destruct (no_writer l ts); [|discriminate E]. injection E as <-. reflexivity.
  - destruct (no_reader l ts); [|discriminate E]. injection E as <-. reflexivity.
  - destruct (no_writer l ts); [|discriminate E]. injection E as <-. reflexivity.
  - destruct (drop l (l_held t)); [|discriminate E]. injection E as <-. reflexivity.
Qed.
Lemma x_sim ts ts' : xstep ts ts' -> map as_locker ts' = map as_locker ts \/ lstep (map as_locker ts) (map as_locker ts').
Proof.
  intros [before t after t' A]. unfold x_advance in A. rewrite !map_app. cbn [map]. destruct (x_todo t) as [|[a|m w|m] r] eqn:T; [discriminate A| | |].
  - right. destruct (l_advance _ _) as [u|] eqn:L in A; [|discriminate A]. injection A as <-.
    assert (as_locker (mkXT (match l_wait u with Some _ => XLock a :: r | None => r end) (l_held u) (l_wait u) (x_in t)) = u) as E.
    { pose proof (advance_todo _ _ _ a (locks_of r) L ltac:(unfold as_locker; cbn [l_todo]; rewrite T; reflexivity)) as Et. destruct u as [td h w]. cbn [l_wait l_held l_todo] in *.
      unfold as_locker. cbn [x_todo x_held x_wait]. rewrite Et. destruct w; reflexivity. }
    rewrite E. apply lstep_at. rewrite map_app in L. cbn [map] in L. exact L.
  - left. injection A as <-. unfold as_locker. cbn [x_todo x_held x_wait]. rewrite T. reflexivity.
  - left. injection A as <-. unfold as_locker. cbn [x_todo x_held x_wait]. rewrite T. reflexivity.
Qed.
Lemma x_lockers callers ts : xsteps (x_programs callers) ts -> exists n, lsteps n (l_programs (map (map lock_op) callers)) (map as_locker ts).
Proof.
  intro R. remember (x_programs callers) as a eqn:E. induction R as [a|a b c R IH St]; subst.
  - exists 0%nat. rewrite lockers_start. apply lsteps_0.
  - destruct (IH eq_refl) as [n H]. destruct (x_sim _ _ St) as [-> |L]; [exists n; exact H|exists (S n); eapply lsteps_S; eassumption].
Qed.

(** ** Inside a map, its lock is held *)
Definition lock_of (m : mapid) : lockid := match m with MTable _ => KText | MObservers => KObservers | MDesc => KDesc end.
Definition guards (held : list (lockid * bool)) (x : mapid * bool) : Prop := In (lock_of (fst x), true) held \/ (snd x = false /\ In (lock_of (fst x), false) held).
Fixpoint guarded (held : list (lockid * bool)) (ins : list (mapid * bool)) (p : list xact) : Prop :=
  Forall (guards held) ins /\
  match p with
  | [] => True
  | XLock (Shared l) :: r => guarded ((l, false) :: held) ins r
  | XLock (Exclusive l) :: r => guarded ((l, true) :: held) ins r
  | XLock (Release l) :: r => forall h, drop l held = Some h -> guarded h ins r
  | XEnter m w :: r => guarded held ((m, w) :: ins) r
  | XLeave m :: r => guarded held (x_leave m ins) r
  end.
Lemma guarded_ins held ins p : guarded held ins p -> Forall (guards held) ins.
Proof. destruct p; intros [H _]; exact H. Qed.
Lemma guarded_advance ts t t' : guarded (x_held t) (x_in t) (x_todo t) -> x_advance ts t = Some t' -> guarded (x_held t') (x_in t') (x_todo t').
Proof.
  unfold x_advance. intros G A. destruct (x_todo t) as [|[a|m w|m] r] eqn:T; [discriminate A| | |].
  - destruct (l_advance _ _) as [u|] eqn:L in A; [|discriminate A]. injection A as <-. cbn [x_held x_in x_todo].
    assert (l_todo (as_locker t) = a :: locks_of r) as Et by (unfold as_locker; cbn [l_todo]; rewrite T; reflexivity).
    unfold l_advance in L. rewrite Et in L. change (l_wait (as_locker t)) with (x_wait t) in L. change (l_held (as_locker t)) with (x_held t) in L.
    destruct a as [l|l|l], (x_wait t) eqn:W; cbn [l_todo l_wait l_held] in L; try discriminate L.
    + destruct (no_writer l _); [|discriminate L]. injection L as <-. cbn [l_wait l_held]. exact (proj2 G).
    + destruct (no_reader l _); [|discriminate L]. injection L as <-. cbn [l_wait l_held]. exact (proj2 G).
    + destruct (no_writer l _); [|discriminate L]. injection L as <-. cbn [l_wait l_held]. exact G.
    + destruct (drop l (x_held t)) as [h|] eqn:D; [|discriminate L]. injection L as <-. cbn [l_wait l_held]. exact (proj2 G h D).
  - injection A as <-. exact (proj2 G).
  - injection A as <-. exact (proj2 G).
Qed.
Lemma guarded_steps a b : xsteps a b -> Forall (fun t => guarded (x_held t) (x_in t) (x_todo t)) a -> Forall (fun t => guarded (x_held t) (x_in t) (x_todo t)) b.
Proof.
  induction 1 as [a|a b c R IH St]; intro H; [exact H|]. specialize (IH H). destruct St as [before t after t' A]. apply Forall_app in IH as [H1 H2]. inversion H2 as [|? ? H3 H4]; subst.
  apply Forall_app. split; [exact H1|]. constructor; [eapply guarded_advance; eassumption|exact H4].
Qed.

(** blocks of a program that leave the locks held as they found them *)
Definition block (P : list (lockid * bool) -> Prop) (p : list xact) : Prop := forall held rest, P held -> guarded held [] rest -> guarded held [] (p ++ rest).
Lemma block_nil P : block P [].
Proof. intros held rest _ G. exact G. Qed.
Lemma block_app P p q : block P p -> block P q -> block P (p ++ q).
Proof. intros Hp Hq held rest HP G. rewrite <- app_assoc. apply Hp; [exact HP|]. apply Hq; assumption. Qed.
Lemma block_repeat P p n : block P p -> block P (concat (repeat p n)).
Proof. intro H. induction n as [|n IH]; [apply block_nil|]. cbn [repeat concat]. apply block_app; assumption. Qed.
Lemma block_weak (P Q : list (lockid * bool) -> Prop) p : (forall h, Q h -> P h) -> block P p -> block Q p.
Proof. intros I H held rest HQ G. apply H; [apply I; exact HQ|exact G]. Qed.
Definition anyhow (h : list (lockid * bool)) : Prop := True.
Definition alone (l : lockid) (h : list (lockid * bool)) : Prop := In (l, true) h.
Definition atall (l : lockid) (h : list (lockid * bool)) : Prop := In (l, true) h \/ In (l, false) h.
Lemma drop_same l x h : drop l ((l, x) :: h) = Some h.
Proof. cbn [drop fst]. destruct (lock_eqb_spec l l); [reflexivity|contradiction]. Qed.
Lemma block_under l p P : block (alone l) p -> block P (x_under l p).
Proof.
  intros H held rest _ G. unfold x_under. cbn [app guarded]. split; [constructor|]. rewrite <- app_assoc. apply H; [left; reflexivity|].
  cbn [app guarded]. split; [constructor|]. intros h D. rewrite drop_same in D. injection D as <-. exact G.
Qed.
Lemma block_under_shared l p P : block (atall l) p -> block P (x_under_shared l p).
Proof.
  intros H held rest _ G. unfold x_under_shared. cbn [app guarded]. split; [constructor|]. rewrite <- app_assoc. apply H; [right; left; reflexivity|].
  cbn [app guarded]. split; [constructor|]. intros h D. rewrite drop_same in D. injection D as <-. exact G.
Qed.
Lemma block_once l st p P : block (alone l) p -> block P (x_once l st p).
Proof. intro H. destruct st; [apply block_nil|apply block_under, block_nil|apply block_under, H]. Qed.
Lemma map_eqb_refl m : map_eqb m m = true.
Proof. destruct m; cbn; [apply Nat.eqb_refl|reflexivity|reflexivity]. Qed.
Lemma block_changes m : block (alone (lock_of m)) (changes m).
Proof.
  intros held rest H G. unfold changes. cbn [app guarded x_leave fst]. rewrite map_eqb_refl. split; [constructor|]. split; [|exact G].
  constructor; [|constructor]. left. exact H.
Qed.
Lemma block_looks m : block (atall (lock_of m)) (looks m).
Proof.
  intros held rest H G. unfold looks. cbn [app guarded x_leave fst]. rewrite map_eqb_refl. split; [constructor|]. split; [|exact G].
  constructor; [|constructor]. destruct H as [H|H]; [left; exact H|right; split; [reflexivity|exact H]].
Qed.
Lemma block_looks_alone m : block (alone (lock_of m)) (looks m).
Proof. apply (block_weak (atall (lock_of m))); [intros h H; left; exact H|apply block_looks]. Qed.
Lemma block_add c h P : block P (x_add c h).
Proof.
  apply block_under. apply block_app; [exact (block_looks_alone (MTable c))|].
  destruct h; [apply block_nil|exact (block_changes (MTable c))|apply block_app; exact (block_changes (MTable c))].
Qed.
Lemma block_get c P : block P (x_get c).
Proof. apply block_under_shared. exact (block_looks (MTable c)). Qed.
Lemma block_udp st cst P : block P (x_udp st cst).
Proof. apply block_once, block_once, block_nil. Qed.
Lemma block_text c h st cst P : block P (x_text c h st cst).
Proof. apply block_app; [apply block_get|]. destruct h; [apply block_nil|apply block_app; [apply block_add|apply block_udp]]. Qed.
Lemma block_setting P : block P x_setting.
Proof. apply block_under, block_app; [exact (block_looks_alone MDesc)|exact (block_changes MDesc)]. Qed.
Lemma block_op o P : block P (map_acts o).
Proof.
  destruct o as [n loaded changed obs|e|st|st c h ust cst|c h st cst|st cst|c|c h|c hit|c n|cs|st|st| | | |]; cbn [map_acts].
  - apply block_under. destruct loaded; [|apply block_nil]. repeat apply block_app; try apply block_setting.
    + destruct changed as [[[[[c h] st] cst]|]|]; [|apply block_under_shared, block_nil|apply block_nil]. apply block_under_shared, block_text.
    + apply block_repeat, block_setting.
    + apply block_under_shared, block_repeat. exact (block_looks MObservers).
  - apply block_under_shared, block_repeat. exact (block_looks MDesc).
  - apply block_once, block_under. exact (block_changes MObservers).
  - apply block_once, block_app; [apply block_text|apply block_udp].
  - apply block_text.
  - apply block_udp.
  - apply block_get.
  - apply block_add.
  - apply block_under, block_app; [exact (block_looks_alone (MTable c))|]. destruct hit; [exact (block_changes (MTable c))|apply block_nil].
  - induction n as [|n IH]; cbn [x_values]; [apply block_get|apply block_app; [apply block_get|exact IH]].
  - induction cs as [|c cs IH]; [apply block_nil|]. cbn [flat_map]. apply block_app; [apply block_under, block_nil|exact IH].
  - apply block_app; [apply block_once, block_nil|apply block_under, block_under, block_nil].
  - apply block_app; [apply block_once, block_nil|apply block_under, block_nil].
  - apply block_under, block_under, block_nil.
  - apply block_under, block_nil.
  - apply block_under, block_nil.
  - apply block_under, block_nil.
Qed.
Lemma guarded_start callers : Forall (fun t => guarded (x_held t) (x_in t) (x_todo t)) (x_programs callers).
Proof.
  apply Forall_forall. intros t H. unfold x_programs in H. apply in_map_iff in H as [ops [<- _]]. cbn [x_program x_held x_in x_todo].
  assert (guarded [] [] (flat_map map_acts ops ++ [])) as G; [|rewrite app_nil_r in G; exact G].
  assert (block anyhow (flat_map map_acts ops)) as B.
  { induction ops as [|o ops IH]; [apply block_nil|]. cbn [flat_map]. apply block_app; [apply block_op|exact IH]. }
  apply B; [exact I|]. split; [constructor|exact I].
Qed.
