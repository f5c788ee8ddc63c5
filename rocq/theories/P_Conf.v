(** Properties C59, C60, C62 and C67: configuration precedence, reloading, environment, listing. *)
From Verif Require Import GoInt M_Value M_Util M_Hash M_Sampler M_Conf S_Conf S_Util S_Hash L_Util L_Conf L_Hash.
From Verif Require Import P_Sampler.

(** ** C59: configuration precedence *)

Lemma simple_entries es : simple_env es -> Forall (fun e => exists k v, env_entry e k v) es.
Proof. intro H. eapply Forall_impl; [|exact H]. intros e (k & v & E & _). eauto. Qed.

Lemma simple_gives es k v : simple_env es -> env_gives es k (Some v) -> cut_eq v = v.
Proof.
  intros H (es1 & e & es2 & -> & E & _). apply cut_eq_simple.
  unfold simple_env in H. rewrite Forall_forall in H. destruct (H e) as (k' & v' & E' & N); [apply in_or_app; right; left; reflexivity|].
  destruct (entry_inj _ _ _ _ _ E E') as [_ ->]. exact N.
Qed.

Lemma reload_conf w s s' ch fp p : refresh_conf w s = Some (s', ch) -> reloads w s fp -> env_props (w_env w) [] = Some p ->
  c_conf s' = new_conf (loaded_props p fp) (w_host w) (c_conf s) (c_descs s).
Proof.
  intros H R E. destruct (refresh_reloads w s fp p R E) as (m & E2 & _). rewrite H in E2. unfold new_conf.
  destruct (add_to_conf (loaded_props p fp) (w_host w) (c_conf s) (c_descs s)) as [[c d] changed]. inversion E2. reflexivity.
Qed.

Lemma loaded_value p fp k : NoDup (map fst fp) -> NoDup (map fst p) ->
  get k (loaded_props p fp) = given (match get k fp with Some v => Some v | None => get k p end).
Proof.
  intros N1 N2. unfold loaded_props. rewrite get_non_empty by (apply merge_keys; exact N2). rewrite get_merge by exact N1. reflexivity.
Qed.

(** After a refresh that read the file (or found none), every setting has the non-empty value of the file, else the
    non-empty value of the environment, else its default, provided the file does not hide a value
    of the environment behind an empty one. *)
Theorem C59_precedence_partial w s s' ch fp st envv :
  refresh_conf w s = Some (s', ch) -> reloads w s fp -> NoDup (map fst fp) -> simple_env (w_env w) ->
  In st (hidden_setting :: settings) -> env_gives (w_env w) (st_key st) envv ->
  (get (st_key st) fp = Some [] -> given envv = None) ->
  takes (st_kind st) (match given (get (st_key st) fp) with Some v => Some v | None => given envv end) (st_read st (c_conf s')).
Proof.
  intros H R ND Hs Hin Hg Hne.
  destruct (env_props_spec (w_env w) (simple_entries _ Hs) []) as (p & Ep & Hp).
  rewrite (reload_conf w s s' ch fp p H R Ep).
  pose proof (settings_taken (loaded_props p fp) (w_host w) (c_conf s) (c_descs s)) as T.
  rewrite Forall_forall in T. specialize (T st Hin).
  rewrite loaded_value in T; [|exact ND|eapply env_props_keys; [exact Ep|constructor]].
  assert (get (st_key st) p = envv) as Ee.
  { destruct (Hp (st_key st)) as [A B]. destruct envv as [v|].
    - rewrite (A v Hg). f_equal. eapply simple_gives; eassumption.
    - apply B. exact Hg. }
  rewrite Ee in T. destruct (get (st_key st) fp) as [[|c v]|]; cbn [given] in *; [|exact T|exact T].
  rewrite (Hne eq_refl). exact T.
Qed.

(** The exception is real, for every setting: an empty value in the file gives the default, whatever the
    environment says. *)
Theorem C59_empty_file_value_hides_environment w s s' ch fp st :
  refresh_conf w s = Some (s', ch) -> reloads w s fp -> NoDup (map fst fp) ->
  In st (hidden_setting :: settings) -> get (st_key st) fp = Some [] ->
  takes (st_kind st) None (st_read st (c_conf s')).
Proof.
  intros H R ND Hin E0.
  destruct (refresh_cases w s s' ch H) as [(_ & _ & F)|(fp' & p & m & R' & Ep & _)]; [destruct (F fp R)|].
  rewrite (reload_conf w s s' ch fp p H R Ep).
  pose proof (settings_taken (loaded_props p fp) (w_host w) (c_conf s) (c_descs s)) as T.
  rewrite Forall_forall in T. specialize (T st Hin).
  rewrite loaded_value in T; [|exact ND|eapply env_props_keys; [exact Ep|constructor]].
  rewrite E0 in T. exact T.
Qed.

Definition ex_env : list gostring := [of_string "HOME=/root"; of_string "net_collector_ip=10.0.0.9"; of_string "send_queue_size=77"].
Definition ex_world (fp : props) : world := mk_world ex_env (StatTime 5) (Loaded fp) (of_string "h").

Theorem C59_refuted :
  exists w s' ch fp, refresh_conf w initial_cstate = Some (s', ch) /\ reloads w initial_cstate fp /\ NoDup (map fst fp) /\
    simple_env (w_env w) /\ env_gives (w_env w) (of_string "net_collector_ip") (Some (of_string "10.0.0.9")) /\
    given (get (of_string "net_collector_ip") fp) = None /\ cf_NetCollectorIP (c_conf s') = of_string "127.0.0.1".
Proof.
  set (fp := [(of_string "net_collector_ip", [])] : props).
  assert (match refresh_conf (ex_world fp) initial_cstate with Some (s', _) => beqb (cf_NetCollectorIP (c_conf s')) (of_string "127.0.0.1") | None => false end = true) as K by (vm_compute; reflexivity).
  destruct (refresh_conf (ex_world fp) initial_cstate) as [[s' ch]|] eqn:E; [|discriminate].
  exists (ex_world fp), s', ch, fp. split; [exact E|]. clear E. split; [|split; [|split; [|split; [|split]]]].
  - split; [right; exists 5; split; [reflexivity|discriminate]|left; reflexivity].
  - repeat constructor. intros [].
  - repeat constructor.
    + exists (of_string "HOME"), (of_string "/root"). repeat split; try discriminate; cbn; intuition discriminate.
    + exists (of_string "net_collector_ip"), (of_string "10.0.0.9"). repeat split; try discriminate; cbn; intuition discriminate.
    + exists (of_string "send_queue_size"), (of_string "77"). repeat split; try discriminate; cbn; intuition discriminate.
  - exists [of_string "HOME=/root"], (of_string "net_collector_ip=10.0.0.9"), [of_string "send_queue_size=77"].
    split; [reflexivity|]. split; [repeat split; try discriminate; cbn; intuition discriminate|].
    intros e t [<-|[]] (F & _). discriminate.
  - reflexivity.
  - apply beqb_eq. exact K.
Qed.

(** the object name and hash follow obj_name and the host *)
Theorem C59_object_name w s s' ch fp : refresh_conf w s = Some (s', ch) -> reloads w s fp ->
  cf_ObjName (c_conf s') = of_string "/" ++ w_host w ++ of_string "/" ++ cf_ObjNameSimple (c_conf s') /\
  (Forall is_byte (cf_ObjName (c_conf s')) -> cf_ObjHash (c_conf s') = as_int32 (crc32 (cf_ObjName (c_conf s')))) /\
  (ch = true <-> cf_ObjName (c_conf s') <> cf_ObjName (c_conf s)).
Proof.
  intros H R.
  destruct (refresh_cases w s s' ch H) as [(_ & _ & F)|(fp' & p & m & R' & Ep & E & _)]; [destruct (F fp R)|].
  destruct (add_to_conf (loaded_props p fp') (w_host w) (c_conf s) (c_descs s)) as [[c d] changed] eqn:Ea.
  destruct E as [-> ->]. cbn [notify c_conf].
  assert (c = fst (fst (add_to_conf (loaded_props p fp') (w_host w) (c_conf s) (c_descs s)))) as Ec by (rewrite Ea; reflexivity).
  assert (changed = snd (add_to_conf (loaded_props p fp') (w_host w) (c_conf s) (c_descs s))) as Eh by (rewrite Ea; reflexivity).
  clear Ea. subst c changed. split; [reflexivity|]. split.
  - intro B.
    change (match hash_string (cf_ObjName (fst (fst (add_to_conf (loaded_props p fp') (w_host w) (c_conf s) (c_descs s))))) with Some h => h | None => 0 end
            = as_int32 (crc32 (cf_ObjName (fst (fst (add_to_conf (loaded_props p fp') (w_host w) (c_conf s) (c_descs s))))))).
    rewrite hash_is_crc32 by exact B. reflexivity.
  - change (negb (beqb (cf_ObjName (c_conf s)) (cf_ObjName (fst (fst (add_to_conf (loaded_props p fp') (w_host w) (c_conf s) (c_descs s)))))) = true <->
            cf_ObjName (fst (fst (add_to_conf (loaded_props p fp') (w_host w) (c_conf s) (c_descs s)))) <> cf_ObjName (c_conf s)).
    rewrite negb_true_iff, beqb_neq. split; congruence.
Qed.

(** A file that exists but cannot be loaded, or whose state cannot be determined, changes nothing. *)
Theorem C59_unreadable_file_keeps_settings w s s' ch : refresh_conf w s = Some (s', ch) ->
  w_stat w = StatError \/ w_load w = LoadError -> s' = s /\ ch = false.
Proof.
  intros H Hc. destruct (refresh_cases w s s' ch H) as [(-> & -> & _)|(fp' & p & m & R' & _)]; [auto|].
  exfalso. destruct R' as [[F|(m' & F & _)] [G|[G _]]]; destruct Hc; congruence.
Qed.

(** An agent whose configuration file cannot be examined or read when it starts runs with the default settings - except that it has no object name and
    type and that the numbers of the sampling settings are 0. *)
Definition names_sampling (k : gostring) : Prop := exists a b, k = a ++ of_string "_sampling_" ++ b.
Fixpoint has_part (p k : gostring) : bool := match k with [] => match p with [] => true | _ => false end | _ :: k' => beqb (firstn (length p) k) p || has_part p k' end.
Lemma has_part_ok p : forall k, has_part p k = true -> exists a b, k = a ++ p ++ b.
Proof.
  induction k as [|c k IH]; cbn [has_part]; intros H.
  - destruct p; [|discriminate]. exists [], []. reflexivity.
  - apply orb_prop in H as [H|H].
    + destruct (beqb_spec (firstn (length p) (c :: k)) p) as [E|]; [|discriminate]. exists [], (skipn (length p) (c :: k)). cbn [app]. rewrite <- E at 1. symmetry. apply firstn_skipn.
    + destruct (IH H) as (a & b & E). exists (c :: a), b. cbn [app]. congruence.
Qed.
Definition same_value (a b : sval) : bool := match a, b with SBool x, SBool y => Bool.eqb x y | SInt x, SInt y => x =? y | SText x, SText y => beqb x y | _, _ => false end.
Lemma same_value_ok a b : same_value a b = true -> a = b.
Proof.
  destruct a, b; cbn [same_value]; try discriminate; intros H; f_equal; [apply Bool.eqb_prop, H|apply Z.eqb_eq, H|destruct (beqb_spec s s0); [assumption|discriminate]].
Qed.
Theorem C59_started_without_file_partial w s ch st : refresh_conf w initial_cstate = Some (s, ch) -> w_stat w = StatError \/ w_load w = LoadError -> In st settings ->
  st_read st (c_conf s) = default_of (st_kind st) \/
  ((st_key st = of_string "obj_name" \/ st_key st = of_string "obj_type") /\ st_read st (c_conf s) = SText []) \/
  (names_sampling (st_key st) /\ st_read st (c_conf s) = SInt 0).
Proof.
  intros H Hc I. destruct (C59_unreadable_file_keeps_settings _ _ _ _ H Hc) as (-> & _). cbn [initial_cstate c_conf].
  assert (forallb (fun st => same_value (st_read st initial_configure) (default_of (st_kind st))
                    || (beqb (st_key st) (of_string "obj_name") || beqb (st_key st) (of_string "obj_type")) && same_value (st_read st initial_configure) (SText [])
                    || has_part (of_string "_sampling_") (st_key st) && same_value (st_read st initial_configure) (SInt 0)) settings = true) as K by (vm_compute; reflexivity).
  rewrite forallb_forall in K. specialize (K st I). apply orb_prop in K as [K|K]; [apply orb_prop in K as [K|K]|].
  - left. apply same_value_ok, K.
  - right. left. apply andb_prop in K as (K1 & K2). split; [|apply same_value_ok, K2].
    apply orb_prop in K1 as [K1|K1]; [left; destruct (beqb_spec (st_key st) (of_string "obj_name")) as [E|]; [exact E|discriminate]|right; destruct (beqb_spec (st_key st) (of_string "obj_type")) as [E|]; [exact E|discriminate]].
  - right. right. apply andb_prop in K as (K1 & K2). split; [apply has_part_ok, K1|apply same_value_ok, K2].
Qed.
Example C59_started_without_file_case : exists s ch, refresh_conf (mk_world [] StatError LoadAbsent (of_string "h")) initial_cstate = Some (s, ch) /\ s = initial_cstate /\ (length settings > 60)%nat.
Proof. exists initial_cstate, false. split; [reflexivity|]. split; [reflexivity|]. assert ((60 <? length settings)%nat = true) as K by (vm_compute; reflexivity). apply Nat.ltb_lt in K. exact K. Qed.

Definition ex_file : props := [(of_string "send_queue_size", of_string "+12"); (of_string "xlog_sampling_enabled", of_string "Yes");
                               (of_string "udp_max_bytes", of_string "6e4")].
Example C59_example :
  match refresh_conf (ex_world ex_file) initial_cstate with
  | Some (s', _) => beqb (cf_NetCollectorIP (c_conf s')) (of_string "10.0.0.9") && (cf_SendQueueSize (c_conf s') =? 12) &&
      cf_XlogSamplingEnabled (c_conf s') && (cf_UDPMaxBytes (c_conf s') =? 60000)
  | None => false
  end = true.
Proof. vm_compute. reflexivity. Qed.

(** ** C60: configuration changes are noticed *)

Lemma last_seen ops : forall s s' m, conf_run ops s = Some s' -> seen_before ops m ->
  (forall l, c_last s = Some l -> l < m) -> forall l, c_last s' = Some l -> l < m.
Proof.
  induction ops as [|o ops IH]; intros s s' m H Hs Hl; cbn [conf_run] in H; [inversion H; subst; exact Hl|].
  destruct (conf_step o s) as [s1|] eqn:E; [|discriminate]. apply (IH s1 s' m H); [intros w t I; apply Hs; right; exact I|].
  destruct o as [w|]; cbn [conf_step] in E.
  - destruct (refresh_conf w s) as [[s2 ch]|] eqn:Er; [|discriminate]. inversion E; subst s2. clear E.
    destruct (refresh_cases w s s1 ch Er) as [(-> & _)|(fp & p & m' & R & _ & E & A & B)]; [exact Hl|].
    destruct (add_to_conf (loaded_props p fp) (w_host w) (c_conf s) (c_descs s)) as [[c d] changed].
    destruct E as [-> _]. cbn [notify c_last]. destruct R as [[Rs|(t & Rs & _)] _].
    + rewrite (B Rs). exact Hl.
    + rewrite (A t Rs). intros l El. inversion El; subst. apply (Hs w l); [left; reflexivity|exact Rs].
  - inversion E; subst s1. unfold start_sampler. destruct (c_sampler s); exact Hl.
Qed.

(** Whatever happened before, when the file carries a modification time later than all those seen so far, the
    next refresh loads it (its settings then follow [C59_precedence_partial]). *)
Theorem C60_newer_file_is_loaded_partial ops s w m fp :
  conf_run ops initial_cstate = Some s -> seen_before ops m -> w_stat w = StatTime m -> w_load w = Loaded fp ->
  reloads w s fp /\
  forall s' ch, refresh_conf w s = Some (s', ch) -> c_last s' = Some m.
Proof.
  intros H Hs Ht Hl.
  assert (reloads w s fp) as R.
  { split; [|left; exact Hl]. right. exists m. split; [exact Ht|].
    eapply last_seen; [exact H|exact Hs|]. discriminate. }
  split; [exact R|]. intros s' ch Hr.
  destruct (refresh_cases w s s' ch Hr) as [(_ & _ & F)|(fp' & p & m' & _ & _ & E & A & _)]; [destruct (F fp R)|].
  destruct (add_to_conf (loaded_props p fp') (w_host w) (c_conf s) (c_descs s)) as [[c d] changed].
  destruct E as [-> _]. cbn [notify c_last]. apply A. exact Ht.
Qed.

(** Refutation of the unrestricted claim: a file whose modification time is not later than that of the file read
    last (an older file restored, two saves within one clock tick) is ignored, whatever it contains. *)
Theorem C60_refuted_not_newer w s s' ch m l : w_stat w = StatTime m -> c_last s = Some l -> m <= l ->
  refresh_conf w s = Some (s', ch) -> s' = s.
Proof.
  intros Ht Hl Hm H. unfold refresh_conf in H. rewrite Ht in H.
  assert (after m (c_last s) = false) as E by (unfold after; rewrite Hl; lia). rewrite E in H. inversion H. reflexivity.
Qed.

(** ... such a state is reached by one refresh, and the ignored contents would have changed a setting. *)
Theorem C60_refuted : exists ops s w s' ch,
  conf_run ops initial_cstate = Some s /\ refresh_conf w s = Some (s', ch) /\
  w_load w = Loaded [(of_string "send_queue_size", of_string "12")] /\ cf_SendQueueSize (c_conf s') = 50.
Proof.
  set (w1 := mk_world [] (StatTime 9) (Loaded [(of_string "send_queue_size", of_string "50")]) (of_string "h")).
  set (w2 := mk_world [] (StatTime 7) (Loaded [(of_string "send_queue_size", of_string "12")]) (of_string "h")).
  assert (match refresh_conf w1 initial_cstate with
          | Some (s, _) => (cf_SendQueueSize (c_conf s) =? 50) && (match c_last s with Some l => l =? 9 | None => false end)
          | None => false end = true) as K by (vm_compute; reflexivity).
  destruct (refresh_conf w1 initial_cstate) as [[s ch]|] eqn:E; [|discriminate]. apply andb_true_iff in K as [K1 K2].
  exists [CRefresh w1], s, w2, s, false. split; [cbn [conf_run conf_step]; rewrite E; reflexivity|]. clear E.
  split; [|split; [reflexivity|lia]].
  unfold refresh_conf. cbn [w2 w_stat]. unfold after. destruct (c_last s) as [l|]; [|discriminate].
  destruct (l <? 7) eqn:F; [lia|reflexivity].
Qed.

(** In every history the sampler's patterns and matchers correspond to the settings in force. *)
Theorem C60_sampler_follows ops s sp : conf_run ops initial_cstate = Some s -> c_sampler s = Some sp ->
  reach_sampler (sampler_conf (c_conf s)) sp /\ sp = new_sampler (sampler_conf (c_conf s)).
Proof.
  assert (forall ops s s', conf_run ops s = Some s' ->
    (forall sp, c_sampler s = Some sp -> reach_sampler (sampler_conf (c_conf s)) sp) ->
    forall sp, c_sampler s' = Some sp -> reach_sampler (sampler_conf (c_conf s')) sp) as Inv.
  { clear. induction ops as [|o ops IH]; intros s s' H Hi; cbn [conf_run] in H; [inversion H; subst; exact Hi|].
    destruct (conf_step o s) as [s1|] eqn:E; [|discriminate]. apply (IH s1 s' H). clear IH H.
    destruct o as [w|]; cbn [conf_step] in E.
    - destruct (refresh_conf w s) as [[s2 ch]|] eqn:Er; [|discriminate]. inversion E; subst s2. clear E.
      destruct (refresh_cases w s s1 ch Er) as [(-> & _)|(fp & p & m' & R & _ & E & _)]; [exact Hi|].
      destruct (add_to_conf (loaded_props p fp) (w_host w) (c_conf s) (c_descs s)) as [[c d] changed].
      destruct E as [-> _]. cbn [notify c_conf c_sampler]. intros sp Hsp.
      destruct (c_sampler s) as [sp0|]; [|discriminate]. cbn in Hsp. inversion Hsp; subst sp.
      apply (rs_run (sampler_conf (c_conf s))). apply Hi. reflexivity.
    - inversion E; subst s1. unfold start_sampler. destruct (c_sampler s) as [sp0|] eqn:Es; [rewrite Es; exact Hi|].
      cbn [c_sampler c_conf]. intros sp Hsp. inversion Hsp; subst. constructor. }
  intros H Hsp.
  assert (reach_sampler (sampler_conf (c_conf s)) sp) as R by (eapply Inv; [exact H|discriminate|exact Hsp]).
  split; [exact R|]. apply C47_follows_configuration. exact R.
Qed.

Ltac pick n I := injection I as <- <-; exists (nth n settings hidden_setting);
  split; [apply nth_In; change (length settings) with 63%nat; lia|]; split; [reflexivity|intro c; reflexivity].

(** Every parameter the sampler decides by is the value of the setting of that name, so that after a reload it is what the
    file and the environment say (C59). *)
Theorem C60_sampler_settings w s s' ch fp key param envv :
  refresh_conf w s = Some (s', ch) -> reloads w s fp -> NoDup (map fst fp) -> simple_env (w_env w) ->
  In (key, param) sampler_settings -> env_gives (w_env w) key envv -> (get key fp = Some [] -> given envv = None) ->
  exists st, In st settings /\ st_key st = key /\
    takes (st_kind st) (match given (get key fp) with Some v => Some v | None => given envv end) (param (sampler_conf (c_conf s'))).
Proof.
  intros H R N E I G Hn.
  assert (exists st, In st settings /\ st_key st = key /\ forall c, param (sampler_conf c) = st_read st c) as (st & A & B & C).
  { clear - I. unfold sampler_settings in I. cbn [In] in I.
    destruct I as [I|I]; [pick 21%nat I|].
    destruct I as [I|I]; [pick 22%nat I|].
    destruct I as [I|I]; [pick 23%nat I|].
    destruct I as [I|I]; [pick 24%nat I|].
    destruct I as [I|I]; [pick 25%nat I|].
    destruct I as [I|I]; [pick 26%nat I|].
    destruct I as [I|I]; [pick 27%nat I|].
    destruct I as [I|I]; [pick 28%nat I|].
    destruct I as [I|I]; [pick 29%nat I|].
    destruct I as [I|I]; [pick 30%nat I|].
    destruct I as [I|I]; [pick 31%nat I|].
    destruct I as [I|I]; [pick 32%nat I|].
    destruct I as [I|I]; [pick 34%nat I|].
    destruct I as [I|I]; [pick 33%nat I|].
    destruct I as [I|I]; [pick 35%nat I|].
    destruct I as [I|I]; [pick 36%nat I|].
    destruct I as [I|I]; [pick 37%nat I|].
    destruct I as [I|I]; [pick 38%nat I|].
    destruct I as [I|I]; [pick 39%nat I|].
    destruct I as [I|I]; [pick 40%nat I|].
    destruct I as [I|I]; [pick 41%nat I|].
    destruct I as [I|I]; [pick 42%nat I|].
    destruct I as [I|I]; [pick 44%nat I|].
    destruct I as [I|I]; [pick 43%nat I|].
    destruct I as [I|I]; [pick 45%nat I|].
    destruct I as [I|I]; [pick 46%nat I|].
    destruct I as [I|I]; [pick 47%nat I|].
    destruct I as [I|I]; [pick 48%nat I|].
    destruct I as [I|I]; [pick 49%nat I|].
    destruct I as [I|I]; [pick 50%nat I|].
    destruct I as [I|I]; [pick 51%nat I|].
    destruct I as [I|I]; [pick 52%nat I|].
    destruct I as [I|I]; [pick 54%nat I|].
    destruct I as [I|I]; [pick 53%nat I|].
    destruct I as [I|I]; [pick 55%nat I|].
    destruct I as [I|I]; [pick 56%nat I|].
    destruct I as [I|I]; [pick 57%nat I|].
    destruct I as [I|I]; [pick 58%nat I|].
    destruct I as [I|I]; [pick 59%nat I|].
    destruct I as [I|I]; [pick 60%nat I|].
    destruct I as [I|I]; [pick 61%nat I|].
    destruct I as [I|I]; [pick 62%nat I|].
    destruct I. }
  exists st. split; [exact A|]. split; [exact B|]. rewrite C. rewrite <- B in *.
  eapply C59_precedence_partial; [exact H|exact R|exact N|exact E|right; exact A|exact G|exact Hn].
Qed.

Example C60_sampler_settings_case : exists param, In (of_string "xlog_patterned_sampling_over_rate_pct", param) sampler_settings.
Proof. eexists. unfold sampler_settings. cbn [In]. repeat (try (left; reflexivity); right). Qed.

Example C60_example :
  match conf_run [CRefresh (mk_world [] StatAbsent LoadAbsent (of_string "h")); CSampler;
            CRefresh (mk_world [] (StatTime 9) (Loaded [(of_string "xlog_discard_service_patterns", of_string "/health")]) (of_string "h"))]
    initial_cstate with
  | Some s => match c_sampler s with Some sp => beqb (sp_curDiscard sp) (of_string "/health") | None => false end
  | None => false
  end = true.
Proof. vm_compute. reflexivity. Qed.

(** ** C62: environment values are taken verbatim *)

Lemma cut_eq_up_to v : up_to_equals v (cut_eq v).
Proof.
  unfold cut_eq, split_byte.
  assert (forall s cur, ~ In 61 cur -> up_to_equals (rev cur ++ s) (hd [] (split_go 61 cur s))) as H.
  { clear. induction s as [|c s IH]; intros cur N; cbn [split_go].
    - cbn [hd]. split; [rewrite <- in_rev; exact N|]. left. apply app_nil_r.
    - destruct (c =? 61) eqn:E.
      + cbn [hd]. apply Z.eqb_eq in E; subst. split; [rewrite <- in_rev; exact N|]. right. eauto.
      + replace (rev cur ++ c :: s) with (rev (c :: cur) ++ s) by (cbn [rev]; rewrite <- app_assoc; reflexivity).
        apply IH. intros [F|F]; [lia|contradiction]. }
  exact (H v [] (fun F => F)).
Qed.

(** With no value for the key in the file, an entry KEY=VALUE gives the setting the part of VALUE before its first
    '=', if not empty. *)
Theorem C62_environment_value w s s' ch fp st v :
  refresh_conf w s = Some (s', ch) -> reloads w s fp -> NoDup (map fst fp) ->
  Forall (fun e => exists k v, env_entry e k v) (w_env w) ->
  In st (hidden_setting :: settings) -> get (st_key st) fp = None -> env_gives (w_env w) (st_key st) (Some v) ->
  exists t, up_to_equals v t /\ takes (st_kind st) (given (Some t)) (st_read st (c_conf s')).
Proof.
  intros H R ND Hs Hin Hf Hg.
  destruct (env_props_spec (w_env w) Hs []) as (p & Ep & Hp).
  rewrite (reload_conf w s s' ch fp p H R Ep).
  pose proof (settings_taken (loaded_props p fp) (w_host w) (c_conf s) (c_descs s)) as T.
  rewrite Forall_forall in T. specialize (T st Hin).
  rewrite loaded_value in T; [|exact ND|eapply env_props_keys; [exact Ep|constructor]].
  rewrite Hf in T. destruct (Hp (st_key st)) as [A _]. rewrite (A v Hg) in T.
  exists (cut_eq v). split; [apply cut_eq_up_to|exact T].
Qed.

(** So a value without '=' is taken verbatim ... *)
Theorem C62_verbatim_partial w s s' ch fp st v :
  refresh_conf w s = Some (s', ch) -> reloads w s fp -> NoDup (map fst fp) ->
  Forall (fun e => exists k v, env_entry e k v) (w_env w) ->
  In st (hidden_setting :: settings) -> get (st_key st) fp = None -> env_gives (w_env w) (st_key st) (Some v) ->
  v <> [] -> ~ In 61 v -> takes (st_kind st) (Some v) (st_read st (c_conf s')).
Proof.
  intros H R ND Hs Hin Hf Hg Nv N.
  destruct (C62_environment_value w s s' ch fp st v H R ND Hs Hin Hf Hg) as (t & (_ & [->|(r & ->)]) & T).
  - destruct t; [congruence|exact T].
  - exfalso. apply N. apply in_or_app. right. left. reflexivity.
Qed.

(** ... one with '=' is not, and an entry without '=' makes the refresh panic (in the agent's own goroutine,
    hence the application). *)
Theorem C62_refuted : exists w s' ch,
  refresh_conf w initial_cstate = Some (s', ch) /\ w_load w = LoadAbsent /\
  env_gives (w_env w) (of_string "obj_name") (Some (of_string "a=b")) /\ cf_ObjNameSimple (c_conf s') = of_string "a".
Proof.
  set (w := mk_world [of_string "obj_name=a=b"] StatAbsent LoadAbsent (of_string "h")).
  assert (match refresh_conf w initial_cstate with Some (s', _) => beqb (cf_ObjNameSimple (c_conf s')) (of_string "a") | None => false end = true) as K by (vm_compute; reflexivity).
  destruct (refresh_conf w initial_cstate) as [[s' ch]|] eqn:E; [|discriminate]. exists w, s', ch. split; [exact E|]. clear E.
  split; [reflexivity|]. split; [|apply beqb_eq; exact K].
  exists [], (of_string "obj_name=a=b"), []. split; [reflexivity|]. split; [|intros e t []].
  repeat split; try discriminate. cbn. intuition discriminate.
Qed.

Theorem C62_refuted_panic w s e : In e (w_env w) -> ~ In 61 e ->
  w_stat w = StatAbsent \/ (exists m, w_stat w = StatTime m /\ forall l, c_last s = Some l -> l < m) ->
  refresh_conf w s = None.
Proof.
  intros I N Hst.
  assert (forall es p, In e es -> env_props es p = None) as E.
  { induction es as [|e' es IH]; intros p F; [destruct F|]. cbn [env_props].
    destruct F as [->|F].
    - unfold split_byte. rewrite split_go_nosep by exact N. reflexivity.
    - destruct (split_byte 61 e') as [|k [|v rest]]; try reflexivity. apply IH. exact F. }
  unfold refresh_conf. destruct Hst as [->|(m & -> & Hm)].
  - rewrite (E (w_env w) [] I). reflexivity.
  - assert (after m (c_last s) = true) as -> by (unfold after; destruct (c_last s) as [l|]; [specialize (Hm l eq_refl); lia|reflexivity]).
    rewrite (E (w_env w) [] I). reflexivity.
Qed.

(** ** C67: the settings shown to the collector are those in force *)

Lemma parse_digits_decimal s : forall acc n, parse_digits 10 acc s = Some n ->
  Forall (fun c => 48 <= c <= 57) s /\ n = fold_left (fun a c => a * 10 + (c - 48)) s acc.
Proof.
  induction s as [|c s IH]; intros acc n; cbn [parse_digits fold_left]; [intro H; inversion H; auto|].
  unfold char_digit. destruct ((48 <=? c) && (c <=? 57)) eqn:E.
  - destruct (c - 48 <? 10) eqn:F; [|discriminate]. intro H. apply IH in H as [A B]. split; [constructor; [lia|exact A]|exact B].
  - destruct ((97 <=? c) && (c <=? 122)) eqn:G; [|discriminate]. destruct (c - 87 <? 10) eqn:F; [lia|discriminate].
Qed.

Lemma format_decimal z : decimal (format_int 10 z) z.
Proof.
  pose proof (parse_format_int 10 z ltac:(lia)) as P. unfold parse_number in P.
  destruct (format_int 10 z) as [|c s]; [discriminate|].
  destruct (c =? 45) eqn:E.
  - apply Z.eqb_eq in E; subst c. destruct s as [|d s]; [discriminate|].
    destruct (parse_digits 10 0 (d :: s)) as [n|] eqn:Ep; [|discriminate]. cbn in P. inversion P; subst z.
    apply parse_digits_decimal in Ep as [A B]. exists [45], (d :: s). split; [reflexivity|]. split; [discriminate|].
    split; [exact A|]. right. split; [reflexivity|]. rewrite B. reflexivity.
  - apply parse_digits_decimal in P as [A B]. exists [], (c :: s). split; [reflexivity|]. split; [discriminate|].
    split; [exact A|]. left. auto.
Qed.

(** In every history in which the settings have been loaded at least once, the description table has exactly one
    entry per setting, in order; each shows the value in force (a 32-bit millisecond setting shows the number
    before it is cut to 32 bits), its default and its type. *)
Theorem C67_descriptions_match ops s :
  conf_run ops initial_cstate = Some s -> c_descs s <> [] ->
  map fst (c_descs s) = map st_key settings /\
  forall st, In st settings -> exists e, get (st_key st) (c_descs s) = Some e /\ cd_Key e = st_key st /\
    (match st_kind st with
     | KMs _ => exists z, decimal (cd_Value e) z /\ st_read st (c_conf s) = SInt (int32 z)
     | _ => shows (cd_Value e) (st_read st (c_conf s))
     end) /\
    shows (cd_Default e) (default_of (st_kind st)) /\ cd_Desc e = st_desc st /\ cd_Type e = type_of (st_kind st).
Proof.
  assert (forall ops s s', conf_run ops s = Some s' ->
    (c_descs s = [] \/ exists p h old d0, c_descs s = map (desc_entry p) settings /\ c_conf s = new_conf p h old d0) ->
    (c_descs s' = [] \/ exists p h old d0, c_descs s' = map (desc_entry p) settings /\ c_conf s' = new_conf p h old d0)) as Inv.
  { clear. induction ops as [|o ops IH]; intros s s' H Hi; cbn [conf_run] in H; [inversion H; subst; exact Hi|].
    destruct (conf_step o s) as [s1|] eqn:E; [|discriminate]. apply (IH s1 s' H). clear IH H.
    destruct o as [w|]; cbn [conf_step] in E.
    - destruct (refresh_conf w s) as [[s2 ch]|] eqn:Er; [|discriminate]. inversion E; subst s2. clear E.
      destruct (refresh_cases w s s1 ch Er) as [(-> & _)|(fp & p & m' & R & _ & E & _)]; [exact Hi|].
      right. exists (loaded_props p fp), (w_host w), (c_conf s), (c_descs s).
      assert (c_descs s = [] \/ map fst (c_descs s) = map st_key settings) as Hk.
      { destruct Hi as [Hi|(p0 & h & old & d0 & Hd & _)]; [left; exact Hi|right]. rewrite Hd. apply desc_entry_keys. }
      pose proof (descs_after (loaded_props p fp) (w_host w) (c_conf s) (c_descs s) Hk) as D. unfold new_conf.
      destruct (add_to_conf (loaded_props p fp) (w_host w) (c_conf s) (c_descs s)) as [[c d] changed].
      destruct E as [-> _]. cbn [notify c_descs c_conf fst snd] in *. auto.
    - inversion E; subst s1. unfold start_sampler. destruct (c_sampler s); exact Hi. }
  intros H Hne. destruct (Inv ops initial_cstate s H (or_introl eq_refl)) as [F|(p & h & old & d0 & Hd & Hc)]; [congruence|].
  split; [rewrite Hd; apply desc_entry_keys|]. intros st Hin.
  exists (snd (desc_entry p st)). rewrite Hd, Hc. split.
  { pose proof settings_nodup as ND. revert Hin ND. clear. generalize settings. induction l as [|x l IH]; [intros []|].
    intros [->|I] ND; cbn [map get desc_entry fst snd].
    - rewrite beqb_refl. reflexivity.
    - cbn [map] in ND. inversion ND as [|? ? N ND']; subst.
      destruct (beqb_spec (st_key st) (st_key x)) as [Ek|_]; [|apply IH; assumption].
      exfalso. apply N. rewrite <- Ek. apply in_map. exact I. }
  cbn [snd desc_entry cd_Key cd_Value cd_Default cd_Desc cd_Type]. split; [reflexivity|]. split; [|split; [|split; reflexivity]].
  - assert (Forall (fun st => st_read st (new_conf p h old d0) =
        match st_kind st with
        | KBool d => SBool (get_bool p (st_key st) d)
        | KInt d => SInt (get_int p (st_key st) d)
        | KMs d => SInt (int32 (get_int p (st_key st) d))
        | KText d | KCsv d => SText (get_str p (st_key st) d)
        end) settings) as V by (unfold settings; repeat constructor).
    rewrite Forall_forall in V. rewrite (V st Hin). unfold raw_text. destruct (st_kind st) as [d|d|d|d|d]; cbn [shows].
    + reflexivity.
    + apply format_decimal.
    + eexists. split; [apply format_decimal|reflexivity].
    + reflexivity.
    + reflexivity.
  - unfold default_text, default_of. destruct (st_kind st) as [d|d|d|d|d]; cbn [shows]; try reflexivity; apply format_decimal.
Qed.

Example C67_example :
  match conf_run [CRefresh (ex_world [(of_string "xlog_sampling_step1_ms", of_string "4294967396")])] initial_cstate with
  | Some s => (length (c_descs s) =? 63)%nat && (cf_XlogSamplingStep1Ms (c_conf s) =? 100) &&
      match get (of_string "xlog_sampling_step1_ms") (c_descs s) with Some e => beqb (cd_Value e) (of_string "4294967396") | None => false end
  | None => false
  end = true.
Proof. vm_compute. reflexivity. Qed.

Print Assumptions C59_started_without_file_partial.
Print Assumptions C59_precedence_partial.
Print Assumptions C59_empty_file_value_hides_environment.
Print Assumptions C59_refuted.
Print Assumptions C59_object_name.
Print Assumptions C59_unreadable_file_keeps_settings.
Print Assumptions C60_newer_file_is_loaded_partial.
Print Assumptions C60_refuted_not_newer.
Print Assumptions C60_refuted.
Print Assumptions C60_sampler_follows.
Print Assumptions C60_sampler_settings.
Print Assumptions C62_environment_value.
Print Assumptions C62_verbatim_partial.
Print Assumptions C62_refuted.
Print Assumptions C62_refuted_panic.
Print Assumptions C67_descriptions_match.
