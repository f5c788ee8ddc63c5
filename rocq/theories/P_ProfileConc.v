(** C83: several goroutines recording on one trace context. *)
From Verif Require Import GoInt M_ProfileConc S_ProfileConc L_ProfileConc L_ProfileConc2 L_ProfileConc3 L_ProfileConc4.
From Coq Require Import Permutation.

(** ** Whatever the schedule *)
(** nothing that was not recorded is ever sent, and no batch is larger than the configured size *)
Theorem C83_no_invention keep bulk progs sched b : (1 <= bulk)%nat ->
  In b (c_sent (y_coll (sys_run keep bulk sched (psys0 keep progs)))) -> (length b <= bulk)%nat /\ forall s, In s b -> In s (all_recorded progs).
Proof.
  intros Hb H. split.
  - pose proof (sized_run keep bulk Hb sched _ (sized_start keep bulk progs)) as (_ & S). rewrite Forall_forall in S. exact (S b H).
  - pose proof (known_run keep bulk _ sched _ (known_start keep progs)) as [_ _ S]. rewrite Forall_forall in S. exact (S b H).
Qed.
(** steps that are recorded once appear at most once within a batch *)
Theorem C83_once_per_batch keep bulk progs sched b : (1 <= bulk)%nat -> NoDup (all_recorded progs) ->
  In b (c_sent (y_coll (sys_run keep bulk sched (psys0 keep progs)))) -> NoDup b.
Proof.
  intros Hb N H. destruct (inv_run keep bulk Hb _ sched N _ _ _ (inv_start keep bulk progs)) as (g & lost & [_ _ _ S]). rewrite Forall_forall in S. apply (S b H).
Qed.

(** ** Calls that do not overlap *)
(** nothing is lost, nothing is doubled, nothing panics: at any moment when no call is running, what was sent, what waits and what is still to be
    recorded make up exactly what the goroutines record *)
Theorem C83_serialized keep bulk progs sched : (1 <= keep)%nat -> (1 <= bulk)%nat -> (forall p, In p progs -> ~ In OClose p) -> one_at_a_time keep bulk progs sched ->
  let y := sys_run keep bulk sched (psys0 keep progs) in idle y ->
  Permutation (concat (c_sent (y_coll y)) ++ waiting (y_coll y) ++ unmade y) (all_recorded progs) /\ c_panics (y_coll y) = 0%nat.
Proof.
  intros Hk Hb N O y I. destruct (serial_run keep bulk Hk Hb progs sched N O) as [_ (D & Hd & Hp)]. fold y in Hd, Hp. pose proof (idle_filter y I) as F. unfold active in Hd. rewrite F in Hd.
  destruct (out_waiting _ _ _ Hd) as (-> & P). split; [|exact P]. rewrite (idle_hand _ F) in Hp. rewrite <- Hp, <- app_assoc. reflexivity.
Qed.
(** and closing afterwards sends each recorded step exactly once *)
Theorem C83_serialized_close keep bulk progs sched : (1 <= keep)%nat -> (1 <= bulk)%nat -> (forall p, In p progs -> ~ In OClose p) -> one_at_a_time keep bulk progs sched ->
  let y := sys_run keep bulk sched (psys0 keep progs) in finished y ->
  exists n, let z := sys_run keep bulk (repeat 0%nat n) (mkPsys (y_coll y) [(Out, [OClose])]) in
    finished z /\ Permutation (concat (c_sent (y_coll z))) (all_recorded progs) /\ c_panics (y_coll z) = 0%nat.
Proof.
  intros Hk Hb N O y I. destruct (serial_run keep bulk Hk Hb progs sched N O) as [_ (D & Hd & Hp)]. fold y in Hd, Hp.
  assert (idle y) as Id by (intros t H; rewrite (I t H); reflexivity). pose proof (idle_filter y Id) as F. unfold active in Hd. rewrite F in Hd.
  destruct (close_sends keep bulk Hk Hb _ _ Hd) as (n & c' & R & S & P). exists n. cbv zeta. rewrite R. cbn [y_coll]. split; [intros t [<-|[]]; reflexivity|]. split; [|exact P].
  rewrite S, <- Hp. rewrite (idle_hand _ F). assert (flat_map (fun t => recorded (snd t)) (y_thr y) = []) as ->; [|rewrite app_nil_r; reflexivity].
  unfold finished in I. clear - I. induction (y_thr y) as [|t l IH]; [reflexivity|]. cbn. rewrite (I t (or_introl eq_refl)). apply IH. intros u Hu. apply I. right. exact Hu.
Qed.

(** the steps are numbered 0, 1, 2, ... in some order: no two share a number and none is skipped *)
Theorem C83_serialized_indices keep bulk progs sched : NoDup (all_started progs) -> Z.of_nat (length (all_started progs)) < 2^31 -> one_at_a_time keep bulk progs sched ->
  let y := sys_run keep bulk sched (psys0 keep progs) in finished y ->
  exists order, Permutation order (all_started progs) /\ forall k s, nth_error order k = Some s -> index_of (y_coll y) s = Z.of_nat k.
Proof.
  intros N L O y I. destruct (numbers_run keep bulk progs sched N L O) as (d & [Na Nn _]). fold y in Na, Nn. exists d. split; [|exact Nn].
  assert (flat_map to_start (y_thr y) = []) as E; [|rewrite E, app_nil_r in Na; exact Na].
  unfold finished in I. clear - I. induction (y_thr y) as [|t l IH]; [reflexivity|]. cbn. rewrite (I t (or_introl eq_refl)). apply IH. intros u Hu. apply I. right. exact Hu.
Qed.

(** and they are nested as if one goroutine had made all the calls, in an order that keeps each goroutine's own *)
Theorem C83_serialized_links keep bulk progs sched : Z.of_nat (length (all_started progs)) < 2^31 -> one_at_a_time keep bulk progs sched ->
  let y := sys_run keep bulk sched (psys0 keep progs) in finished y ->
  exists h, merged progs h /\ forall s, c_links (y_coll y) s = v_links (record_all h) s.
Proof. intros L O. exact (linked_finished keep bulk progs sched L O). Qed.

(** ** Calls that overlap: all three promises break *)
Definition two : list (list pop_call) := [[OAdd 1]; [OAdd 2]].
(** both goroutines read the same position: one step overwrites the other, and the two carry the same index *)
Definition lose : list nat := concat (repeat [0; 1]%nat 12).
Theorem C83_lost_refuted : let y := sys_run 4 2 lose (psys0 4 two) in
  finished y /\ c_panics (y_coll y) = 0%nat /\ ~ In 1%nat (concat (c_sent (y_coll y)) ++ waiting (y_coll y)) /\ fst (c_links (y_coll y) 1%nat) = fst (c_links (y_coll y) 2%nat).
Proof. vm_compute. split; [intros t [<-|[<-|[]]]; reflexivity|]. split; [reflexivity|]. split; [intros [H|[]]; discriminate|reflexivity]. Qed.
(** both goroutines see a full buffer before either replaces it: the same batch is sent twice *)
Definition double : list nat := repeat 0%nat 10 ++ repeat 1%nat 10 ++ [0; 1; 0; 1; 0; 1]%nat ++ repeat 0%nat 5 ++ repeat 1%nat 5.
Theorem C83_twice_refuted : let y := sys_run 2 2 double (psys0 2 two) in finished y /\ c_sent (y_coll y) = [[1; 2]; [1; 2]]%nat.
Proof. vm_compute. split; [intros t [<-|[<-|[]]]; reflexivity|reflexivity]. Qed.
(** a goroutine finds the position beyond the end of the slice *)
Definition overrun : list nat := repeat 0%nat 10 ++ repeat 1%nat 8 ++ repeat 0%nat 8.
Theorem C83_panic_refuted : let y := sys_run 1 1 overrun (psys0 1 two) in finished y /\ c_panics (y_coll y) = 1%nat /\ c_sent (y_coll y) = [[1]]%nat /\ waiting (y_coll y) = [].
Proof. vm_compute. split; [intros t [<-|[<-|[]]]; reflexivity|]. auto. Qed.

(** ** The hypotheses can be met *)
(** a step with a beginning and an end, and steps added by two goroutines in turn, with one flush *)
Definition turns : list (list pop_call) := [[OPush 1; OPop 1; OAdd 2]; [OAdd 3; OAdd 4]].
Definition in_turn : list nat := repeat 0%nat 7 ++ repeat 1%nat 12 ++ repeat 0%nat 30 ++ repeat 1%nat 30.
Definition calm (y : psys) : bool := Nat.leb (length (filter busy (y_thr y))) 1.
Fixpoint all_calm (keep bulk : nat) (sched : list nat) (y : psys) : bool := calm y && match sched with [] => true | i :: r => all_calm keep bulk r (sys_step keep bulk i y) end.
Lemma all_calm_ok keep bulk sched : forall y, all_calm keep bulk sched y = true -> forall p r, sched = p ++ r -> (length (filter busy (y_thr (sys_run keep bulk p y))) <= 1)%nat.
Proof.
  induction sched as [|i sched IH]; intros y H p r E; cbn in H; apply andb_prop in H as (H1 & H2).
  - destruct p; [|discriminate]. apply Nat.leb_le. exact H1.
  - destruct p as [|j p]; [apply Nat.leb_le; exact H1|]. injection E as <- E. exact (IH _ H2 p r E).
Qed.
Example serialized_holds : (forall p, In p turns -> ~ In OClose p) /\ one_at_a_time 3 2 turns in_turn /\ NoDup (all_recorded turns) /\ NoDup (all_started turns) /\
  let y := sys_run 3 2 in_turn (psys0 3 turns) in finished y /\ c_sent (y_coll y) = [[3; 1]; [2]]%nat /\ waiting (y_coll y) = [4%nat] /\ map (c_links (y_coll y)) [1; 3; 2; 4]%nat = [(0, 0); (1, 0); (2, 0); (3, 0)].
Proof.
  split; [intros p [<-|[<-|[]]] H; repeat destruct H as [H|H]; try discriminate; exact H|]. split; [intros p r E; eapply all_calm_ok; [|exact E]; vm_compute; reflexivity|].
  do 2 (split; [repeat constructor; cbn; intuition lia|]). vm_compute. split; [intros t [<-|[<-|[]]]; reflexivity|]. auto.
Qed.

(** a step recorded by another goroutine while a step is open lies below it *)
Definition nest : list (list pop_call) := [[OAdd 5; OPush 1; OPop 1; OAdd 2]; [OAdd 3]].
Definition nested : list nat := repeat 0%nat 19 ++ repeat 1%nat 12 ++ repeat 0%nat 40.
Example links_nest : one_at_a_time 9 2 nest nested /\ let y := sys_run 9 2 nested (psys0 9 nest) in finished y /\
  map (c_links (y_coll y)) [5; 1; 3; 2]%nat = [(0, 0); (1, 0); (2, 1); (3, 0)].
Proof.
  split; [intros p r E; eapply all_calm_ok; [|exact E]; vm_compute; reflexivity|]. vm_compute. split; [intros t [<-|[<-|[]]]; reflexivity|reflexivity].
Qed.

Print Assumptions C83_no_invention.
Print Assumptions C83_once_per_batch.
Print Assumptions C83_serialized.
Print Assumptions C83_serialized_close.
Print Assumptions C83_serialized_indices.
Print Assumptions C83_serialized_links.
Print Assumptions C83_lost_refuted.
Print Assumptions C83_twice_refuted.
Print Assumptions C83_panic_refuted.
