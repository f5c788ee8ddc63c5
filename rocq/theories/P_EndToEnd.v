(** Property C76: from the tracing API to the collector. *)
From Verif Require Import GoInt M_Util M_Hash M_OutX S_Wire M_Packs S_Packs M_Steps M_Sampler M_Trace L_Trace S_Trace P_Trace P_Trace3 S_Ledger L_Ledger3
  L_Ledger5 P_Ledger M_Udp S_Udp L_Udp P_Udp M_Net S_Net L_Net P_Net S_EndToEnd L_EndToEnd.
From Coq Require Import ZifyBool Permutation.

(** Every xlog of a history can be handed to the sender: its size never needs more than 32767 fragments of 132 bytes. *)
Theorem C76_xlogs_proper c ops max x : well_used c ops -> Forall typed_ids ops -> 132 <= max -> In x (xlogs_of (a_log (after c ops))) -> proper max (PXlog x).
Proof.
  intros Wu T M Hx. destruct (C63_ledger _ _ Wu) as (rs & l & reps & (_ & R & H & _)). destruct (tells_xlogs _ _ H) as (rs' & P & F). pose proof (sized_run _ _ _ _ _ R T ltac:(constructor)) as S. pose proof (part_Forall _ _ _ P S) as S'. clear - F S' Hx M.
  induction F as [|p r ps rs D F IH]; [destruct Hx|]. inversion_clear S' as [|? ? (Sz & O) S2]. destruct Hx as [-> | Hx]; [|exact (IH Hx S2)].
  pose proof (described_go _ _ _ Sz O D) as G. split; [exact G|]. split; [reflexivity|].
  assert (zlen (xl_Ipaddr x) <= 100000) as Hip by (destruct D as (_ & _ & _ & _ & _ & _ & -> & _); rewrite ip_bytes_len; lia).
  pose proof (xlog_size x G Hip). lia.
Qed.

(** The packs [ps] handed over directly contain the xlogs of the history, in their order; texts go through the queue. At any time, whichever of the
    datagrams sent so far arrive: the xlogs which the collector reads describe services that ended, one each, with the contents of their
    accounts. *)
Theorem C76_collector_learns c ops qcap max qs ps s received :
  well_used c ops -> 0 < max <= 2147483647 -> qcap <= 32767 ->
  history qcap max qs ps s -> xlogs_in qs = [] -> xlogs_in ps = xlogs_of (a_log (after c ops)) -> some_of received (map snd (x_sent s)) ->
  exists rs l reps learned, follows c ops rs l reps /\ some_of learned reps /\
    Forall2 (fun q r => describes (r_env r) (as_sent (r_acc r)) q) (xlogs_in (collector received)) learned.
Proof.
  intros Wu M Q H Xq Xp R. destruct (C63_ledger _ _ Wu) as (rs & l & reps & Fo). pose proof Fo as (_ & _ & Te & _). destruct (tells_xlogs _ _ Te) as (all & Pa & Fa).
  pose proof (xlogs_some _ _ (C77_no_invention _ _ _ _ _ _ M Q H R)) as S. rewrite xlogs_view, xlogs_app, Xq, Xp in S. cbn [app] in S.
  assert (Forall2 (fun q r => describes (r_env r) (as_sent (r_acc r)) q) (map view_xlog_pack (xlogs_of (a_log (after c ops)))) all) as Fv.
  { clear - Fa. induction Fa as [|x r xs rs H F IH]; cbn [map]; constructor; [apply view_describes, H|exact IH]. }
  destruct (some_forall2 _ _ _ _ S Fv) as (learned & Sl & Fl). exists rs, l, reps, learned. split; [exact Fo|]. split; [|exact Fl].
  eapply some_trans; [exact Sl|apply part_some, Pa].
Qed.

(** When the goroutines have written their datagrams, no datagram was without a socket and all arrive, every xlog is read exactly once, whatever
    happened to the queue. *)
Theorem C76_nothing_lost c ops qcap max qs ps s received :
  well_used c ops -> 0 < max <= 2147483647 -> qcap <= 32767 ->
  history qcap max qs ps s -> xlogs_in qs = [] -> xlogs_in ps = xlogs_of (a_log (after c ops)) ->
  x_lost s = [] -> concat (x_jobs s) = [] -> x_uout s = [] -> Permutation received (map snd (x_sent s)) ->
  Permutation (xlogs_in (collector received)) (map view_xlog_pack (xlogs_of (a_log (after c ops)))).
Proof.
  intros Wu M Q H Xq Xp L0 J0 U0 R. destruct (C77_direct_arrives _ _ _ _ _ _ M Q H L0 J0 U0 R) as (k & Pk & P). apply xlogs_perm in P. rewrite P, xlogs_view, xlogs_app, Xp.
  apply part_xlogs in Pk. rewrite Xq in Pk. inversion Pk as [E| |]. reflexivity.
Qed.
(** With a working socket such a state is reached from every state, by the goroutines alone. *)
Theorem C76_completes c ops qcap max qs ps s :
  well_used c ops -> 0 < max <= 2147483647 -> qcap <= 32767 ->
  history qcap max qs ps s -> xlogs_in qs = [] -> xlogs_in ps = xlogs_of (a_log (after c ops)) -> x_clients s = [mkClient true true] ->
  exists s', history qcap max qs ps s' /\ forall received, Permutation received (map snd (x_sent s')) ->
    Permutation (xlogs_in (collector received)) (map view_xlog_pack (xlogs_of (a_log (after c ops)))).
Proof.
  intros Wu M Q H Xq Xp C. destruct (write_all _ _ _ _ _ s (le_n _) H) as (s' & H' & U0 & J0 & _ & C'). exists s'. split; [exact H'|]. intros received R.
  eapply C76_nothing_lost; try eassumption. eapply C77_no_loss_with_socket; [exact H'|congruence].
Qed.

(* ------------------------------------------------------------------ *)
(** A history with two services, whose xlogs are handed over; the second one is sent first. *)
Definition ex_xlogs : list xlog_pack := xlogs_of (a_log (after sconf0 ex_ops)).
Lemma ex_typed : Forall typed_ids ex_ops.
Proof. unfold ex_ops. repeat (constructor; [split; [vm_compute; split; discriminate|split; [vm_compute; split; discriminate|exact I]]|]). constructor. Qed.
Example C76_case : exists ps s, well_used sconf0 ex_ops /\ Forall typed_ids ex_ops /\ history 8 200 [] ps s /\ xlogs_in ps = xlogs_of (a_log (after sconf0 ex_ops)) /\ length ps = 2%nat /\
  x_clients s = [mkClient true true] /\ x_lost s = [] /\ concat (x_jobs s) = [] /\ x_uout s = [] /\ length (x_sent s) = 2%nat.
Proof.
  assert (exists p q, ex_xlogs = [p; q]) as (p & q & E) by (eexists _, _; vm_compute; reflexivity).
  assert (demo 8 200 [DDirect 5 (PXlog p); DDirect 6 (PXlog q); DWrite 1; DWrite 0] ([], [], net0 true) = demo 8 200 [DDirect 5 (PXlog (nth 0 ex_xlogs p)); DDirect 6 (PXlog (nth 1 ex_xlogs p)); DWrite 1; DWrite 0] ([], [], net0 true)) as D by (rewrite E; reflexivity).
  destruct (demo 8 200 [DDirect 5 (PXlog p); DDirect 6 (PXlog q); DWrite 1; DWrite 0] ([], [], net0 true)) as [[[qs ps] s]|] eqn:F; [|vm_compute in D; discriminate].
  pose proof (demo_history 8 200 _ [] [] (net0 true) _ (hi_start 8 200 true) F) as H. cbn iota beta in H.
  exists [PXlog p; PXlog q], s. split; [exact ex_used|]. split; [exact ex_typed|].
  vm_compute in D. injection D as -> -> ->.
  split; [|split; [fold ex_xlogs; rewrite E; reflexivity|repeat split; reflexivity]].
  revert H. vm_compute in E. injection E as <- <-. exact (fun x => x).
Qed.

Print Assumptions C76_xlogs_proper.
Print Assumptions C76_collector_learns.
Print Assumptions C76_nothing_lost.
Print Assumptions C76_completes.
