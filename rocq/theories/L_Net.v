From Verif Require Import GoInt M_OutX L_Codec M_Value S_Wire S_Value L_Value M_Packs S_Packs L_Packs M_Udp S_Udp L_Udp M_Net S_Net.
From Coq Require Import ZifyBool Permutation.

(* ------------------------------------------------------------------ *)
(** * Multisets *)
Lemma perm_split {A} (c : list A) : forall a b d, Permutation (a ++ b) (c ++ d) ->
  exists a1 a2 b1 b2, Permutation a (a1 ++ a2) /\ Permutation b (b1 ++ b2) /\ Permutation c (a1 ++ b1) /\ Permutation d (a2 ++ b2).
Proof.
  induction c as [|x c IH]; intros a b d P; cbn [app] in P.
  - exists [], a, [], b. cbn [app]. repeat split; try reflexivity. symmetry. exact P.
  - assert (In x (a ++ b)) as I by (eapply Permutation_in; [symmetry; exact P|left; reflexivity]).
    apply in_app_or in I as [I|I]; apply in_split in I as (l1 & l2 & ->).
    + assert (Permutation ((l1 ++ l2) ++ b) (c ++ d)) as P'.
      { apply Permutation_cons_inv with x. rewrite <- P. rewrite <- !app_assoc. cbn [app]. apply Permutation_middle. }
      destruct (IH _ _ _ P') as (a1 & a2 & b1 & b2 & E1 & E2 & E3 & E4). exists (x :: a1), a2, b1, b2. cbn [app].
      split; [rewrite <- E1; symmetry; apply Permutation_middle|]. split; [exact E2|]. split; [constructor; exact E3|exact E4].
    + assert (Permutation (a ++ (l1 ++ l2)) (c ++ d)) as P'.
      { apply Permutation_cons_inv with x. rewrite <- P. rewrite !app_assoc. apply Permutation_middle. }
      destruct (IH _ _ _ P') as (a1 & a2 & b1 & b2 & E1 & E2 & E3 & E4). exists a1, a2, (x :: b1), b2. cbn [app].
      split; [exact E1|]. split; [rewrite <- E2; symmetry; apply Permutation_middle|]. split; [rewrite E3; apply Permutation_middle|exact E4].
Qed.
Lemma some_refl {A} (a : list A) : some_of a a. Proof. exists []. rewrite app_nil_r. reflexivity. Qed.
Lemma some_nil {A} (a : list A) : some_of [] a. Proof. exists a. reflexivity. Qed.
Lemma some_app {A} (a b c d : list A) : some_of a b -> some_of c d -> some_of (a ++ c) (b ++ d).
Proof.
  intros (r1 & P1) (r2 & P2). exists (r1 ++ r2). rewrite <- P1, <- P2. rewrite <- !app_assoc. apply Permutation_app_head. rewrite !app_assoc. apply Permutation_app_tail, Permutation_app_comm.
Qed.
Lemma some_perm {A} (a a' b b' : list A) : Permutation a a' -> Permutation b b' -> some_of a b -> some_of a' b'.
Proof. intros P Q (r & R). exists r. rewrite <- P, <- Q. exact R. Qed.
Lemma some_trans {A} (a b c : list A) : some_of a b -> some_of b c -> some_of a c.
Proof. intros (r & P) (q & Q). exists (r ++ q). rewrite app_assoc, P. exact Q. Qed.
Lemma some_in {A} (a b : list A) x : some_of a b -> In x a -> In x b.
Proof. intros (r & P) I. eapply Permutation_in; [exact P|]. apply in_or_app. left. exact I. Qed.
Lemma flat_map_perm {A B} (f : A -> list B) l l' : Permutation l l' -> Permutation (flat_map f l) (flat_map f l').
Proof. apply Permutation_flat_map. Qed.

(* ------------------------------------------------------------------ *)
(** * Parcels: groups of datagrams that belong together *)
Inductive parcel := One (b : bytes) | Many (g : list bytes) | Cut (pk : Z) (b : bytes).
Definition cut_datagrams (max pk : Z) (b : bytes) : list bytes :=
  map (fun i => mtu_datagram pk (n_frags (zlen b) max) (Z.of_nat i) (chunk b max i)) (seq 0 (Z.to_nat (n_frags (zlen b) max))).
Definition grams (max : Z) (p : parcel) : list bytes :=
  match p with
  | One b => [CAFE ++ b]
  | Many g => [CAFE_N ++ be 2 (zlen g) ++ concat g]
  | Cut pk b => cut_datagrams max pk b
  end.
Definition bufs (p : parcel) : list bytes := match p with One b => [b] | Many g => g | Cut _ b => [b] end.
Definition parcel_key (p : parcel) : list Z := match p with Cut pk _ => [pk] | _ => [] end.
Definition parcel_ok (max : Z) (p : parcel) : Prop :=
  match p with
  | One b => True
  | Many g => zlen g <= 32767
  | Cut pk b => in_int64 pk /\ b <> [] /\ n_frags (zlen b) max <= 32767 /\ max < zlen b
  end.

Lemma one_not_frag b : as_fragment (CAFE ++ b) = None.
Proof. unfold as_fragment, p_fragment, pbind. pose proof (parses_take CAFE b) as H. change (zlen CAFE) with 4 in H. rewrite H. reflexivity. Qed.
Lemma many_not_frag b : as_fragment (CAFE_N ++ b) = None.
Proof. unfold as_fragment, p_fragment, pbind. pose proof (parses_take CAFE_N b) as H. change (zlen CAFE_N) with 4 in H. rewrite H. reflexivity. Qed.
Lemma cut_head max pk b d : In d (cut_datagrams max pk b) -> firstn 4 d = of_string "CAFM".
Proof. intros I. apply in_map_iff in I as (i & <- & _). rewrite mtu_bytes. reflexivity. Qed.
Lemma cut_frag max pk b i : 0 < max <= 2147483647 -> in_int64 pk -> n_frags (zlen b) max <= 32767 -> (i < Z.to_nat (n_frags (zlen b) max))%nat ->
  as_fragment (mtu_datagram pk (n_frags (zlen b) max) (Z.of_nat i) (chunk b max i)) = Some (mkFragment pk (n_frags (zlen b) max) (Z.of_nat i) (chunk b max i)).
Proof.
  intros Hm Hp Hn Hi. rewrite mtu_parse; [|assumption|pose proof (chunk_len b max i ltac:(lia)); lia].
  rewrite !int16_id by (unfold in_int16; lia). reflexivity.
Qed.
Lemma gram_key max p d f : 0 < max <= 2147483647 -> parcel_ok max p -> In d (grams max p) -> as_fragment d = Some f -> parcel_key p = [f_pkid f].
Proof.
  intros Hm O I E. destruct p as [b|g|pk b]; cbn [grams parcel_key] in *.
  - destruct I as [<- | []]. rewrite one_not_frag in E. discriminate.
  - destruct I as [<- | []]. rewrite many_not_frag in E. discriminate.
  - destruct O as (O1 & O2 & O3 & O4). apply in_map_iff in I as (i & <- & Hi). apply in_seq in Hi. rewrite cut_frag in E by (try assumption; lia). injection E as <-. reflexivity.
Qed.

(** reading a cut parcel *)
Lemma cut_reassembles max pk b received : 0 < max <= 2147483647 -> parcel_ok max (Cut pk b) ->
  (forall d f, In d received -> as_fragment d = Some f -> f_pkid f = pk -> In d (cut_datagrams max pk b)) ->
  (reassemble pk received = Some b /\ incl (cut_datagrams max pk b) received) \/ (reassemble pk received = None /\ ~ incl (cut_datagrams max pk b) received).
Proof.
  intros Hm (O1 & O2 & O3 & O4) Own.
  destruct (mtu_carries_pk pk b max O1 Hm O2 O3) as (fs & E & L & C). rewrite write_mtu_map in E by lia. injection E as E. fold (cut_datagrams max pk b) in E. subst fs.
  destruct (reassemble pk received) as [x|] eqn:R.
  - left. assert (incl (cut_datagrams max pk b) received) as I.
    { unfold reassemble in R. destruct (piece pk 0 received) as [f0|] eqn:P0; [|discriminate].
      assert (forall i f, piece pk i received = Some f -> exists d, In d received /\ as_fragment d = Some f /\ f_pkid f = pk /\ f_num f = i) as Pf.
      { clear. intros i. induction received as [|d ds IH]; intros f; cbn [piece]; [discriminate|].
        destruct (as_fragment d) as [g|] eqn:E; [|intros H; destruct (IH _ H) as (d' & I & Q); exists d'; split; [right; exact I|exact Q]].
        destruct ((f_pkid g =? pk) && (f_num g =? i)) eqn:M.
        - intros [= <-]. exists d. split; [left; reflexivity|]. split; [exact E|]. lia.
        - intros H; destruct (IH _ H) as (d' & I & Q); exists d'; split; [right; exact I|exact Q]. }
      assert (forall i f, piece pk (Z.of_nat i) received = Some f -> f_total f = n_frags (zlen b) max /\
        (In (mtu_datagram pk (n_frags (zlen b) max) (Z.of_nat i) (chunk b max i)) received)) as Pm.
      { intros i f H. destruct (Pf _ _ H) as (d & I & Ef & Ek & En). pose proof (Own d f I Ef Ek) as Ic. unfold cut_datagrams in Ic.
        apply in_map_iff in Ic as (j & <- & Hj). apply in_seq in Hj. rewrite cut_frag in Ef by (try assumption; lia). injection Ef as <-. cbn [f_num f_total] in *.
        assert (j = i) by lia. subst j. split; [reflexivity|exact I]. }
      destruct (Pm 0%nat f0 P0) as (T & _). rewrite T in R. destruct (0 <? n_frags (zlen b) max); [|discriminate].
      assert (forall n k y, pieces pk (Z.of_nat k) n received = Some y -> forall i, (k <= i < k + n)%nat -> In (mtu_datagram pk (n_frags (zlen b) max) (Z.of_nat i) (chunk b max i)) received) as Pall.
      { induction n as [|n IH]; intros k y H i Hi; [lia|]. cbn [pieces] in H. destruct (piece pk (Z.of_nat k) received) as [f|] eqn:Ep; [|discriminate].
        destruct (pieces pk (Z.of_nat k + 1) n received) as [y'|] eqn:Er; [|discriminate]. replace (Z.of_nat k + 1) with (Z.of_nat (S k)) in Er by lia.
        destruct (Nat.eq_dec i k) as [-> | Ni]; [apply (Pm k f Ep)|]. eapply IH; [exact Er|lia]. }
      intros d I. apply in_map_iff in I as (i & <- & Hi). apply in_seq in Hi. eapply (Pall _ 0%nat); [exact R|lia]. }
    split; [|exact I]. rewrite (C received I Own) in R. symmetry. exact R.
  - right. split; [reflexivity|]. intros I. rewrite (C received I Own) in R. discriminate.
Qed.

(* ------------------------------------------------------------------ *)
(** * The collector on parcels *)
Lemma decode_one p rest : go_pack p = true -> needs_v2 p = false -> p_pack false (bytes_of p ++ rest) = Some (collector_pack p, rest).
Proof. intros G N. rewrite <- N. exact (pack_collector p rest G). Qed.
Lemma one_decoded p : go_pack p = true -> needs_v2 p = false -> one_pack (bytes_of p) = [collector_pack p].
Proof. intros G N. unfold one_pack. pose proof (decode_one p [] G N) as D. rewrite app_nil_r in D. rewrite D. reflexivity. Qed.
Lemma many_decoded ps : Forall (fun p => go_pack p = true /\ needs_v2 p = false) ps -> some_packs (length ps) (concat (map bytes_of ps)) = map collector_pack ps.
Proof.
  induction 1 as [|p ps (G & N) F IH]; [reflexivity|]. cbn [length map concat some_packs]. rewrite (decode_one p _ G N), IH. reflexivity.
Qed.
Lemma bytes_nonempty p : go_pack p = true -> needs_v2 p = false -> bytes_of p <> [].
Proof. intros G N E. pose proof (decode_one p [] G N) as D. rewrite E in D. discriminate. Qed.

Definition sane (p : pack) : Prop := go_pack p = true /\ needs_v2 p = false.
(** the packs in a parcel *)
Definition holds (c : parcel) (ps : list pack) : Prop := bufs c = map bytes_of ps /\ Forall sane ps.

Lemma brings_one R b : brings R (CAFE ++ b) = one_pack b. Proof. reflexivity. Qed.
Lemma brings_many R g ps : g = map bytes_of ps -> Forall sane ps -> zlen g <= 32767 -> brings R (CAFE_N ++ be 2 (zlen g) ++ concat g) = map collector_pack ps.
Proof.
  intros -> S L. unfold brings. change (firstn 4 (CAFE_N ++ _)) with (of_string "CAFN"). change (beqb (of_string "CAFN") (of_string "CAFE")) with false. cbn match.
  change (beqb (of_string "CAFN") (of_string "CAFN")) with true. cbn match. change (skipn 4 (CAFE_N ++ ?x)) with x.
  pose proof (parses_i16 (zlen (map bytes_of ps)) ltac:(pose proof (zlen_nonneg (map bytes_of ps)); unfold in_int16; lia)) as Pz. rewrite (Pz (concat (map bytes_of ps))).
  unfold zlen. rewrite Nat2Z.id, map_length. apply many_decoded, S.
Qed.
Lemma brings_cut R max pk b i : 0 < max <= 2147483647 -> parcel_ok max (Cut pk b) -> (i < Z.to_nat (n_frags (zlen b) max))%nat ->
  brings R (mtu_datagram pk (n_frags (zlen b) max) (Z.of_nat i) (chunk b max i)) =
  (match i with O => match reassemble pk R with Some x => one_pack x | None => [] end | _ => [] end).
Proof.
  intros Hm (O1 & O2 & O3 & O4) Hi. unfold brings.
  assert (firstn 4 (mtu_datagram pk (n_frags (zlen b) max) (Z.of_nat i) (chunk b max i)) = of_string "CAFM") as ->
    by (apply (cut_head max pk b), in_map_iff; exists i; split; [reflexivity|apply in_seq; lia]).
  change (beqb (of_string "CAFM") (of_string "CAFE")) with false. change (beqb (of_string "CAFM") (of_string "CAFN")) with false. cbn match.
  rewrite cut_frag by assumption. cbn [f_num f_pkid]. destruct i; [reflexivity|]. replace (Z.of_nat (S i) =? 0) with false by lia. reflexivity.
Qed.
Lemma n_frags_pos (b : bytes) max : 0 < max -> b <> [] -> 0 < n_frags (zlen b) max.
Proof.
  intros Hm Hb. pose proof (zlen_nonneg b) as Hz. pose proof (n_frags_bounds (zlen b) max Hm Hz) as (B1 & B2 & B3). destruct b; [congruence|]. rewrite zlen_cons in *. pose proof (zlen_nonneg b). nia.
Qed.
Lemma brings_cut_all R max pk b : 0 < max <= 2147483647 -> parcel_ok max (Cut pk b) ->
  flat_map (brings R) (cut_datagrams max pk b) = match reassemble pk R with Some x => one_pack x | None => [] end.
Proof.
  intros Hm O. pose proof O as (_ & O2 & _ & _). pose proof (n_frags_pos b max ltac:(lia) O2) as Hn. unfold cut_datagrams.
  assert (forall n k, (0 < k)%nat -> (k + n <= Z.to_nat (n_frags (zlen b) max))%nat -> flat_map (brings R) (map (fun i => mtu_datagram pk (n_frags (zlen b) max) (Z.of_nat i) (chunk b max i)) (seq k n)) = []) as H.
  { induction n as [|n IH]; intros k Hk Hl; [reflexivity|]. cbn [seq map flat_map]. rewrite (brings_cut R max pk b k Hm O) by lia. destruct k; [lia|]. cbn [app]. apply IH; lia. }
  destruct (Z.to_nat (n_frags (zlen b) max)) as [|m] eqn:Em; [lia|]. cbn [seq map flat_map]. rewrite (brings_cut R max pk b 0 Hm O) by lia. rewrite H by lia. apply app_nil_r.
Qed.

(** one parcel, of which the datagrams [r] were received *)
Lemma parcel_brings max c ps R r : 0 < max <= 2147483647 -> parcel_ok max c -> holds c ps ->
  (forall d f, In d R -> as_fragment d = Some f -> parcel_key c = [f_pkid f] -> In d (grams max c)) ->
  some_of r (grams max c) -> some_of (flat_map (brings R) r) (map collector_pack ps) /\
    (incl (grams max c) R -> Permutation r (grams max c) -> Permutation (flat_map (brings R) r) (map collector_pack ps)).
Proof.
  intros Hm O (B & Sa) Own Sm.
  assert (some_of (flat_map (brings R) r) (flat_map (brings R) (grams max c))) as S1.
  { destruct Sm as (q & Q). exists (flat_map (brings R) q). rewrite <- flat_map_app. apply flat_map_perm, Q. }
  assert ((flat_map (brings R) (grams max c) = map collector_pack ps \/ flat_map (brings R) (grams max c) = []) /\ (incl (grams max c) R -> flat_map (brings R) (grams max c) = map collector_pack ps)) as (E & F).
  { destruct c as [b|g|pk b]; cbn [grams bufs flat_map] in *.
    - destruct ps as [|p [|? ?]]; try discriminate B. injection B as ->. inversion_clear Sa as [|? ? (G & N) _].
      rewrite brings_one, one_decoded by assumption. rewrite app_nil_r. split; [left; reflexivity|reflexivity].
    - rewrite (brings_many R g ps B Sa O), app_nil_r. split; [left; reflexivity|reflexivity].
    - destruct ps as [|p [|? ?]]; try discriminate B. injection B as ->. inversion_clear Sa as [|? ? (G & N) _].
      rewrite (brings_cut_all R max pk _ Hm O).
      destruct (cut_reassembles max pk _ R Hm O) as [(-> & _)|(-> & NI)].
      + intros d f I Ef <-. apply (Own d f I Ef). reflexivity.
      + rewrite one_decoded by assumption. split; [left; reflexivity|reflexivity].
      + split; [right; reflexivity|]. intros I. destruct (NI I). }
  split.
  - destruct E as [E|E]; rewrite E in S1; [exact S1|]. destruct S1 as (q & Q). apply Permutation_sym, Permutation_nil, app_eq_nil in Q as (-> & _). apply some_nil.
  - intros I P. rewrite <- (F I). apply flat_map_perm, P.
Qed.

Lemma parcels_bring max R cs : forall pss r, 0 < max <= 2147483647 -> Forall (parcel_ok max) cs -> Forall2 holds cs pss ->
  (forall c d f, In c cs -> In d R -> as_fragment d = Some f -> parcel_key c = [f_pkid f] -> In d (grams max c)) ->
  some_of r (flat_map (grams max) cs) -> some_of (flat_map (brings R) r) (map collector_pack (concat pss)) /\
    (incl (flat_map (grams max) cs) R -> Permutation r (flat_map (grams max) cs) -> Permutation (flat_map (brings R) r) (map collector_pack (concat pss))).
Proof.
  intros pss r Hm O H. revert r. induction H as [|c ps cs pss Hc H IH]; intros r Own (q & Q).
  - cbn [flat_map] in Q. apply Permutation_sym, Permutation_nil, app_eq_nil in Q as (-> & ->). split; [apply some_nil|]. intros _ _. reflexivity.
  - inversion_clear O as [|? ? O1 O2]. cbn [flat_map] in Q. apply perm_split in Q. destruct Q as (r1 & r2 & q1 & q2 & E1 & E2 & E3 & E4).
    destruct (parcel_brings max c ps R r1 Hm O1 Hc) as (S1 & T1); [intros d f; apply Own; left; reflexivity|exists q1; symmetry; exact E3|].
    destruct (IH O2 r2) as (S2 & T2); [intros c' d f I; apply Own; right; exact I|exists q2; symmetry; exact E4|].
    cbn [concat]. rewrite map_app. split.
    + eapply some_perm; [|reflexivity|apply some_app; [exact S1|exact S2]]. rewrite <- flat_map_app. apply flat_map_perm. symmetry. exact E1.
    + cbn [flat_map]. intros I P. assert (q1 ++ q2 = []) as Eq.
      { pose proof (Permutation_length P) as L. pose proof (Permutation_length E1) as L1. pose proof (Permutation_length E3) as L3. pose proof (Permutation_length E4) as L4.
        rewrite !app_length in *. destruct (q1 ++ q2) eqn:Z; [reflexivity|]. apply (f_equal (@length bytes)) in Z. rewrite app_length in Z. cbn [length] in Z. lia. }
      apply app_eq_nil in Eq as (-> & ->). rewrite app_nil_r in E3, E4.
      rewrite (flat_map_perm _ _ _ E1), flat_map_app. apply Permutation_app.
      * apply T1; [intros d I'; apply I, in_or_app; left; exact I'|symmetry; exact E3].
      * apply T2; [intros d I'; apply I, in_or_app; right; exact I'|symmetry; exact E4].
Qed.

(** everything that was put on the way, in parcels with different keys *)
Lemma collector_reads max cs pss received : 0 < max <= 2147483647 -> Forall (parcel_ok max) cs -> Forall2 holds cs pss -> NoDup (flat_map parcel_key cs) ->
  some_of received (flat_map (grams max) cs) ->
  some_of (collector received) (map collector_pack (concat pss)) /\
  (Permutation received (flat_map (grams max) cs) -> Permutation (collector received) (map collector_pack (concat pss))).
Proof.
  intros Hm O H N S. unfold collector.
  assert (forall c d f, In c cs -> In d received -> as_fragment d = Some f -> parcel_key c = [f_pkid f] -> In d (grams max c)) as Own.
  { intros c d f Ic Id Ef Ek. pose proof (some_in _ _ _ S Id) as I. apply in_flat_map in I as (c' & Ic' & Id'). rewrite Forall_forall in O.
    pose proof (gram_key max c' d f Hm (O c' Ic') Id' Ef) as Ek'.
    assert (c = c') as ->; [|exact Id']. clear - N Ic Ic' Ek Ek'. induction cs as [|x cs IH]; [destruct Ic|]. cbn [flat_map] in N.
    assert (forall c, In c cs -> parcel_key c = [f_pkid f] -> In (f_pkid f) (flat_map parcel_key cs)) as M by (intros c0 I0 E0; apply in_flat_map; exists c0; rewrite E0; split; [exact I0|left; reflexivity]).
    destruct Ic as [<- | Ic], Ic' as [<- | Ic']; try reflexivity.
    - rewrite Ek in N. cbn [app] in N. apply NoDup_cons_iff in N as (N & _). destruct (N (M c' Ic' Ek')).
    - rewrite Ek' in N. cbn [app] in N. apply NoDup_cons_iff in N as (N & _). destruct (N (M c Ic Ek)).
    - apply IH; try assumption. clear - N. induction (parcel_key x) as [|k l IH]; [exact N|]. cbn [app] in N. apply NoDup_cons_iff in N as (_ & N). apply IH, N. }
  destruct (parcels_bring max received cs pss received Hm O H Own S) as (A & B). split; [exact A|]. intros P. apply B; [|exact P].
  intros d I. eapply Permutation_in; [symmetry; exact P|exact I].
Qed.

(* ------------------------------------------------------------------ *)
(** * What the sender goroutine and the direct goroutines make *)
Lemma good_frags max b : 0 < max -> good max b -> n_frags (zlen b) max <= 32767.
Proof.
  intros Hm (Hn & Hl). assert (zlen b <> 0) as Hz by (destruct b; [congruence|]; rewrite zlen_cons; pose proof (zlen_nonneg b); lia). pose proof (zlen_nonneg b) as Hp.
  pose proof (n_frags_bounds (zlen b) max Hm Hp) as (B1 & _ & _). replace (zlen b =? 0) with false in B1 by lia. nia.
Qed.
Lemma single_parcel max pk b : 0 < max <= 2147483647 -> in_int64 pk -> good max b ->
  exists c, write_buffer max pk b = Some (grams max c) /\ bufs c = [b] /\ parcel_ok max c /\ (parcel_key c = [] \/ parcel_key c = [pk]).
Proof.
  intros Hm Hp G. unfold write_buffer. destruct (max <? zlen b) eqn:E.
  - exists (Cut pk b). rewrite write_mtu_map by lia. split; [reflexivity|]. split; [reflexivity|]. split; [split; [exact Hp|split; [apply G|split; [apply good_frags; [lia|exact G]|lia]]]|right; reflexivity].
  - exists (One b). rewrite single_bytes. split; [reflexivity|]. split; [reflexivity|]. split; [exact I|left; reflexivity].
Qed.
Lemma batches max items : Forall (item_ok max) items -> flat_map item_big items = [] -> Forall (fun it => zlen (item_bufs it) <= 32767) items ->
  exists cs, flat_map item_wire items = flat_map (grams max) cs /\ flat_map bufs cs = flat_map item_bufs items /\ Forall (parcel_ok max) cs /\ flat_map parcel_key cs = [].
Proof.
  induction items as [|it items IH]; intros O B L; [exists []; repeat split; constructor|]. inversion_clear O as [|? ? O1 O2]. inversion_clear L as [|? ? L1 L2].
  cbn [flat_map] in B. apply app_eq_nil in B as (B1 & B2). destruct (IH O2 B2 L2) as (cs & W & E & P & K). destruct it as [g|fs b]; [|discriminate].
  exists (Many g :: cs). cbn [flat_map item_wire item_bufs grams bufs parcel_key app]. rewrite W, E, K. split; [reflexivity|]. split; [reflexivity|]. split; [constructor; [exact L1|exact P]|reflexivity].
Qed.
Lemma list_parcels max pkids held : 0 < max <= 2147483647 -> (forall n, in_int64 (pkids n)) -> Forall (good max) held -> held_ok max held -> zlen held <= 32767 ->
  exists cs, write_buffer_list max pkids held = Some (flat_map (grams max) cs) /\ flat_map bufs cs = held /\ Forall (parcel_ok max) cs /\
    (flat_map parcel_key cs = [] \/ flat_map parcel_key cs = [pkids O]).
Proof.
  intros Hm Hp G Hh Hl.
  assert ((forall b, In b held -> zlen b <= max) \/ exists b, held = [b] /\ max < zlen b) as [Hs|(b & -> & Hb)].
  { destruct Hh as [(b & ->)|Hh]; [destruct (Z.le_gt_cases (zlen b) max) as [H|H]; [left; intros x [<- | []]; exact H|right; exists b; split; [reflexivity|exact H]]|].
    left. intros b I. pose proof (total_len_in b held I). lia. }
  - assert (Forall (fun b => b <> []) held) as Hne by (eapply Forall_impl; [|exact G]; intros b Hb; apply Hb).
    destruct (write_buffer_list_items max pkids held Hm Hp Hne Hl) as (items & -> & Hok & Hsm & Hb & Hz).
    assert (forall x, In x held -> small max x = true) as Hall by (intros x Hx; pose proof (Hs x Hx); unfold small; lia).
    rewrite (filter_none (fun b => negb (small max b))) in Hb by (intros x Hx; rewrite Hall by assumption; reflexivity).
    destruct (batches max items Hok Hb Hz) as (cs & W & E & P & K). exists cs. rewrite W. split; [reflexivity|]. split; [|split; [exact P|left; exact K]].
    rewrite E, (items_only_small max) by assumption. rewrite Hsm. apply filter_all, Hall.
  - inversion_clear G as [|? ? Gb _]. exists [Cut (pkids O) b]. cbn [flat_map grams bufs parcel_key app]. rewrite app_nil_r. split.
    + unfold write_buffer_list. cbn [buffer_loop]. replace (max <? zlen b) with true by lia. rewrite write_mtu_map by lia. cbn match. change (0 <? get_write_size new_dout) with false. cbn match.
      rewrite app_nil_r. reflexivity.
    + split; [reflexivity|]. split; [constructor; [|constructor]|right; reflexivity]. split; [apply Hp|]. split; [apply Gb|split; [apply good_frags; [lia|exact Gb]|exact Hb]].
Qed.
Lemma send_list_parcels max pkids held : 0 < max <= 2147483647 -> (forall n, in_int64 (pkids n)) -> Forall (good max) held -> held_ok max held -> zlen held <= 32767 ->
  exists cs, send_list max pkids held = Some (flat_map (grams max) cs) /\ flat_map bufs cs = held /\ Forall (parcel_ok max) cs /\
    (flat_map parcel_key cs = [] \/ flat_map parcel_key cs = [pkids O]).
Proof.
  intros Hm Hp G Hh Hl. destruct held as [|b [|b' held]]; cbn [send_list].
  - exists []. repeat split; [constructor|left; reflexivity].
  - inversion_clear G as [|? ? Gb _]. destruct (single_parcel max (pkids O) b Hm (Hp O) Gb) as (c & E & B & O & K). exists [c]. cbn [flat_map]. rewrite !app_nil_r.
    split; [exact E|]. split; [exact B|]. split; [constructor; [exact O|constructor]|exact K].
  - apply list_parcels; assumption.
Qed.
Lemma sender_parcels qcap max pkids s s' done : 0 < max <= 2147483647 -> qcap <= 32767 -> (forall n, in_int64 (pkids n)) -> uinv qcap max s done -> sender_step max pkids s = Some s' ->
  exists cs, wire s' = wire s ++ flat_map (grams max) cs /\ held_of s ++ queue s = flat_map bufs cs ++ held_of s' ++ queue s' /\ Forall (parcel_ok max) cs /\
    (flat_map parcel_key cs = [] \/ flat_map parcel_key cs = [pkids O]).
Proof.
  intros Hm Hq Hp [D A G C H St]. unfold sender_step. unfold held_of in *. destruct (snd_state s) as [|[|n] held size] eqn:Es.
  - destruct (queue s) as [|b [|b' q]] eqn:Eq.
    + intros [= <-]. exists []. rewrite Es, Eq. cbn [flat_map]. rewrite app_nil_r. repeat split; [constructor|left; reflexivity].
    + inversion_clear G as [|? ? Gb _]. destruct (single_parcel max (pkids O) b Hm (Hp O) Gb) as (c & E & B & O & K). rewrite E. intros [= <-]. cbn [wire queue snd_state app].
      exists [c]. cbn [flat_map]. rewrite !app_nil_r. split; [reflexivity|]. split; [symmetry; exact B|]. split; [constructor; [exact O|constructor]|exact K].
    + intros [= <-]. cbn [wire queue snd_state app]. exists []. cbn [flat_map app]. rewrite app_nil_r. repeat split; [constructor|left; reflexivity].
  - destruct St as (S1 & S2 & S3). apply Forall_app in G as [G1 G2]. destruct (list_parcels max pkids held Hm Hp G1 H ltac:(lia)) as (cs & E & B & O & K). rewrite E. intros [= <-].
    cbn [wire queue snd_state app]. exists cs. split; [reflexivity|]. split; [rewrite B; reflexivity|]. split; assumption.
  - destruct St as (S1 & S2 & S3). apply Forall_app in G as [G1 G2]. destruct (queue s) as [|b q] eqn:Eq; [cbn [length] in S1; lia|].
    destruct (max <=? size + zlen b).
    + destruct (send_list_parcels max pkids held Hm Hp G1 H ltac:(lia)) as (cs & E & B & O & K). rewrite E. intros [= <-]. cbn [wire queue snd_state]. exists cs.
      split; [reflexivity|]. split; [rewrite B; reflexivity|]. split; assumption.
    + intros [= <-]. cbn [wire queue snd_state]. exists []. cbn [flat_map app]. rewrite app_nil_r, <- app_assoc. repeat split; [constructor|left; reflexivity].
Qed.

(** the sender goroutine does something unless it is idle with an empty queue *)
Definition effort (s : usys) : nat := match snd_state s with Idle => 3 * length (queue s) | Sending k _ _ => 2 * k + 1 + 3 * (length (queue s) - k) end.
Lemma sender_effort qcap max pkids s done : 0 < max <= 2147483647 -> qcap <= 32767 -> (forall n, in_int64 (pkids n)) -> uinv qcap max s done -> (queue s <> [] \/ snd_state s <> Idle) ->
  exists s', sender_step max pkids s = Some s' /\ (effort s' < effort s)%nat.
Proof.
  intros Hm Hq Hp I B. destruct (uinv_step qcap max pkids s done Hm Hq Hp I) as (s' & d' & E & _). exists s'. split; [exact E|]. pose proof (ui_st _ _ _ _ I) as St. clear I.
  unfold sender_step in E. unfold effort. destruct (snd_state s) as [|[|n] h z] eqn:Es.
  - destruct (queue s) as [|b [|b' q]]; [destruct B; congruence| |].
    + destruct (write_buffer max (pkids O) b); [|discriminate]. injection E as <-. cbn [snd_state queue length]. lia.
    + injection E as <-. cbn [snd_state queue length]. lia.
  - destruct (write_buffer_list max pkids h); [|discriminate]. injection E as <-. cbn [snd_state queue]. lia.
  - destruct (queue s) as [|b q]; [cbn [length] in St; lia|]. destruct (max <=? z + zlen b).
    + destruct (send_list max pkids h); [|discriminate]. injection E as <-. cbn [snd_state queue length] in *. lia.
    + injection E as <-. cbn [snd_state queue length] in *. lia.
Qed.

(* ------------------------------------------------------------------ *)
(** * Sublists *)
Lemma part_snoc {A} (x : A) sub l : part_of sub l -> part_of (sub ++ [x]) (l ++ [x]).
Proof. induction 1; cbn [app]; [apply part_keep, part_nil|apply part_keep; assumption|apply part_drop; assumption]. Qed.
Lemma part_snoc_drop {A} (x : A) sub l : part_of sub l -> part_of sub (l ++ [x]).
Proof. induction 1; cbn [app]; [apply part_drop, part_nil|apply part_keep; assumption|apply part_drop; assumption]. Qed.
Lemma part_Forall {A} (P : A -> Prop) m l : part_of m l -> Forall P l -> Forall P m.
Proof. induction 1; intros F; [constructor| |]; inversion_clear F; [constructor|]; auto. Qed.
Lemma part_nil_l {A} (l : list A) : part_of [] l.
Proof. induction l; [apply part_nil|apply part_drop; assumption]. Qed.
Lemma part_trans {A} (m l : list A) : part_of m l -> forall k, part_of k m -> part_of k l.
Proof.
  induction 1 as [|x m l H IH|x m l H IH]; intros k P; [exact P| |apply part_drop, IH, P].
  inversion P; subst; [apply part_keep|apply part_drop]; apply IH; assumption.
Qed.
Lemma part_prefix {A} (a b : list A) : part_of a (a ++ b).
Proof. induction a; cbn [app]; [apply part_nil_l|apply part_keep; assumption]. Qed.
Lemma part_some {A} (m l : list A) : part_of m l -> some_of m l.
Proof.
  induction 1 as [|x m l H (r & R)|x m l H (r & R)]; [apply some_nil|exists r; cbn [app]; constructor; exact R|exists (x :: r)].
  rewrite <- R. symmetry. apply Permutation_middle.
Qed.
Lemma part_length {A} (m l : list A) : part_of m l -> length m = length l -> m = l.
Proof.
  assert (forall m l : list A, part_of m l -> (length m <= length l)%nat) as L by (induction 1; cbn [length]; lia).
  induction 1 as [|x m0 l0 H IH|x m0 l0 H IH]; intros E; [reflexivity|f_equal; apply IH; cbn [length] in E; lia|].
  apply L in H. cbn [length] in E. lia.
Qed.
Lemma prefix_map {A B} (f : A -> B) l : forall a b, map f l = a ++ b -> exists k1 k2, l = k1 ++ k2 /\ a = map f k1 /\ b = map f k2.
Proof.
  induction l as [|x l IH]; intros a b E.
  - destruct a; [|discriminate]. exists [], []. cbn [map app] in *. subst. auto.
  - destruct a as [|y a]; cbn [app map] in E; [exists [], (x :: l); subst; auto|]. injection E as E1 E2. destruct (IH _ _ E2) as (k1 & k2 & -> & -> & ->). exists (x :: k1), k2. subst. auto.
Qed.
Lemma parcels_hold cs : forall kept tail, map bytes_of kept = flat_map bufs cs ++ tail -> Forall sane kept ->
  exists pss k2, kept = concat pss ++ k2 /\ Forall2 holds cs pss /\ tail = map bytes_of k2.
Proof.
  induction cs as [|c cs IH]; intros kept tail E S; cbn [flat_map app] in E.
  - exists [], kept. split; [reflexivity|]. split; [constructor|symmetry; exact E].
  - rewrite <- app_assoc in E. apply prefix_map in E as (k1 & k2 & -> & E1 & E2). apply Forall_app in S as (S1 & S2). destruct (IH _ _ (eq_sym E2) S2) as (pss & k3 & -> & H & ->).
    exists (k1 :: pss), k3. cbn [concat]. rewrite app_assoc. split; [reflexivity|]. split; [constructor; [split; assumption|exact H]|reflexivity].
Qed.

(* ------------------------------------------------------------------ *)
(** * The whole system *)
Record ninv (qcap max : Z) (qs ps : list pack) (s : netsys) (cq cd : list parcel) (kept : list pack) : Prop := {
  ni_u : exists done, uinv qcap max (x_u s) done;
  ni_acc : accepted (x_u s) = flat_map bufs cq ++ held_of (x_u s) ++ queue (x_u s);
  ni_kept : part_of kept qs;
  ni_keptb : accepted (x_u s) = map bytes_of kept;
  ni_drop : (length (dropped (x_u s)) + length kept = length qs)%nat;
  ni_dir : Forall2 (fun c p => bufs c = [bytes_of p]) cd ps;
  ni_qs : Forall (proper max) qs;
  ni_ps : Forall (proper max) ps;
  ni_okq : Forall (parcel_ok max) cq;
  ni_okd : Forall (parcel_ok max) cd;
  ni_keys : NoDup (flat_map parcel_key cq ++ flat_map parcel_key cd);
  ni_made : Permutation (x_made s) (flat_map (grams max) cq ++ flat_map (grams max) cd);
  ni_where : Permutation (map snd (x_sent s ++ x_lost s ++ x_uout s ++ concat (x_jobs s))) (x_made s)
}.

Lemma parcel_in_keys max cs k : 0 < max <= 2147483647 -> Forall (parcel_ok max) cs -> In k (flat_map parcel_key cs) -> In k (keys_of (flat_map (grams max) cs)).
Proof.
  intros Hm O I. apply in_flat_map in I as (c & Ic & Ik). rewrite Forall_forall in O. pose proof (O c Ic) as Oc. destruct c as [b|g|pk b]; try destruct Ik. 2: destruct H.
  subst k. destruct Oc as (O1 & O2 & O3 & O4). pose proof (n_frags_pos b max ltac:(lia) O2) as Hn. unfold keys_of. apply in_flat_map.
  exists (mtu_datagram pk (n_frags (zlen b) max) (Z.of_nat 0) (chunk b max 0)). split.
  - apply in_flat_map. exists (Cut pk b). split; [exact Ic|]. apply in_map_iff. exists 0%nat. split; [reflexivity|apply in_seq; lia].
  - rewrite cut_frag by (try assumption; lia). left. reflexivity.
Qed.
Lemma keys_perm a b k : Permutation a b -> In k (keys_of a) -> In k (keys_of b).
Proof. intros P. unfold keys_of. apply Permutation_in, flat_map_perm, P. Qed.
Lemma skip_app {A} (a b : list A) : skipn (length a) (a ++ b) = b.
Proof. induction a; [reflexivity|exact IHa]. Qed.

(** new parcels with new keys *)
Lemma keys_join max made cq cd cs : 0 < max <= 2147483647 -> Forall (parcel_ok max) cq -> Forall (parcel_ok max) cd -> Forall (parcel_ok max) cs ->
  NoDup (flat_map parcel_key cq ++ flat_map parcel_key cd) -> Permutation made (flat_map (grams max) cq ++ flat_map (grams max) cd) ->
  (exists k, flat_map parcel_key cs = [] \/ flat_map parcel_key cs = [k]) ->
  (forall k, In k (keys_of (flat_map (grams max) cs)) -> ~ In k (keys_of made)) ->
  NoDup (flat_map parcel_key cs ++ flat_map parcel_key cq ++ flat_map parcel_key cd).
Proof.
  intros Hm Oq Od Os N P (k & [-> | E]) F; [exact N|]. rewrite E. cbn [app]. constructor; [|exact N]. intros I.
  apply (F k); [apply parcel_in_keys; [assumption|assumption|rewrite E; left; reflexivity]|].
  apply (keys_perm _ _ _ (Permutation_sym P)). unfold keys_of. rewrite flat_map_app. apply in_or_app. apply in_app_or in I as [I|I]; [left|right]; apply parcel_in_keys; assumption.
Qed.
Lemma put_where cd s rest : Permutation (map snd (x_sent (put_datagram cd s) ++ x_lost (put_datagram cd s) ++ rest)) (map snd (x_sent s ++ x_lost s ++ cd :: rest)).
Proof.
  apply Permutation_map. unfold put_datagram. destruct (usable s (fst cd)); cbn [x_sent x_lost].
  - rewrite <- !app_assoc. apply Permutation_app_head. cbn [app]. apply Permutation_middle.
  - rewrite <- !app_assoc. reflexivity.
Qed.
Lemma put_rest cd s : x_u (put_datagram cd s) = x_u s /\ x_uout (put_datagram cd s) = x_uout s /\ x_jobs (put_datagram cd s) = x_jobs s /\ x_made (put_datagram cd s) = x_made s /\ x_clients (put_datagram cd s) = x_clients s.
Proof. unfold put_datagram. destruct (usable s (fst cd)); repeat split; reflexivity. Qed.
Lemma job_split {A} i (jobs : list (list A)) x more : nth_error jobs i = Some (x :: more) ->
  Permutation (concat jobs) (x :: concat (firstn i jobs ++ more :: skipn (S i) jobs)).
Proof.
  revert i. induction jobs as [|j jobs IH]; intros [|i] E; cbn [nth_error] in E; try discriminate.
  - injection E as ->. reflexivity.
  - cbn [firstn skipn concat app]. rewrite (IH i E). symmetry. apply Permutation_middle.
Qed.

Lemma map_pair_snd {A B} (a : A) (l : list B) : map snd (map (pair a) l) = l.
Proof. rewrite map_map. cbn. apply map_id. Qed.

Lemma history_inv qcap max qs ps s : 0 < max <= 2147483647 -> qcap <= 32767 -> history qcap max qs ps s -> exists cq cd kept, ninv qcap max qs ps s cq cd kept.
Proof.
  intros Hm Hq H. induction H as [conn|qs ps p s H IH Pp|qs ps p pkid s s' H IH Pp Hk E F|qs ps pkids s s' H IH Hk E F|qs ps s H IH|qs ps i s H IH|qs ps conn s H IH|qs ps c s H IH].
  - exists [], [], []. constructor; try constructor; try reflexivity.
    cbn [net0 x_u]. exact (proj1 (iff_refl _) (ureach_inv qcap max usys0 Hm Hq (ur_init qcap max))).
  - destruct IH as (cq & cd & kept & I). destruct I as [(done & U) A K Kb D Di Q P Oq Od N M W]. pose proof Pp as (G & V & L).
    assert (good max (bytes_of p)) as Gb by (split; [apply bytes_nonempty; assumption|exact L]).
    pose proof (uinv_add qcap max (bytes_of p) _ _ Gb U) as U'.
    assert (Forall (proper max) (qs ++ [p])) as Q' by (apply Forall_app; split; [exact Q|constructor; [exact Pp|constructor]]).
    unfold net_add_pack in *. destruct (zlen (queue (x_u s)) <? qcap) eqn:Z.
    + exists cq, cd, (kept ++ [p]). constructor; cbn [x_u x_uout x_jobs x_sent x_lost x_made]; try assumption.
      * exists done. exact U'.
      * unfold add_buffer. rewrite Z. cbn [accepted queue]. rewrite A. unfold held_of. cbn [snd_state]. rewrite <- !app_assoc. reflexivity.
      * apply part_snoc, K.
      * unfold add_buffer. rewrite Z. cbn [accepted]. rewrite Kb, map_app. reflexivity.
      * unfold add_buffer. rewrite Z. cbn [dropped]. rewrite !app_length. cbn [length]. lia.
    + exists cq, cd, kept. constructor; cbn [x_u x_uout x_jobs x_sent x_lost x_made]; try assumption.
      * exists done. exact U'.
      * unfold add_buffer. rewrite Z. exact A.
      * apply part_snoc_drop, K.
      * unfold add_buffer. rewrite Z. exact Kb.
      * unfold add_buffer. rewrite Z. cbn [dropped]. rewrite !app_length. cbn [length]. lia.
  - destruct IH as (cq & cd & kept & I). destruct I as [(done & U) A K Kb D Di Q P Oq Od N M W]. pose proof Pp as (G & V & L).
    assert (good max (bytes_of p)) as Gb by (split; [apply bytes_nonempty; assumption|exact L]).
    destruct (single_parcel max pkid _ Hm Hk Gb) as (c & Ec & Bc & Oc & Kc). unfold net_direct in E. rewrite Ec in E. injection E as <-.
    unfold new_keys in F. cbn [x_made] in F. rewrite skip_app in F.
    exists cq, (cd ++ [c]), kept. constructor; cbn [x_u x_uout x_jobs x_sent x_lost x_made]; try assumption.
    * exists done. exact U.
    * apply Forall2_app; [exact Di|constructor; [exact Bc|constructor]].
    * apply Forall_app; split; [exact P|constructor; [exact Pp|constructor]].
    * apply Forall_app; split; [exact Od|constructor; [exact Oc|constructor]].
    * assert (NoDup (flat_map parcel_key [c] ++ flat_map parcel_key cq ++ flat_map parcel_key cd)) as N'.
      { apply (keys_join max (x_made s) cq cd [c]); try assumption; [constructor; [exact Oc|constructor]|exists pkid; cbn [flat_map]; rewrite app_nil_r; exact Kc|].
        cbn [flat_map]. rewrite app_nil_r. exact F. }
      eapply Permutation_NoDup; [|exact N']. rewrite flat_map_app, !app_assoc. rewrite <- app_assoc. apply Permutation_app_comm.
    * rewrite flat_map_app. cbn [flat_map]. rewrite app_nil_r, app_assoc. apply Permutation_app_tail, M.
    * rewrite concat_app. cbn [concat]. rewrite app_nil_r, !app_assoc, map_app, map_pair_snd. apply Permutation_app_tail. rewrite <- !app_assoc. exact W.
  - destruct IH as (cq & cd & kept & I). destruct I as [(done & U) A K Kb D Di Q P Oq Od N M W]. unfold net_sender in E.
    destruct (x_uout s) as [|? ?] eqn:Eo; [|injection E as <-; exists cq, cd, kept; constructor; try assumption; [exists done; exact U|rewrite Eo; exact W]].
    destruct (sender_step max pkids (x_u s)) as [u|] eqn:Eu; [|discriminate]. injection E as <-.
    destruct (sender_parcels qcap max pkids _ _ _ Hm Hq Hk U Eu) as (cs & Ew & Eb & Oc & Kc).
    destruct (uinv_step qcap max pkids _ _ Hm Hq Hk U) as (u' & d' & Eu' & U'). rewrite Eu in Eu'. injection Eu' as <-.
    assert (accepted u = accepted (x_u s) /\ dropped u = dropped (x_u s)) as (Ea & Ed).
    { clear - Eu. revert Eu. unfold sender_step. repeat match goal with |- context [match ?e with _ => _ end] => destruct e; try discriminate end; intros E; injection E as <-; cbn [accepted dropped]; auto. }
    rewrite Ew, skip_app in *. unfold new_keys in F. cbn [x_made] in F. rewrite skip_app in F.
    exists (cq ++ cs), cd, kept. constructor; cbn [x_u x_uout x_jobs x_sent x_lost x_made]; try assumption.
    * exists d'. exact U'.
    * rewrite Ea, A, Eb, flat_map_app, <- !app_assoc. reflexivity.
    * rewrite Ea. exact Kb.
    * rewrite Ed. exact D.
    * apply Forall_app; split; assumption.
    * assert (NoDup (flat_map parcel_key cs ++ flat_map parcel_key cq ++ flat_map parcel_key cd)) as N'
        by (apply (keys_join max (x_made s) cq cd cs); try assumption; exists (pkids O); exact Kc).
      eapply Permutation_NoDup; [|exact N']. rewrite flat_map_app, !app_assoc. apply Permutation_app_tail, Permutation_app_comm.
    * rewrite flat_map_app, M. rewrite <- !app_assoc. apply Permutation_app_head, Permutation_app_comm.
    * rewrite <- W. rewrite !map_app, map_pair_snd. cbn [map app]. rewrite <- !app_assoc. do 2 apply Permutation_app_head. apply Permutation_app_comm.
  - destruct IH as (cq & cd & kept & I). exists cq, cd, kept. destruct I as [U A K Kb D Di Q P Oq Od N M W]. unfold net_write_sender. destruct (x_uout s) as [|d more] eqn:Eo; [constructor; rewrite ?Eo; assumption|].
    set (s1 := mkNet _ _ _ _ _ _ _). destruct (put_rest d s1) as (R1 & R2 & R3 & R4 & R5). constructor; rewrite ?R1, ?R2, ?R3, ?R4; subst s1; cbn [x_u x_uout x_jobs x_sent x_lost x_made]; try assumption.
    rewrite put_where. exact W.
  - destruct IH as (cq & cd & kept & I). exists cq, cd, kept. destruct I as [U A K Kb D Di Q P Oq Od N M W]. unfold net_write_job. destruct (nth_error (x_jobs s) i) as [[|d more]|] eqn:Eo; try (constructor; assumption).
    set (s1 := mkNet _ _ _ _ _ _ _). destruct (put_rest d s1) as (R1 & R2 & R3 & R4 & R5). constructor; rewrite ?R1, ?R2, ?R3, ?R4; subst s1; cbn [x_u x_uout x_jobs x_sent x_lost x_made]; try assumption.
    rewrite put_where. etransitivity; [|exact W]. apply Permutation_map. cbn [x_sent x_lost]. do 2 apply Permutation_app_head. rewrite (job_split _ _ _ _ Eo). apply Permutation_middle.
  - destruct IH as (cq & cd & kept & I). exists cq, cd, kept. destruct I as [U A K Kb D Di Q P Oq Od N M W]. constructor; assumption.
  - destruct IH as (cq & cd & kept & I). exists cq, cd, kept. destruct I as [U A K Kb D Di Q P Oq Od N M W]. unfold net_close. destruct (c <? current s)%nat; [|constructor; assumption]. destruct (nth_error (x_clients s) c); constructor; assumption.
Qed.
