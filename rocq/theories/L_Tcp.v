(** Lemmas about the command connection. *)
From Verif Require Import GoInt M_OutX M_InX M_Value M_Packs M_Access M_Dump M_Conf M_Tcp S_Wire S_Dump S_Tcp L_Codec L_Value L_Dump.

(** * Segmentation *)

Lemma cut_drop n : forall r k, (n <= length (concat r))%nat -> cut_at (rd_drop n r) k -> (0 < k)%nat -> cut_at r (n + k).
Proof.
  intros r. revert n. induction r as [|s r IH]; intros n k Hn (r1 & r2 & E & Ek) Hk; cbn [rd_drop concat] in *.
  - cbn in Hn. destruct r1; [cbn in Ek; lia|discriminate].
  - destruct (n <=? length s)%nat eqn:El.
    + apply Nat.leb_le in El. destruct r1 as [|s1 r1]; [cbn in Ek; lia|]. cbn [app] in E. inversion E; subst.
      exists (s :: r1), r2. split; [reflexivity|]. cbn [concat]. rewrite !app_length, skipn_length. lia.
    + apply Nat.leb_gt in El. rewrite app_length in Hn.
      destruct (IH (n - length s)%nat k) as (a & b & E' & Ek'); [lia|exists r1, r2; auto|exact Hk|].
      exists (s :: a), b. split; [cbn; congruence|]. cbn [concat]. rewrite app_length. lia.
Qed.

(** a reader that is not cut inside its first [length p] bytes hands them out in one read *)
Lemma rd_read_unsplit p : forall r rest, concat r = p ++ rest -> (forall k, cut_at r k -> ~ (0 < k < length p)%nat) ->
  exists r', rd_read (zlen p) r = (p, None, r') /\ concat r' = rest /\ (forall k, (0 < k)%nat -> cut_at r' k -> cut_at r (length p + k)).
Proof.
  destruct p as [|x p].
  - intros r rest E _. exists r. cbn [length app] in *. split; [|split; [exact E|auto]].
    destruct r as [|s r]; reflexivity.
  - intros r rest E Hc. assert (zlen (x :: p) =? 0 = false) as Hz by (rewrite zlen_cons; pose proof (zlen_nonneg p); lia).
    revert E Hc. induction r as [|s r IH]; intros E Hc; [discriminate|]. cbn [rd_read]. rewrite Hz. destruct s as [|y s].
    + destruct IH as (r' & A & B & C); [exact E|intros k (r1 & r2 & -> & Ek); apply Hc; exists ([] :: r1), r2; auto|].
      exists r'. split; [exact A|]. split; [exact B|]. intros k Hk Hr. destruct (C k Hk Hr) as (r1 & r2 & -> & Ek). exists ([] :: r1), r2. auto.
    + assert (length (x :: p) <= length (y :: s))%nat as Hl.
      { destruct (Nat.le_gt_cases (length (x :: p)) (length (y :: s))) as [H|H]; [exact H|exfalso].
        apply (Hc (length (y :: s))); [exists [y :: s], r; split; [reflexivity|cbn [concat]; rewrite app_nil_r; reflexivity]|].
        cbn [length] in *. lia. }
      unfold zlen. rewrite Nat2Z.id. cbn [concat] in E.
      assert (firstn (length (x :: p)) (y :: s) = x :: p) as Ef.
      { assert (firstn (length (x :: p)) ((y :: s) ++ concat r) = x :: p) as F by (rewrite E, firstn_app, firstn_all, Nat.sub_diag; cbn; rewrite app_nil_r; reflexivity).
        rewrite firstn_app in F. replace (length (x :: p) - length (y :: s))%nat with O in F by lia.
        rewrite (firstn_O (concat r)), app_nil_r in F. exact F. }
      exists (skipn (length (x :: p)) (y :: s) :: r). split; [rewrite Ef; reflexivity|]. split.
      * cbn [concat]. assert (skipn (length (x :: p)) ((y :: s) ++ concat r) = rest) as F by (rewrite E, skipn_app, skipn_all, Nat.sub_diag; reflexivity).
        rewrite skipn_app in F. replace (length (x :: p) - length (y :: s))%nat with O in F by lia. exact F.
      * intros k Hk Hr. apply (cut_drop (length (x :: p)) ((y :: s) :: r)); [cbn [concat]; rewrite app_length; lia| |exact Hk].
        cbn [rd_drop]. assert ((length (x :: p) <=? length (y :: s))%nat = true) as -> by (apply Nat.leb_le; exact Hl). exact Hr.
Qed.

Lemma read_frame p r rest : zlen p <= 2147483647 -> concat r = frame p ++ rest ->
  (forall k, cut_at r k -> ~ (4 < k < 4 + length p)%nat) ->
  exists r', read_int_bytes r = Ret p None r' /\ concat r' = rest /\ (forall k, (0 < k)%nat -> cut_at r' k -> cut_at r (length (frame p) + k)).
Proof.
  intros Hz E Hc. unfold frame in *. rewrite <- app_assoc in E.
  unfold read_int_bytes, read_int32, read_fixed.
  assert (length (concat r) = 4 + length (p ++ rest))%nat as Hlen by (rewrite E, app_length, be_length; reflexivity).
  unfold read_full. destruct (4 <=? length (concat r))%nat eqn:El; [|apply Nat.leb_gt in El; lia].
  assert (firstn 4 (concat r) = be 4 (zlen p)) as Ef.
  { rewrite E, firstn_app, be_length, Nat.sub_diag, firstn_O, app_nil_r. apply firstn_all2. rewrite be_length. lia. }
  rewrite Ef. cbn [bind].
  assert (int32 (unbe (be 4 (zlen p))) = zlen p) as ->.
  { rewrite unbe_be. pose proof (zlen_nonneg p).
    rewrite Z.mod_small by (change (256 ^ Z.of_nat 4) with 4294967296; lia). apply int32_id. unfold in_int32. lia. }
  assert (concat (rd_drop 4 r) = p ++ rest) as Ed.
  { rewrite rd_drop_concat by lia. rewrite E. rewrite skipn_app, be_length, Nat.sub_diag.
    rewrite skipn_all2 by (rewrite be_length; lia). reflexivity. }
  destruct (rd_read_unsplit p (rd_drop 4 r) rest Ed) as (r' & A & B & C).
  { intros k Hk F. destruct (Nat.eq_dec k 0) as [->|N]; [lia|]. apply (Hc (4 + k)%nat); [|lia]. apply cut_drop; [lia|exact Hk|lia]. }
  unfold read_bytes, read_n. pose proof (zlen_nonneg p). replace (zlen p <? 0) with false by lia. rewrite A.
  exists r'. split; [|split; [exact B|]].
  - f_equal. unfold zlen. rewrite Nat2Z.id, Nat.sub_diag. cbn [repeat]. apply app_nil_r.
  - intros k Hk Hr. rewrite app_length, be_length. rewrite <- Nat.add_assoc.
    apply cut_drop; [lia|apply C; assumption|lia].
Qed.

Lemma read_end r : concat r = [] -> exists r', read_int_bytes r = Ret [] None r' /\ concat r' = [].
Proof.
  intro E. unfold read_int_bytes, read_int32, read_fixed, read_full. rewrite E. cbn [length Nat.leb bind read_bytes read_n Z.ltb Z.compare].
  unfold read_bytes, read_n. cbn [Z.ltb Z.compare rd_read Z.eqb Z.to_nat Nat.sub length repeat app]. eauto.
Qed.

Lemma frame_length p : length (frame p) = (4 + length p)%nat.
Proof. unfold frame. rewrite app_length, be_length. reflexivity. Qed.

Lemma carries_tail r p ps : carries r (p :: ps) -> unsplit r (p :: ps) ->
  exists r', read_int_bytes r = Ret p None r' /\ carries r' ps /\ unsplit r' ps.
Proof.
  intros [E F] U. inversion F; subst. cbn [map concat] in E.
  destruct (read_frame p r (concat (map frame ps))) as (r' & A & B & C); [assumption|exact E| |].
  { intros k Hk. exact (U [] p ps k eq_refl Hk). }
  exists r'. split; [exact A|]. split; [split; assumption|].
  intros ps1 q ps2 k -> Hk. cbv zeta. intro K.
  apply (U (p :: ps1) q ps2 (length (frame p) + k)%nat); [reflexivity|apply C; [lia|exact Hk]|].
  cbv zeta. cbn [map concat]. rewrite app_length. lia.
Qed.

Lemma handle_frame_nil h s : handle_frame h [] s = FError.
Proof. reflexivity. Qed.

Lemma process_carries me its : forall r r' ps s, carries r ps -> unsplit r ps -> carries r' ps -> unsplit r' ps ->
  process_loop me its r s = process_loop me its r' s.
Proof.
  induction its as [|[ops h] its IH]; intros r r' ps s C U C' U'; cbn [process_loop]; [reflexivity|].
  destruct (conf_run ops (hs_conf s)) as [c|]; [|reflexivity].
  destruct (identity_eqb me (identity (c_conf c))); [|reflexivity].
  destruct ps as [|p ps].
  - destruct C as [E _], C' as [E' _]. cbn in E, E'.
    destruct (read_end r E) as (q & -> & _), (read_end r' E') as (q' & -> & _).
    rewrite handle_frame_nil. reflexivity.
  - destruct (carries_tail r p ps C U) as (q & -> & Cq & Uq), (carries_tail r' p ps C' U') as (q' & -> & Cq' & Uq').
    destruct (handle_frame h p (set_conf c s)) as [s'' bs| |]; [|reflexivity|reflexivity].
    rewrite (IH q q' ps s'' Cq Uq Cq' Uq'). reflexivity.
Qed.

(** one segment per frame *)
Lemma whole_unsplit ps : unsplit (map frame ps) ps.
Proof.
  intros ps1 p ps2 k E (r1 & r2 & Er & Ek). cbv zeta. intro K.
  assert (exists a b, ps = a ++ b /\ r1 = map frame a) as (a & b & Eab & ->).
  { clear - Er. revert r1 r2 Er. induction ps as [|q ps IH]; intros r1 r2 Er.
    - destruct r1; [|discriminate]. exists [], []. auto.
    - destruct r1 as [|s r1]; [exists [], (q :: ps); auto|]. cbn in Er. inversion Er; subst.
      destruct (IH _ _ H1) as (a & b & -> & ->). exists (q :: a), b. auto. }
  subst ps. clear Er.
  revert ps1 Eab k Ek K. induction a as [|q a IH]; intros ps1 Eab k Ek K.
  - cbn in Ek. subst k. lia.
  - destruct ps1 as [|q1 ps1].
    + cbn [app map concat length] in *. injection Eab as <- _. rewrite app_length, frame_length in Ek. lia.
    + cbn [app map concat] in *. injection Eab as <- Eab.
      rewrite app_length in *. apply (IH ps1 Eab (length (concat (map frame a)))); [reflexivity|lia].
Qed.

(** * Responses *)

Lemma writes_response_pack q : forall w bs, writes w bs ->
  response (w new_dout) (Some q) = bs ++ be 1 3 ++ frame (buf (write_pack q new_dout)) ++ be 1 4.
Proof.
  intros w bs Hw. unfold response.
  rewrite (writes_buf (fun o => write_uint8 NoNEXT (write_int_bytes (buf (write_pack q new_dout)) (write_uint8 HasNEXT (w o)))) (bs ++ be 1 3 ++ frame (buf (write_pack q new_dout)) ++ be 1 4)); [reflexivity|].
  replace (bs ++ be 1 3 ++ frame (buf (write_pack q new_dout)) ++ be 1 4) with (((bs ++ be 1 3) ++ frame (buf (write_pack q new_dout))) ++ be 1 4) by (rewrite <- !app_assoc; reflexivity).
  apply (writes_comp (fun o => write_int_bytes (buf (write_pack q new_dout)) (write_uint8 HasNEXT (w o)))); [|apply writes_uint8].
  apply (writes_comp (fun o => write_uint8 HasNEXT (w o))); [|apply writes_int_bytes].
  apply (writes_comp w); [exact Hw|apply writes_uint8].
Qed.
