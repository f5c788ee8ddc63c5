(** Properties C10 .. C15: packs, steps, accessors. *)
From Verif Require Import GoInt M_OutX M_InX M_Value M_Packs M_Steps M_Access S_Wire S_Value S_Packs S_Steps
  L_Codec L_Value L_Packs L_Access.
From Coq Require Import ZifyBool.

(** ** C10 *)
Theorem C10_packs_reread rest :
  (forall m, is_map m = true -> readable_map m = true ->
     read_map_pack (buffer (buf (write_map_pack m new_dout) ++ rest)) = Ret m None (buffer rest)) /\
  (forall p, go_perf_pack p = true -> readable_perf_pack p = true ->
     read_perf_pack (buffer (buf (write_perf_pack p new_dout) ++ rest)) = Ret p None (buffer rest)) /\
  (forall p, go_k8s_pack p = true -> readable_k8s_pack p = true ->
     read_k8s_pack (buffer (buf (write_k8s_pack p new_dout) ++ rest)) = Ret p None (buffer rest)) /\
  (forall p, go_object_pack2 p = true -> readable_object_pack2 p = true ->
     read_object_pack2 (buffer (buf (write_object_pack2 p new_dout) ++ rest)) = Ret p None (buffer rest)) /\
  (forall p, go_object_pack p = true -> readable_object_pack p = true ->
     read_object_pack (buffer (buf (write_object_pack p new_dout) ++ rest)) = Ret p None (buffer rest)).
Proof.
  repeat split; intros p Hg Hr; apply rereadable_eq;
    first [apply map_rereadable | apply perf_rereadable | apply k8s_rereadable | apply object2_rereadable | apply object_rereadable]; assumption.
Qed.

Definition sample_perf : perf_pack :=
  mk_perf_pack 1700000000000 (of_string "/host/app") 1 [(of_string "GoTPS", VFloat 1065353216); (of_string "GoActive", VDec 3)].
Example C10_case : go_perf_pack sample_perf = true /\ readable_perf_pack sample_perf = true.
Proof. split; reflexivity. Qed.

(** ** C11 *)
(** [collector_pack p] is [p] with over-long texts replaced (C05) and without the Elapsed of a
    profile pack. *)
Theorem C11_pack_decodable p rest : go_pack p = true ->
  p_pack (needs_v2 p) (buf (write_pack p new_dout) ++ rest) = Some (collector_pack p, rest).
Proof. exact (pack_collector p rest). Qed.

(** Elapsed of a profile pack is not on the wire at all. *)
Theorem C11_profile_elapsed_lost p e o :
  write_pack (PProfile p) o =
  write_pack (PProfile (mk_profile_pack (pp_Time p) (pp_ObjHash p) (pp_Service p) (pp_Txid p) (pp_Profile p) e)) o.
Proof. reflexivity. Qed.

Theorem C11_all_fields_refuted :
  ~ (exists dec : bytes -> pack, forall p, go_pack p = true -> dec (buf (write_pack p new_dout)) = p).
Proof.
  intros [dec H].
  pose proof (H (PProfile (mk_profile_pack 0 0 0 0 [] 1)) ltac:(reflexivity)) as H1.
  pose proof (H (PProfile (mk_profile_pack 0 0 0 0 [] 2)) ltac:(reflexivity)) as H2.
  assert (PProfile (mk_profile_pack 0 0 0 0 [] 1) = PProfile (mk_profile_pack 0 0 0 0 [] 2)) as E.
  { rewrite <- H1, <- H2. reflexivity. }
  discriminate E.
Qed.

Example C11_case : go_pack (PText (mk_text_pack (of_string "service") (-7) (of_string "GET /"))) = true /\
  p_pack false (buf (write_pack (PText (mk_text_pack (of_string "service") (-7) (of_string "GET /"))) new_dout))
   = Some (PText (mk_text_pack (of_string "service") (-7) (of_string "GET /")), []).
Proof. split; reflexivity. Qed.

(** ** C12: holds exactly for map, perf-counter and object2 packs with readable texts *)
Theorem C12_read_pack_inverts_partial p rest : go_pack p = true ->
  match p with
  | PMap m => readable_map m = true
  | PPerf p => readable_perf_pack p = true
  | PObject2 p => readable_object_pack2 p = true
  | _ => False
  end ->
  read_pack (buffer (buf (write_pack p new_dout) ++ rest)) = Ret (Some p) None (buffer rest).
Proof. intros Hg Hr. apply read_pack_inverts; [assumption|]. destruct p; try contradiction; exact Hr. Qed.

(** where there is nothing to read, the end is reported, and no pack *)
Theorem C12_read_pack_at_the_end r : concat r = [] -> read_pack r = Ret None (Some EOF) [].
Proof. intros E. unfold read_pack, read_int8, read_fixed, read_full, bind. rewrite E. reflexivity. Qed.

Theorem C12_read_pack_panics p rest : match p with PXlog _ | PProfile _ | PK8s _ => True | _ => False end ->
  go_pack p = true -> read_pack (buffer (buf (write_pack p new_dout) ++ rest)) = Panic.
Proof. exact (read_pack_panics p rest). Qed.

Theorem C12_read_pack_text_alert_empty p rest : match p with PText _ | PAlert _ => True | _ => False end -> go_pack p = true ->
  exists rest', read_pack (buffer (buf (write_pack p new_dout) ++ rest))
    = Ret (Some (match p with PText _ => PText (mk_text_pack [] 0 []) | _ => PAlert (mk_alert_pack 0 0 [] 0 [] [] []) end)) None (buffer rest')
    /\ rest' <> rest.
Proof. exact (read_pack_empty p rest). Qed.

Theorem C12_read_pack_inverts_refuted :
  ~ (forall p rest, go_pack p = true -> read_pack (buffer (buf (write_pack p new_dout) ++ rest)) = Ret (Some p) None (buffer rest)).
Proof.
  intros H. specialize (H (PText (mk_text_pack (of_string "service") 5 (of_string "a"))) [] ltac:(reflexivity)).
  vm_compute in H. discriminate H.
Qed.

(** An object pack (type 80 without site id) is not read back as written: its own type byte sends
    it to the site-id format. *)
Theorem C12_object_pack_refuted :
  ~ (forall p, go_object_pack p = true -> readable_object_pack p = true ->
       exists q r, read_pack (buffer (buf (write_pack (PObject p) new_dout))) = Ret (Some (PObject q)) None r).
Proof.
  intros H. destruct (H (mk_object_pack (of_string "golang") 1 (of_string "/h/a") [] [] true 0 []) ltac:(reflexivity) ltac:(reflexivity))
    as (q & r & E).
  vm_compute in E. discriminate E.
Qed.

Example C12_case : go_pack (PPerf sample_perf) = true /\ readable_perf_pack sample_perf = true.
Proof. split; reflexivity. Qed.

(** ** C13 *)
Theorem C13_steps_decodable_partial l :
  Forall (fun st => match st with Some st => go_step st = true /\ is_dump st = false | None => True end) l ->
  decode_profile (steps_to_bytes l) = Some (map view_step (present l)).
Proof. exact (profile_decodes l). Qed.

Theorem C13_steps_concat l k :
  Forall (fun st => match st with Some st => go_step st = true | None => True end) (l ++ k) ->
  steps_to_bytes (l ++ k) = steps_to_bytes l ++ steps_to_bytes k.
Proof. exact (steps_to_bytes_app l k). Qed.

(** A dump step is written under the method-step type code, so a collector decodes another step. *)
Definition sample_dump : step := SDump (mk_single 1 2 3) [11; 12] 7 (of_string "t") (of_string "s") 8 (of_string "l") (of_string "o").
Theorem C13_dump_refuted :
  go_step sample_dump = true /\ decode_profile (steps_to_bytes [Some sample_dump]) <> Some [sample_dump].
Proof. split; [reflexivity|]. vm_compute. discriminate. Qed.

(** its body alone is decodable while the stack has at most 32767 entries *)
Theorem C13_dump_body s stk ti tn ts li ln lo rest :
  go_step (SDump s stk ti tn ts li ln lo) = true -> zlen stk <= 32767 ->
  p_dump_body (buf (write_step_body (SDump s stk ti tn ts li ln lo) new_dout) ++ rest)
  = Some (view_step (SDump s stk ti tn ts li ln lo), rest).
Proof.
  intros H Hl. destruct (dump_body_decodable s stk ti tn ts li ln lo H Hl) as (bs & Hw & Hp).
  rewrite (writes_buf _ _ Hw). apply Hp.
Qed.

Example C13_case : let l := [Some (SMethod (mk_single (-1) 0 0) 77 5 0); None; Some (SPMessage (mk_single 0 1 2) 9 3 1 (of_string "p"))] in
  Forall (fun st => match st with Some st => go_step st = true /\ is_dump st = false | None => True end) l /\
  decode_profile (steps_to_bytes l) = Some [SMethod (mk_single (-1) 0 0) 77 5 0; SPMessage (mk_single 0 1 2) 9 3 1 (of_string "p")].
Proof. cbv zeta. split; [repeat (constructor; auto)|reflexivity]. Qed.

(** ** C14 *)
Theorem C14_params_recoverable s h0 e l p0 hash params :
  Forall (fun p => ~ In 3 p) params ->
  match set_message (SPMessage s h0 e l p0) hash params with
  | SPMessage s' h' e' l' ps => s' = s /\ h' = hash /\ e' = e /\ l' = l /\ split_etx [] ps = params
  | _ => False
  end.
Proof. intros H. cbn [set_message]. repeat split. apply split_param_string; assumption. Qed.

(** With the separator byte inside a parameter the list is not determined. *)
Theorem C14_params_refuted :
  ~ (forall params params', param_string params = param_string params' -> params = params').
Proof. intros H. specialize (H [[97; 3; 98]] [[97]; [98]] ltac:(reflexivity)). discriminate H. Qed.

Example C14_case : Forall (fun p => ~ In 3 p) [of_string "id=1"; []; of_string "x"].
Proof. repeat constructor; intros H; vm_compute in H; repeat destruct H as [H|H]; try discriminate; contradiction. Qed.

(** ** C15 *)
Theorem C15_mapvalue_put_get k t :
  (forall s, get_string k (mapvalue_put k (AString s) t) = s) /\
  (forall z, get_int64 k (mapvalue_put k (AInt64 z) t) = z) /\
  (forall z, get_int32 k (mapvalue_put k (AInt64 z) t) = int32 z) /\
  (forall z, get_int16 k (mapvalue_put k (AInt64 z) t) = int16 z) /\
  (forall z, get_int8 k (mapvalue_put k (AInt64 z) t) = int8 z) /\
  (forall b, get_boolean k (mapvalue_put k (ABool b) t) = b) /\
  (forall f, get k (mapvalue_put k (AFloat32 f) t) = Some (VFloat f)) /\
  (forall v, get k (mapvalue_put k (AValue v) t) = Some v).
Proof.
  unfold get_string, get_int64, get_int32, get_int16, get_int8, get_int, get_boolean, mapvalue_put.
  repeat split; intros; rewrite get_put_same; reflexivity.
Qed.

Theorem C15_mappack_put_get k t :
  (forall s, get_string k (mappack_put k (AString s) t) = s) /\
  (forall z any, In any [AInt32 z; AInt64 z; AInt z; AUint32 z] -> get_int64 k (mappack_put k any t) = z) /\
  (forall z any, In any [AUint z; AUint64 z] -> get_int64 k (mappack_put k any t) = int64 z) /\
  (forall z, get_int32 k (mappack_put k (AInt64 z) t) = int32 z) /\
  (forall b, get_boolean k (mappack_put k (ABool b) t) = b) /\
  (forall f, get k (mappack_put k (AFloat32 f) t) = Some (VFloat f)) /\
  (forall v, get k (mappack_put k (AValue v) t) = Some v).
Proof.
  unfold get_string, get_int64, get_int32, get_int, get_boolean, mappack_put.
  repeat split; intros; cbn [In] in *; repeat match goal with H : _ \/ _ |- _ => destruct H as [<-|H] | H : False |- _ => destruct H end;
    rewrite get_put_same; reflexivity.
Qed.

Theorem C15_perfpack_put_get f32 k t :
  (forall z any, In any [AInt32 z; AInt64 z; AInt z; AUint32 z] -> get_int64 k (perfpack_put f32 k any t) = z) /\
  (forall z, get_int64 k (perfpack_put f32 k (AUint64 z) t) = int64 z) /\
  (forall v, get k (perfpack_put f32 k (AValue v) t) = Some v) /\
  (forall f, get k (perfpack_put f32 k (AFloat32 f) t) = Some (VFloat f)) /\
  (forall f, get k (perfpack_put f32 k (AFloat64 f) t) = Some (VFloat (f32 f))) /\
  (forall s, get_string k (perfpack_put f32 k (AString s) t) = s) /\
  (forall b, get_boolean k (perfpack_put f32 k (ABool b) t) = b).
Proof.
  unfold get_string, get_int64, get_int, get_boolean, perfpack_put, mapvalue_put.
  repeat split; intros; cbn [In] in *; repeat match goal with H : _ \/ _ |- _ => destruct H as [<-|H] | H : False |- _ => destruct H end;
    rewrite get_put_same; reflexivity.
Qed.

(** What is not listed above is dropped without a trace: the table is unchanged. *)
Theorem C15_put_ignores f32 k t :
  (forall z any, In any [AInt z; AInt32 z; AUint z; AUint32 z; AUint64 z; AFloat64 z; AOther] -> mapvalue_put k any t = t) /\
  (forall z any, In any [AFloat64 z; AOther] -> mappack_put k any t = t) /\
  (forall z any, In any [AUint z; AOther] -> perfpack_put f32 k any t = t).
Proof.
  repeat split; intros; cbn [In] in *; repeat match goal with H : _ \/ _ |- _ => destruct H as [<-|H] | H : False |- _ => destruct H end; reflexivity.
Qed.

(** Other keys keep their value, and the table keeps at most one entry per key. *)
Theorem C15_put_frame f32 k k' any t : k <> k' ->
  get k (mapvalue_put k' any t) = get k t /\ get k (mappack_put k' any t) = get k t /\ get k (perfpack_put f32 k' any t) = get k t.
Proof.
  intros H. repeat split; destruct any; cbn [mapvalue_put mappack_put perfpack_put]; try reflexivity; apply get_put_other; assumption.
Qed.

Theorem C15_put_one_entry f32 k any t : NoDup (map fst t) ->
  NoDup (map fst (mapvalue_put k any t)) /\ NoDup (map fst (mappack_put k any t)) /\ NoDup (map fst (perfpack_put f32 k any t)).
Proof.
  intros H. repeat split; destruct any; cbn [mapvalue_put mappack_put perfpack_put]; try assumption; apply put_nodup; assumption.
Qed.

(** The counter packs of Kubernetes objects: numbers, texts and booleans are found again; unsigned numbers and values are dropped; other keys are left alone. *)
Theorem C15_k8spack_put_get f32 k t :
  (forall z any, In any [AInt32 z; AInt64 z; AInt z] -> get_int64 k (k8spack_put f32 k any t) = z) /\
  (forall f, get k (k8spack_put f32 k (AFloat32 f) t) = Some (VFloat f)) /\
  (forall f, get k (k8spack_put f32 k (AFloat64 f) t) = Some (VFloat (f32 f))) /\
  (forall s, get_string k (k8spack_put f32 k (AString s) t) = s) /\
  (forall b, get_boolean k (k8spack_put f32 k (ABool b) t) = b) /\
  (forall z any, In any [AUint z; AUint32 z; AUint64 z; AOther] -> k8spack_put f32 k any t = t) /\ (forall v, k8spack_put f32 k (AValue v) t = t) /\
  (forall k' any, k' <> k -> get k' (k8spack_put f32 k any t) = get k' t) /\
  (forall any, NoDup (map fst t) -> NoDup (map fst (k8spack_put f32 k any t))).
Proof.
  unfold get_string, get_int64, get_int, get_boolean.
  repeat split; intros; cbn [In] in *; repeat match goal with H : _ \/ _ |- _ => destruct H as [<-|H] | H : False |- _ => destruct H end;
    try (destruct any); cbn [k8spack_put mapvalue_put]; try reflexivity; try (rewrite get_put_same; reflexivity); try assumption; first [apply get_put_other; assumption | apply put_nodup; assumption].
Qed.

(** Lists: what is appended is found at its index; older entries stay. *)
Theorem C15_list_append l v i :
  list_at (zlen l) (list_add v l) = Some v /\
  (0 <= i < zlen l -> list_at i (list_add v l) = list_at i l) /\
  (forall z, list_get_int64 (zlen l) (list_add_int64 z l) = Some z) /\
  (forall z, list_get_int32 (zlen l) (list_add_int32 z l) = Some (int32 z)) /\
  (forall s, list_get_string (zlen l) (list_add_string s l) = Some s) /\
  (forall b, list_get_boolean (zlen l) (list_add_boolean b l) = Some b) /\
  (forall f, list_get_float (zlen l) (list_add_float f l) = Some f).
Proof.
  unfold list_get_int64, list_get_int32, list_get_string, list_get_boolean, list_get_float,
    list_add_int64, list_add_int32, list_add_string, list_add_boolean, list_add_float, list_add.
  split; [apply list_at_last|]. split; [intros; apply list_at_old; assumption|].
  repeat split; intros; rewrite list_at_last; reflexivity.
Qed.

(** Reading a table, for any history of puts: a key is reported present exactly when it has a value; a typed getter gives
    the value when it is of the getter's kind (numbers cut to the getter's width) and the kind's zero value otherwise. *)
Theorem C15_map_getters k (t : table) : NoDup (map fst t) ->
  (contains_key k t = true <-> exists v, In (k, v) t) /\
  (forall v, In (k, v) t ->
     get_string k t = match v with VText s => s | _ => [] end /\
     get_boolean k t = match v with VBool b => b | _ => false end /\
     get_int64 k t = match v with VDec z => z | _ => 0 end /\
     get_int32 k t = match v with VDec z => int32 z | _ => 0 end /\
     get_int16 k t = match v with VDec z => int16 z | _ => 0 end /\
     get_int8 k t = match v with VDec z => int8 z | _ => 0 end) /\
  ((forall v, ~ In (k, v) t) ->
     get_string k t = [] /\ get_boolean k t = false /\ get_int64 k t = 0 /\ get_int32 k t = 0 /\ get_int16 k t = 0 /\ get_int8 k t = 0).
Proof.
  intros N.
  assert (forall v, In (k, v) t <-> get k t = Some v) as G.
  { induction t as [|[k0 v0] t IH]; intro v; [cbn; split; [intros []|discriminate]|].
    cbn [map fst] in N. inversion N as [|? ? Hn Hd]; subst. cbn [get In].
    destruct (beqb_spec k k0) as [->|E].
    - split; [intros [H|H]; [injection H as <-; reflexivity|destruct (Hn (in_map fst _ _ H))]|intros H; injection H as <-; left; reflexivity].
    - split; [intros [H|H]; [injection H as <- <-; contradiction|apply IH; assumption]|intros H; right; apply IH; assumption]. }
  unfold contains_key, get_string, get_boolean, get_int64, get_int32, get_int16, get_int8, get_int.
  split; [|split].
  - destruct (get k t) as [v|] eqn:E.
    + split; [intros _; exists v; apply G; reflexivity|reflexivity].
    + split; [discriminate|intros (v & H); apply G in H; discriminate].
  - intros v H. apply G in H. rewrite H. repeat split; destruct v; reflexivity.
  - intros H. destruct (get k t) as [v|]; [destruct (H v); apply G; reflexivity|]. repeat split.
Qed.

Example C15_map_getters_case : let t := mapvalue_put (of_string "a") (AInt64 300) (mapvalue_put (of_string "b") (ABool true) []) in
  NoDup (map fst t) /\ get_int8 (of_string "a") t = 44 /\ get_boolean (of_string "b") t = true /\ contains_key (of_string "c") t = false.
Proof.
  split; [repeat constructor; cbn; intuition discriminate|]. vm_compute. auto.
Qed.

(** Reading a list: inside the list the element, if it is of the getter's kind, else the kind's zero value; outside it
    every getter panics. *)
Theorem C15_list_getters (l : list value) i :
  (0 <= i < zlen l -> exists v before later, l = before ++ v :: later /\ zlen before = i /\
     list_get_string i l = Some (match v with VText s => s | _ => [] end) /\
     list_get_float i l = Some (match v with VFloat f => f | _ => 0 end) /\
     list_get_int32 i l = Some (match v with VDec z => int32 z | _ => 0 end) /\
     list_get_int64 i l = Some (match v with VDec z => z | _ => 0 end) /\
     list_get_boolean i l = Some (match v with VBool b => b | _ => false end)) /\
  (~ 0 <= i < zlen l -> list_get_string i l = None /\ list_get_float i l = None /\ list_get_int32 i l = None /\
     list_get_int64 i l = None /\ list_get_boolean i l = None).
Proof.
  unfold list_get_string, list_get_float, list_get_int32, list_get_int64, list_get_boolean, list_at. split; intros H.
  - replace ((0 <=? i) && (i <? zlen l)) with true by lia.
    destruct (nth_error l (Z.to_nat i)) as [v|] eqn:E.
    + destruct (nth_error_split l _ E) as (b & a & El & Eb). exists v, b, a. split; [exact El|]. split; [unfold zlen; lia|].
      repeat split; destruct v; reflexivity.
    + apply nth_error_None in E. unfold zlen in H. lia.
  - replace ((0 <=? i) && (i <? zlen l)) with false by lia. repeat split.
Qed.

(** ObjectPack.SetStatus has no effect at all (an int is not one of the kinds MapValue.Put stores). *)
Theorem C15_set_status_ignored status tags : set_status status tags = tags.
Proof. reflexivity. Qed.

Theorem C15_set_status_refuted :
  ~ (forall status tags, get_int64 (of_string "status") (set_status status tags) = status).
Proof. intros H. specialize (H 1 []). discriminate H. Qed.

Example C15_case : get_int32 (of_string "k") (mapvalue_put (of_string "k") (AInt64 4294967301) [(of_string "j", VNil)]) = 5.
Proof. reflexivity. Qed.

Print Assumptions C10_packs_reread.
Print Assumptions C11_pack_decodable.
Print Assumptions C11_profile_elapsed_lost.
Print Assumptions C11_all_fields_refuted.
Print Assumptions C12_read_pack_inverts_partial.
Print Assumptions C12_read_pack_at_the_end.
Print Assumptions C12_read_pack_panics.
Print Assumptions C12_read_pack_text_alert_empty.
Print Assumptions C12_read_pack_inverts_refuted.
Print Assumptions C12_object_pack_refuted.
Print Assumptions C13_steps_decodable_partial.
Print Assumptions C13_steps_concat.
Print Assumptions C13_dump_refuted.
Print Assumptions C13_dump_body.
Print Assumptions C14_params_recoverable.
Print Assumptions C14_params_refuted.
Print Assumptions C15_mapvalue_put_get.
Print Assumptions C15_mappack_put_get.
Print Assumptions C15_perfpack_put_get.
Print Assumptions C15_k8spack_put_get.
Print Assumptions C15_put_frame.
Print Assumptions C15_put_ignores.
Print Assumptions C15_put_one_entry.
Print Assumptions C15_list_append.
Print Assumptions C15_map_getters.
Print Assumptions C15_list_getters.
Print Assumptions C15_set_status_ignored.
Print Assumptions C15_set_status_refuted.
