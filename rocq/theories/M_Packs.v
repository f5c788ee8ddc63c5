(** Model of the packs of scouterx/common/netdata: fields, Write, Read, CreatePack, WritePack, ReadPack.

    Fields are listed in the order Write emits them.  A *MapValue field is its table
    (the NewXxxPack constructors always allocate it; a nil *MapValue would panic in Write). *)
From Verif Require Import GoInt M_OutX M_InX M_Value.

(** textpack.go:11-15. *)
Record text_pack := mk_text_pack {
  tp_Xtype : gostring;
  tp_Hash : Z;
  tp_Text : gostring }.

(** textpack.go:22-27 *)
Definition write_text_pack (p : text_pack) : dout -> dout :=
  wseq [write_string (tp_Xtype p); write_int32 (tp_Hash p); write_string (tp_Text p)].

(** alertpack.go:13-21. *)
Record alert_pack := mk_alert_pack {
  al_Time : Z;
  al_Level : Z;
  al_ObjType : gostring;
  al_ObjHash : Z;
  al_Title : gostring;
  al_Message : gostring;
  al_Tags : list (gostring * value) }.

(** alertpack.go:29-39 *)
Definition write_alert_pack (p : alert_pack) : dout -> dout :=
  wseq [write_int64 (al_Time p); write_uint8 (al_Level p); write_string (al_ObjType p); write_int32 (al_ObjHash p); write_string (al_Title p); write_string (al_Message p); write_value (VMap (al_Tags p))].

(** perfcounterpack.go:11-16. *)
Record perf_pack := mk_perf_pack {
  pc_Time : Z;
  pc_ObjName : gostring;
  pc_Timetype : Z;
  pc_Data : list (gostring * value) }.

(** perfcounterpack.go:26-32 *)
Definition write_perf_pack (p : perf_pack) : dout -> dout :=
  wseq [write_int64 (pc_Time p); write_string (pc_ObjName p); write_int8 (pc_Timetype p); write_value (VMap (pc_Data p))].

(** perfcounter_k8s_pack.go:8-22. *)
Record k8s_pack := mk_k8s_pack {
  k8_Time : Z;
  k8_SiteID : gostring;
  k8_Cluster : gostring;
  k8_NameSpace : gostring;
  k8_NodeName : gostring;
  k8_DaemonSetName : gostring;
  k8_DeploymentName : gostring;
  k8_PodName : gostring;
  k8_ContainerName : gostring;
  k8_ObjName : gostring;
  k8_Timetype : Z;
  k8_MetricLevel : Z;
  k8_Data : list (gostring * value) }.

(** perfcounter_k8s_pack.go:32-47 *)
Definition write_k8s_pack (p : k8s_pack) : dout -> dout :=
  wseq [write_int64 (k8_Time p); write_string (k8_SiteID p); write_string (k8_Cluster p); write_string (k8_NameSpace p); write_string (k8_NodeName p); write_string (k8_DaemonSetName p); write_string (k8_DeploymentName p); write_string (k8_PodName p); write_string (k8_ContainerName p); write_string (k8_ObjName p); write_int8 (k8_Timetype p); write_int8 (k8_MetricLevel p); write_value (VMap (k8_Data p))].

(** objectpack.go:24-33. *)
Record object_pack := mk_object_pack {
  ob_ObjType : gostring;
  ob_ObjHash : Z;
  ob_ObjName : gostring;
  ob_Address : gostring;
  ob_Version : gostring;
  ob_Alive : bool;
  ob_Wakeup : Z;
  ob_Tags : list (gostring * value) }.

(** objectpack.go:68-79 *)
Definition write_object_pack (p : object_pack) : dout -> dout :=
  wseq [write_string (ob_ObjType p); write_decimal32 (ob_ObjHash p); write_string (ob_ObjName p); write_string (ob_Address p); write_string (ob_Version p); write_boolean (ob_Alive p); write_decimal (ob_Wakeup p); write_value (VMap (ob_Tags p))].

(** objectpack.go:10-21. *)
Record object_pack2 := mk_object_pack2 {
  o2_SiteID : gostring;
  o2_ObjType : gostring;
  o2_ObjHash : Z;
  o2_ObjName : gostring;
  o2_Address : gostring;
  o2_Version : gostring;
  o2_Alive : bool;
  o2_Wakeup : Z;
  o2_Family : Z;
  o2_Tags : list (gostring * value) }.

(** objectpack.go:53-66 *)
Definition write_object_pack2 (p : object_pack2) : dout -> dout :=
  wseq [write_string (o2_SiteID p); write_string (o2_ObjType p); write_decimal32 (o2_ObjHash p); write_string (o2_ObjName p); write_string (o2_Address p); write_string (o2_Version p); write_boolean (o2_Alive p); write_decimal (o2_Wakeup p); write_int8 (o2_Family p); write_value (VMap (o2_Tags p))].

(** xlogpack.go:27-86. *)
Record xlog_pack := mk_xlog_pack {
  xl_EndTime : Z;
  xl_ObjHash : Z;
  xl_Service : Z;
  xl_Txid : Z;
  xl_Caller : Z;
  xl_Gxid : Z;
  xl_Elapsed : Z;
  xl_Error : Z;
  xl_Cpu : Z;
  xl_SqlCount : Z;
  xl_SqlTime : Z;
  xl_Ipaddr : bytes;
  xl_Kbytes : Z;
  xl_Status : Z;
  xl_Userid : Z;
  xl_UserAgent : Z;
  xl_Referer : Z;
  xl_Group : Z;
  xl_ApicallCount : Z;
  xl_ApicallTime : Z;
  xl_CountryCode : gostring;
  xl_City : Z;
  xl_XType : Z;
  xl_Login : Z;
  xl_Desc : Z;
  xl_WebHash : Z;
  xl_WebTime : Z;
  xl_HasDump : Z;
  xl_ThreadNameHash : Z;
  xl_Text1 : gostring;
  xl_Text2 : gostring;
  xl_QueuingHostHash : Z;
  xl_QueuingTime : Z;
  xl_Queuing2ndHostHash : Z;
  xl_Queuing2ndTime : Z;
  xl_Text3 : gostring;
  xl_Text4 : gostring;
  xl_Text5 : gostring;
  xl_ProfileCount : Z;
  xl_B3Mode : bool;
  xl_ProfileSize : Z;
  xl_DiscardType : Z;
  xl_IgnoreGCS : bool }.

(** xlogpack.go:97-148: the body, written to a fresh DataOutputX *)
Definition xlog_body (p : xlog_pack) : dout :=
  wseq [write_decimal (xl_EndTime p); write_decimal32 (xl_ObjHash p); write_decimal32 (xl_Service p); write_int64 (xl_Txid p); write_int64 (xl_Caller p); write_int64 (xl_Gxid p); write_decimal32 (xl_Elapsed p); write_decimal32 (xl_Error p); write_decimal32 (xl_Cpu p); write_decimal32 (xl_SqlCount p); write_decimal32 (xl_SqlTime p); write_blob (xl_Ipaddr p); write_decimal32 (xl_Kbytes p); write_decimal32 (xl_Status p); write_decimal (xl_Userid p); write_decimal32 (xl_UserAgent p); write_decimal32 (xl_Referer p); write_decimal32 (xl_Group p); write_decimal32 (xl_ApicallCount p); write_decimal32 (xl_ApicallTime p); write_string (xl_CountryCode p); write_decimal32 (xl_City p); write_uint8 (xl_XType p); write_decimal32 (xl_Login p); write_decimal32 (xl_Desc p); write_decimal32 (xl_WebHash p); write_decimal32 (xl_WebTime p); write_uint8 (xl_HasDump p); write_decimal32 (xl_ThreadNameHash p); write_string (xl_Text1 p); write_string (xl_Text2 p); write_decimal32 (xl_QueuingHostHash p); write_decimal32 (xl_QueuingTime p); write_decimal32 (xl_Queuing2ndHostHash p); write_decimal32 (xl_Queuing2ndTime p); write_string (xl_Text3 p); write_string (xl_Text4 p); write_string (xl_Text5 p); write_decimal32 (xl_ProfileCount p); write_boolean (xl_B3Mode p); write_decimal32 (xl_ProfileSize p); write_uint8 (xl_DiscardType p); write_boolean (xl_IgnoreGCS p)] new_dout.
(** xlogpack.go:97-152 *)
Definition write_xlog_pack (p : xlog_pack) (o : dout) : dout := write_blob (buf (xlog_body p)) o.

(** xlogprofilepack.go:8-15. Elapsed (line 13) is never written. *)
Record profile_pack := mk_profile_pack {
  pp_Time : Z;
  pp_ObjHash : Z;
  pp_Service : Z;
  pp_Txid : Z;
  pp_Profile : bytes; pp_Elapsed : Z }.

(** xlogprofilepack.go:22-29 *)
Definition write_profile_pack (p : profile_pack) : dout -> dout :=
  wseq [write_decimal (pp_Time p); write_decimal32 (pp_ObjHash p); write_decimal32 (pp_Service p); write_int64 (pp_Txid p); write_blob (pp_Profile p)].

(** mappack.go:52-59 *)
Definition write_map_pack (m : list (gostring * value)) (o : dout) : dout :=
  fold_left (fun o kv => write_value (snd kv) (write_string (fst kv) o)) m (write_decimal (zlen m) o).

(** the pack types of packconstants.go:4-18 that the agent makes or reads: packcreator.go:8-23, objectpack.go:10-33, xlogpack.go:27-86, perfcounter_k8s_pack.go:8-22 *)
Inductive pack :=
| PMap (m : list (gostring * value))
| PText (p : text_pack)
| PPerf (p : perf_pack)
| PK8s (p : k8s_pack)
| PObject (p : object_pack)
| PObject2 (p : object_pack2)
| PAlert (p : alert_pack)
| PXlog (p : xlog_pack)
| PProfile (p : profile_pack).

(** scouterx/common/constants/packconstant/packconstants.go:4-18 and the GetPackType methods *)
Definition pack_type (p : pack) : Z :=
  match p with
  | PMap _ => 10 | PXlog _ => 21 | PProfile _ => 26 | PText _ => 50 | PPerf _ => 60
  | PK8s _ => 65 | PAlert _ => 70 | PObject _ | PObject2 _ => 80
  end.

(** the Write methods: alertpack.go:29-39, mappack.go:52-59, objectpack.go:53-79, perfcounterpack.go:26-32, perfcounter_k8s_pack.go:32-47, textpack.go:22-27, xlogpack.go:97-152, xlogprofilepack.go:22-29 *)
Definition write_pack_body (p : pack) : dout -> dout :=
  match p with
  | PMap m => write_map_pack m
  | PText p => write_text_pack p
  | PPerf p => write_perf_pack p
  | PK8s p => write_k8s_pack p
  | PObject p => write_object_pack p
  | PObject2 p => write_object_pack2 p
  | PAlert p => write_alert_pack p
  | PXlog p => write_xlog_pack p
  | PProfile p => write_profile_pack p
  end.

(** dataoutputx.go:159-163 WritePack *)
Definition write_pack (p : pack) (o : dout) : dout := write_pack_body p (write_uint8 (pack_type p) o).

(** the type assertion value.( *MapValue ) after ReadValue; perfcounterpack.go:35-43, perfcounter_k8s_pack.go:50-67, objectpack.go:81-112 *)
Definition read_map_value {A} (r : reader) (k : list (gostring * value) -> option err -> reader -> res A) : res A :=
  bind (read_value r) (fun v e r => match v with VMap m => k m e r | _ => Panic end).

(** mappack.go:39-49 *)
Definition read_map_pack (r : reader) : res (list (gostring * value)) :=
  bind (read_decimal r) (fun count e r =>
    bind (read_times (fun r => bind (read_string r) (fun k _ r =>
                               bind (read_value r) (fun v e r => Ret (k, v) e r)))
            (Z.to_nat count) [] e r)
      (fun kvs e r => Ret (fold_left (fun m kv => put (fst kv) (snd kv) m) kvs []) e r)).

(** perfcounterpack.go:35-43 *)
Definition read_perf_pack (r : reader) : res perf_pack :=
  bind (read_int64 r) (fun vTime _ r =>
  bind (read_string r) (fun vObjName _ r =>
  bind (read_int8 r) (fun vTimetype _ r =>
  read_map_value r (fun vData e r =>
  Ret (mk_perf_pack vTime vObjName vTimetype vData) e r)))).

(** perfcounter_k8s_pack.go:50-67 *)
Definition read_k8s_pack (r : reader) : res k8s_pack :=
  bind (read_int64 r) (fun vTime _ r =>
  bind (read_string r) (fun vSiteID _ r =>
  bind (read_string r) (fun vCluster _ r =>
  bind (read_string r) (fun vNameSpace _ r =>
  bind (read_string r) (fun vNodeName _ r =>
  bind (read_string r) (fun vDaemonSetName _ r =>
  bind (read_string r) (fun vDeploymentName _ r =>
  bind (read_string r) (fun vPodName _ r =>
  bind (read_string r) (fun vContainerName _ r =>
  bind (read_string r) (fun vObjName _ r =>
  bind (read_int8 r) (fun vTimetype _ r =>
  bind (read_int8 r) (fun vMetricLevel _ r =>
  read_map_value r (fun vData e r =>
  Ret (mk_k8s_pack vTime vSiteID vCluster vNameSpace vNodeName vDaemonSetName vDeploymentName vPodName vContainerName vObjName vTimetype vMetricLevel vData) e r))))))))))))).

(** objectpack.go:98-112 *)
Definition read_object_pack (r : reader) : res object_pack :=
  bind (read_string r) (fun vObjType _ r =>
  bind (read_decimal r) (fun vObjHash _ r =>
  bind (read_string r) (fun vObjName _ r =>
  bind (read_string r) (fun vAddress _ r =>
  bind (read_string r) (fun vVersion _ r =>
  bind (read_boolean r) (fun vAlive _ r =>
  bind (read_decimal r) (fun vWakeup _ r =>
  read_map_value r (fun vTags e r =>
  Ret (mk_object_pack vObjType (int32 vObjHash) vObjName vAddress vVersion vAlive vWakeup vTags) e r)))))))).

(** objectpack.go:81-97 *)
Definition read_object_pack2 (r : reader) : res object_pack2 :=
  bind (read_string r) (fun vSiteID _ r =>
  bind (read_string r) (fun vObjType _ r =>
  bind (read_decimal r) (fun vObjHash _ r =>
  bind (read_string r) (fun vObjName _ r =>
  bind (read_string r) (fun vAddress _ r =>
  bind (read_string r) (fun vVersion _ r =>
  bind (read_boolean r) (fun vAlive _ r =>
  bind (read_decimal r) (fun vWakeup _ r =>
  bind (read_int8 r) (fun vFamily _ r =>
  read_map_value r (fun vTags e r =>
  Ret (mk_object_pack2 vSiteID vObjType (int32 vObjHash) vObjName vAddress vVersion vAlive vWakeup vFamily vTags) e r)))))))))).

(** NewTextPack / NewAlertPack: zero values; textpack.go:17-20 *)
Definition new_text_pack : text_pack := mk_text_pack [] 0 [].
(** alertpack.go:23-27 *)
Definition new_alert_pack : alert_pack := mk_alert_pack 0 0 [] 0 [] [] [].

(** datainputx.go:189-198 ReadPack with packcreator.go:8-23 CreatePack: the error of pack.Read is
    dropped; TextPack.Read (textpack.go:29) and AlertPack.Read (alertpack.go:41) read nothing; an
    unknown type gives a nil Pack whose Read panics.  A nil Pack result is [None]. *)
Definition read_pack (r : reader) : res (option pack) :=
  bind (read_int8 r) (fun t e r =>
    match e with
    | Some e => Ret None (Some e) r
    | None =>
        let ty := uint8 t in
        if ty =? 10 then bind (read_map_pack r) (fun m _ r => Ret (Some (PMap m)) None r)
        else if ty =? 50 then Ret (Some (PText new_text_pack)) None r
        else if ty =? 60 then bind (read_perf_pack r) (fun p _ r => Ret (Some (PPerf p)) None r)
        else if ty =? 80 then bind (read_object_pack2 r) (fun p _ r => Ret (Some (PObject2 p)) None r)
        else if ty =? 70 then Ret (Some (PAlert new_alert_pack)) None r
        else Panic
    end).
