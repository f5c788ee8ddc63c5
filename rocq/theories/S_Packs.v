(** Specification: collector-side pack parser, after the Java pack classes (scouter.lang.pack.* read
    methods), independent of the agent's code.  Also which packs a Go program can hold and what the
    collector is shown. *)
From Verif Require Import GoInt M_Value M_Packs S_Wire S_Value.

Definition p_val : parser value := fun bs => p_value (S (length bs)) bs.
Definition p_map : parser (list (gostring * value)) :=
  v <- p_val ;; match v with VMap m => pret m | _ => pfail end.

Definition p_text_pack : parser text_pack :=
  vXtype <- p_text ;;
  vHash <- p_i32 ;;
  vText <- p_text ;;
  pret (mk_text_pack vXtype vHash vText).

Definition p_alert_pack : parser alert_pack :=
  vTime <- p_i64 ;;
  vLevel <- p_u8 ;;
  vObjType <- p_text ;;
  vObjHash <- p_i32 ;;
  vTitle <- p_text ;;
  vMessage <- p_text ;;
  vTags <- p_map ;;
  pret (mk_alert_pack vTime vLevel vObjType vObjHash vTitle vMessage vTags).

Definition p_perf_pack : parser perf_pack :=
  vTime <- p_i64 ;;
  vObjName <- p_text ;;
  vTimetype <- p_i8 ;;
  vData <- p_map ;;
  pret (mk_perf_pack vTime vObjName vTimetype vData).

Definition p_k8s_pack : parser k8s_pack :=
  vTime <- p_i64 ;;
  vSiteID <- p_text ;;
  vCluster <- p_text ;;
  vNameSpace <- p_text ;;
  vNodeName <- p_text ;;
  vDaemonSetName <- p_text ;;
  vDeploymentName <- p_text ;;
  vPodName <- p_text ;;
  vContainerName <- p_text ;;
  vObjName <- p_text ;;
  vTimetype <- p_i8 ;;
  vMetricLevel <- p_i8 ;;
  vData <- p_map ;;
  pret (mk_k8s_pack vTime vSiteID vCluster vNameSpace vNodeName vDaemonSetName vDeploymentName vPodName vContainerName vObjName vTimetype vMetricLevel vData).

Definition p_object_pack : parser object_pack :=
  vObjType <- p_text ;;
  vObjHash <- p_decimal ;;
  vObjName <- p_text ;;
  vAddress <- p_text ;;
  vVersion <- p_text ;;
  vAlive <- p_bool ;;
  vWakeup <- p_decimal ;;
  vTags <- p_map ;;
  pret (mk_object_pack vObjType vObjHash vObjName vAddress vVersion vAlive vWakeup vTags).

Definition p_object_pack2 : parser object_pack2 :=
  vSiteID <- p_text ;;
  vObjType <- p_text ;;
  vObjHash <- p_decimal ;;
  vObjName <- p_text ;;
  vAddress <- p_text ;;
  vVersion <- p_text ;;
  vAlive <- p_bool ;;
  vWakeup <- p_decimal ;;
  vFamily <- p_i8 ;;
  vTags <- p_map ;;
  pret (mk_object_pack2 vSiteID vObjType vObjHash vObjName vAddress vVersion vAlive vWakeup vFamily vTags).

Definition p_xlog_pack_body : parser xlog_pack :=
  vEndTime <- p_decimal ;;
  vObjHash <- p_decimal ;;
  vService <- p_decimal ;;
  vTxid <- p_i64 ;;
  vCaller <- p_i64 ;;
  vGxid <- p_i64 ;;
  vElapsed <- p_decimal ;;
  vError <- p_decimal ;;
  vCpu <- p_decimal ;;
  vSqlCount <- p_decimal ;;
  vSqlTime <- p_decimal ;;
  vIpaddr <- p_blob ;;
  vKbytes <- p_decimal ;;
  vStatus <- p_decimal ;;
  vUserid <- p_decimal ;;
  vUserAgent <- p_decimal ;;
  vReferer <- p_decimal ;;
  vGroup <- p_decimal ;;
  vApicallCount <- p_decimal ;;
  vApicallTime <- p_decimal ;;
  vCountryCode <- p_text ;;
  vCity <- p_decimal ;;
  vXType <- p_u8 ;;
  vLogin <- p_decimal ;;
  vDesc <- p_decimal ;;
  vWebHash <- p_decimal ;;
  vWebTime <- p_decimal ;;
  vHasDump <- p_u8 ;;
  vThreadNameHash <- p_decimal ;;
  vText1 <- p_text ;;
  vText2 <- p_text ;;
  vQueuingHostHash <- p_decimal ;;
  vQueuingTime <- p_decimal ;;
  vQueuing2ndHostHash <- p_decimal ;;
  vQueuing2ndTime <- p_decimal ;;
  vText3 <- p_text ;;
  vText4 <- p_text ;;
  vText5 <- p_text ;;
  vProfileCount <- p_decimal ;;
  vB3Mode <- p_bool ;;
  vProfileSize <- p_decimal ;;
  vDiscardType <- p_u8 ;;
  vIgnoreGCS <- p_bool ;;
  pret (mk_xlog_pack vEndTime vObjHash vService vTxid vCaller vGxid vElapsed vError vCpu vSqlCount vSqlTime vIpaddr vKbytes vStatus vUserid vUserAgent vReferer vGroup vApicallCount vApicallTime vCountryCode vCity vXType vLogin vDesc vWebHash vWebTime vHasDump vThreadNameHash vText1 vText2 vQueuingHostHash vQueuingTime vQueuing2ndHostHash vQueuing2ndTime vText3 vText4 vText5 vProfileCount vB3Mode vProfileSize vDiscardType vIgnoreGCS).

Definition p_profile_pack : parser profile_pack :=
  vTime <- p_decimal ;;
  vObjHash <- p_decimal ;;
  vService <- p_decimal ;;
  vTxid <- p_i64 ;;
  vProfile <- p_blob ;;
  pret (mk_profile_pack vTime vObjHash vService vTxid vProfile 0).

(** the xlog body travels inside one blob, which it must fill completely *)
Definition p_xlog_pack : parser xlog_pack :=
  b <- p_blob ;; match p_xlog_pack_body b with Some (p, []) => pret p | _ => pfail end.

Definition p_map_pack : parser (list (gostring * value)) :=
  n <- p_decimal ;; p_many (k <- p_text ;; v <- p_val ;; pret (k, v)) (Z.to_nat n).

(** The collector knows both object formats; which one a type-80 pack uses depends on the agent's
    protocol version, so the parser for it is a parameter of the session ([v2] = with site id). *)
Definition p_pack (v2 : bool) : parser pack :=
  t <- p_u8 ;;
  if t =? 10 then (m <- p_map_pack ;; pret (PMap m))
  else if t =? 21 then (p <- p_xlog_pack ;; pret (PXlog p))
  else if t =? 26 then (p <- p_profile_pack ;; pret (PProfile p))
  else if t =? 50 then (p <- p_text_pack ;; pret (PText p))
  else if t =? 60 then (p <- p_perf_pack ;; pret (PPerf p))
  else if t =? 65 then (p <- p_k8s_pack ;; pret (PK8s p))
  else if t =? 70 then (p <- p_alert_pack ;; pret (PAlert p))
  else if t =? 80 then
    if v2 then (p <- p_object_pack2 ;; pret (PObject2 p)) else (p <- p_object_pack ;; pret (PObject p))
  else pfail.

(** the parser session a pack needs *)
Definition needs_v2 (p : pack) : bool := match p with PObject2 _ => true | _ => false end.

(** What the collector is shown of a table. *)
Definition view_map (m : list (gostring * value)) : list (gostring * value) :=
  map (fun kv => (on_wire (fst kv), collector_view (snd kv))) m.

Definition view_text_pack (p : text_pack) : text_pack :=
  mk_text_pack (on_wire (tp_Xtype p)) (tp_Hash p) (on_wire (tp_Text p)).

Definition view_alert_pack (p : alert_pack) : alert_pack :=
  mk_alert_pack (al_Time p) (al_Level p) (on_wire (al_ObjType p)) (al_ObjHash p) (on_wire (al_Title p)) (on_wire (al_Message p)) (view_map (al_Tags p)).

Definition view_perf_pack (p : perf_pack) : perf_pack :=
  mk_perf_pack (pc_Time p) (on_wire (pc_ObjName p)) (pc_Timetype p) (view_map (pc_Data p)).

Definition view_k8s_pack (p : k8s_pack) : k8s_pack :=
  mk_k8s_pack (k8_Time p) (on_wire (k8_SiteID p)) (on_wire (k8_Cluster p)) (on_wire (k8_NameSpace p)) (on_wire (k8_NodeName p)) (on_wire (k8_DaemonSetName p)) (on_wire (k8_DeploymentName p)) (on_wire (k8_PodName p)) (on_wire (k8_ContainerName p)) (on_wire (k8_ObjName p)) (k8_Timetype p) (k8_MetricLevel p) (view_map (k8_Data p)).

Definition view_object_pack (p : object_pack) : object_pack :=
  mk_object_pack (on_wire (ob_ObjType p)) (ob_ObjHash p) (on_wire (ob_ObjName p)) (on_wire (ob_Address p)) (on_wire (ob_Version p)) (ob_Alive p) (ob_Wakeup p) (view_map (ob_Tags p)).

Definition view_object_pack2 (p : object_pack2) : object_pack2 :=
  mk_object_pack2 (on_wire (o2_SiteID p)) (on_wire (o2_ObjType p)) (o2_ObjHash p) (on_wire (o2_ObjName p)) (on_wire (o2_Address p)) (on_wire (o2_Version p)) (o2_Alive p) (o2_Wakeup p) (o2_Family p) (view_map (o2_Tags p)).

Definition view_xlog_pack (p : xlog_pack) : xlog_pack :=
  mk_xlog_pack (xl_EndTime p) (xl_ObjHash p) (xl_Service p) (xl_Txid p) (xl_Caller p) (xl_Gxid p) (xl_Elapsed p) (xl_Error p) (xl_Cpu p) (xl_SqlCount p) (xl_SqlTime p) (xl_Ipaddr p) (xl_Kbytes p) (xl_Status p) (xl_Userid p) (xl_UserAgent p) (xl_Referer p) (xl_Group p) (xl_ApicallCount p) (xl_ApicallTime p) (on_wire (xl_CountryCode p)) (xl_City p) (xl_XType p) (xl_Login p) (xl_Desc p) (xl_WebHash p) (xl_WebTime p) (xl_HasDump p) (xl_ThreadNameHash p) (on_wire (xl_Text1 p)) (on_wire (xl_Text2 p)) (xl_QueuingHostHash p) (xl_QueuingTime p) (xl_Queuing2ndHostHash p) (xl_Queuing2ndTime p) (on_wire (xl_Text3 p)) (on_wire (xl_Text4 p)) (on_wire (xl_Text5 p)) (xl_ProfileCount p) (xl_B3Mode p) (xl_ProfileSize p) (xl_DiscardType p) (xl_IgnoreGCS p).

Definition view_profile_pack (p : profile_pack) : profile_pack :=
  mk_profile_pack (pp_Time p) (pp_ObjHash p) (pp_Service p) (pp_Txid p) (pp_Profile p) 0.

Definition collector_pack (p : pack) : pack :=
  match p with
  | PMap m => PMap (view_map m)
  | PText p => PText (view_text_pack p)
  | PPerf p => PPerf (view_perf_pack p)
  | PK8s p => PK8s (view_k8s_pack p)
  | PObject p => PObject (view_object_pack p)
  | PObject2 p => PObject2 (view_object_pack2 p)
  | PAlert p => PAlert (view_alert_pack p)
  | PXlog p => PXlog (view_xlog_pack p)
  | PProfile p => PProfile (view_profile_pack p)
  end.

(** Packs a Go program can hold: fields in the range of their types. *)
Definition is_i8 (z : Z) : bool := (-128 <=? z) && (z <=? 127).
Definition is_i32 (z : Z) : bool := (-2147483648 <=? z) && (z <=? 2147483647).
Definition is_i64 (z : Z) : bool := (-9223372036854775808 <=? z) && (z <=? 9223372036854775807).
Definition is_u8 (z : Z) : bool := (0 <=? z) && (z <=? 255).
Definition is_blob (b : bytes) : bool := zlen b <=? 2147483647.
Definition is_map (m : list (gostring * value)) : bool := go_value (VMap m).

Definition go_text_pack (p : text_pack) : bool :=
  is_i32 (tp_Hash p).

Definition go_alert_pack (p : alert_pack) : bool :=
  is_i64 (al_Time p) && is_u8 (al_Level p) && is_i32 (al_ObjHash p) && is_map (al_Tags p).

Definition go_perf_pack (p : perf_pack) : bool :=
  is_i64 (pc_Time p) && is_i8 (pc_Timetype p) && is_map (pc_Data p).

Definition go_k8s_pack (p : k8s_pack) : bool :=
  is_i64 (k8_Time p) && is_i8 (k8_Timetype p) && is_i8 (k8_MetricLevel p) && is_map (k8_Data p).

Definition go_object_pack (p : object_pack) : bool :=
  is_i32 (ob_ObjHash p) && is_i64 (ob_Wakeup p) && is_map (ob_Tags p).

Definition go_object_pack2 (p : object_pack2) : bool :=
  is_i32 (o2_ObjHash p) && is_i64 (o2_Wakeup p) && is_i8 (o2_Family p) && is_map (o2_Tags p).

Definition go_xlog_pack (p : xlog_pack) : bool :=
  is_i64 (xl_EndTime p) && is_i32 (xl_ObjHash p) && is_i32 (xl_Service p) && is_i64 (xl_Txid p) && is_i64 (xl_Caller p) && is_i64 (xl_Gxid p) && is_i32 (xl_Elapsed p) && is_i32 (xl_Error p) && is_i32 (xl_Cpu p) && is_i32 (xl_SqlCount p) && is_i32 (xl_SqlTime p) && (zlen (xl_Ipaddr p) <=? 1000000) && is_i32 (xl_Kbytes p) && is_i32 (xl_Status p) && is_i64 (xl_Userid p) && is_i32 (xl_UserAgent p) && is_i32 (xl_Referer p) && is_i32 (xl_Group p) && is_i32 (xl_ApicallCount p) && is_i32 (xl_ApicallTime p) && is_i32 (xl_City p) && is_u8 (xl_XType p) && is_i32 (xl_Login p) && is_i32 (xl_Desc p) && is_i32 (xl_WebHash p) && is_i32 (xl_WebTime p) && is_u8 (xl_HasDump p) && is_i32 (xl_ThreadNameHash p) && is_i32 (xl_QueuingHostHash p) && is_i32 (xl_QueuingTime p) && is_i32 (xl_Queuing2ndHostHash p) && is_i32 (xl_Queuing2ndTime p) && is_i32 (xl_ProfileCount p) && is_i32 (xl_ProfileSize p) && is_u8 (xl_DiscardType p).

Definition go_profile_pack (p : profile_pack) : bool :=
  is_i64 (pp_Time p) && is_i32 (pp_ObjHash p) && is_i32 (pp_Service p) && is_i64 (pp_Txid p) && is_blob (pp_Profile p).

Definition go_pack (p : pack) : bool :=
  match p with
  | PMap m => is_map m
  | PText p => go_text_pack p
  | PPerf p => go_perf_pack p
  | PK8s p => go_k8s_pack p
  | PObject p => go_object_pack p
  | PObject2 p => go_object_pack2 p
  | PAlert p => go_alert_pack p
  | PXlog p => go_xlog_pack p
  | PProfile p => go_profile_pack p
  end.

(** Packs whose texts the agent's own reader restores. *)
Definition readable_text (s : gostring) : bool := agent_readable (VText s).
Definition readable_map (m : list (gostring * value)) : bool := agent_readable (VMap m).
Definition readable_perf_pack (p : perf_pack) : bool :=
  readable_text (pc_ObjName p) && readable_map (pc_Data p).
Definition readable_k8s_pack (p : k8s_pack) : bool :=
  readable_text (k8_SiteID p) && readable_text (k8_Cluster p) && readable_text (k8_NameSpace p) && readable_text (k8_NodeName p) && readable_text (k8_DaemonSetName p) && readable_text (k8_DeploymentName p) && readable_text (k8_PodName p) && readable_text (k8_ContainerName p) && readable_text (k8_ObjName p) && readable_map (k8_Data p).
Definition readable_object_pack (p : object_pack) : bool :=
  readable_text (ob_ObjType p) && readable_text (ob_ObjName p) && readable_text (ob_Address p) && readable_text (ob_Version p) && readable_map (ob_Tags p).
Definition readable_object_pack2 (p : object_pack2) : bool :=
  readable_text (o2_SiteID p) && readable_text (o2_ObjType p) && readable_text (o2_ObjName p) && readable_text (o2_Address p) && readable_text (o2_Version p) && readable_map (o2_Tags p).
