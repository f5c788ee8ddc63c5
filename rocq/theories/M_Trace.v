(** Models the tracing API: scouterx/strace/tracemain.go, scouterx/strace/tctxmanager/tctxmanager.go and
    scouterx/netio/tracecontext.go.

    Sequential semantics: one API call at a time, each a function from the agent's state to the new state and a
    result. (The race between concurrent ends of one service is modelled in M_TraceConc.v.) *)
From Verif Require Import GoInt M_Util M_StrMatch M_Packs M_Steps M_Cache M_Text M_Sampler M_Profile.

(** tracecontext.go:11-78. Times are nanosecond counts. ProfileCount and ProfileSize are kept in the profile
    collector's record. Left out: fields that are never assigned (Noop of a real context, InheritStartTime, Parent, Callee) or only
    copied from parent to child and never assigned otherwise (HttpQuery, HttpContentType, Sqltext, ApicallName,
    ApicallTarget, UserAgentString). *)
Record tctx := mkX {
  x_Closed : bool; x_IsStream : bool; x_Inherit : bool; x_LastMethod : gostring;
  x_Goid : Z; x_Profile : prof; x_Txid : Z; x_Gxid : Z;
  x_XType : Z; x_StartTime : Z; x_ServiceHash : Z; x_ServiceName : gostring;
  x_RemoteIp : gostring; x_Error : Z; x_HttpMethod : gostring; x_SqlCount : Z;
  x_SqlTime : Z; x_Status : Z; x_ApicallCount : Z; x_ApicallTime : Z;
  x_Userid : Z; x_UserAgent : Z; x_Referer : Z; x_IsChildTx : bool;
  x_Caller : Z; x_CallerObjHash : Z; x_Login : gostring; x_Desc : gostring;
  x_Text1 : gostring; x_Text2 : gostring; x_Text3 : gostring; x_Text4 : gostring;
  x_Text5 : gostring }.

(** tctx.Closed = v; tracecontext.go:12 *)
Definition set_Closed (v : bool) (x : tctx) : tctx :=
  mkX v (x_IsStream x) (x_Inherit x) (x_LastMethod x) (x_Goid x) (x_Profile x) (x_Txid x) (x_Gxid x) (x_XType x) (x_StartTime x) (x_ServiceHash x) (x_ServiceName x) (x_RemoteIp x) (x_Error x) (x_HttpMethod x) (x_SqlCount x) (x_SqlTime x) (x_Status x) (x_ApicallCount x) (x_ApicallTime x) (x_Userid x) (x_UserAgent x) (x_Referer x) (x_IsChildTx x) (x_Caller x) (x_CallerObjHash x) (x_Login x) (x_Desc x) (x_Text1 x) (x_Text2 x) (x_Text3 x) (x_Text4 x) (x_Text5 x).
(** tctx.IsStream = v; tracecontext.go:15 *)
Definition set_IsStream (v : bool) (x : tctx) : tctx :=
  mkX (x_Closed x) v (x_Inherit x) (x_LastMethod x) (x_Goid x) (x_Profile x) (x_Txid x) (x_Gxid x) (x_XType x) (x_StartTime x) (x_ServiceHash x) (x_ServiceName x) (x_RemoteIp x) (x_Error x) (x_HttpMethod x) (x_SqlCount x) (x_SqlTime x) (x_Status x) (x_ApicallCount x) (x_ApicallTime x) (x_Userid x) (x_UserAgent x) (x_Referer x) (x_IsChildTx x) (x_Caller x) (x_CallerObjHash x) (x_Login x) (x_Desc x) (x_Text1 x) (x_Text2 x) (x_Text3 x) (x_Text4 x) (x_Text5 x).
(** tctx.Inherit = v; tracecontext.go:17 *)
Definition set_Inherit (v : bool) (x : tctx) : tctx :=
  mkX (x_Closed x) (x_IsStream x) v (x_LastMethod x) (x_Goid x) (x_Profile x) (x_Txid x) (x_Gxid x) (x_XType x) (x_StartTime x) (x_ServiceHash x) (x_ServiceName x) (x_RemoteIp x) (x_Error x) (x_HttpMethod x) (x_SqlCount x) (x_SqlTime x) (x_Status x) (x_ApicallCount x) (x_ApicallTime x) (x_Userid x) (x_UserAgent x) (x_Referer x) (x_IsChildTx x) (x_Caller x) (x_CallerObjHash x) (x_Login x) (x_Desc x) (x_Text1 x) (x_Text2 x) (x_Text3 x) (x_Text4 x) (x_Text5 x).
(** tctx.LastMethod = v; tracecontext.go:14 *)
Definition set_LastMethod (v : gostring) (x : tctx) : tctx :=
  mkX (x_Closed x) (x_IsStream x) (x_Inherit x) v (x_Goid x) (x_Profile x) (x_Txid x) (x_Gxid x) (x_XType x) (x_StartTime x) (x_ServiceHash x) (x_ServiceName x) (x_RemoteIp x) (x_Error x) (x_HttpMethod x) (x_SqlCount x) (x_SqlTime x) (x_Status x) (x_ApicallCount x) (x_ApicallTime x) (x_Userid x) (x_UserAgent x) (x_Referer x) (x_IsChildTx x) (x_Caller x) (x_CallerObjHash x) (x_Login x) (x_Desc x) (x_Text1 x) (x_Text2 x) (x_Text3 x) (x_Text4 x) (x_Text5 x).
(** tctx.Goid = v; tracecontext.go:20 *)
Definition set_Goid (v : Z) (x : tctx) : tctx :=
  mkX (x_Closed x) (x_IsStream x) (x_Inherit x) (x_LastMethod x) v (x_Profile x) (x_Txid x) (x_Gxid x) (x_XType x) (x_StartTime x) (x_ServiceHash x) (x_ServiceName x) (x_RemoteIp x) (x_Error x) (x_HttpMethod x) (x_SqlCount x) (x_SqlTime x) (x_Status x) (x_ApicallCount x) (x_ApicallTime x) (x_Userid x) (x_UserAgent x) (x_Referer x) (x_IsChildTx x) (x_Caller x) (x_CallerObjHash x) (x_Login x) (x_Desc x) (x_Text1 x) (x_Text2 x) (x_Text3 x) (x_Text4 x) (x_Text5 x).
(** tctx.Profile = v; tracecontext.go:22 *)
Definition set_Profile (v : prof) (x : tctx) : tctx :=
  mkX (x_Closed x) (x_IsStream x) (x_Inherit x) (x_LastMethod x) (x_Goid x) v (x_Txid x) (x_Gxid x) (x_XType x) (x_StartTime x) (x_ServiceHash x) (x_ServiceName x) (x_RemoteIp x) (x_Error x) (x_HttpMethod x) (x_SqlCount x) (x_SqlTime x) (x_Status x) (x_ApicallCount x) (x_ApicallTime x) (x_Userid x) (x_UserAgent x) (x_Referer x) (x_IsChildTx x) (x_Caller x) (x_CallerObjHash x) (x_Login x) (x_Desc x) (x_Text1 x) (x_Text2 x) (x_Text3 x) (x_Text4 x) (x_Text5 x).
(** tctx.Txid = v; tracecontext.go:26 *)
Definition set_Txid (v : Z) (x : tctx) : tctx :=
  mkX (x_Closed x) (x_IsStream x) (x_Inherit x) (x_LastMethod x) (x_Goid x) (x_Profile x) v (x_Gxid x) (x_XType x) (x_StartTime x) (x_ServiceHash x) (x_ServiceName x) (x_RemoteIp x) (x_Error x) (x_HttpMethod x) (x_SqlCount x) (x_SqlTime x) (x_Status x) (x_ApicallCount x) (x_ApicallTime x) (x_Userid x) (x_UserAgent x) (x_Referer x) (x_IsChildTx x) (x_Caller x) (x_CallerObjHash x) (x_Login x) (x_Desc x) (x_Text1 x) (x_Text2 x) (x_Text3 x) (x_Text4 x) (x_Text5 x).
(** tctx.Gxid = v; tracecontext.go:27 *)
Definition set_Gxid (v : Z) (x : tctx) : tctx :=
  mkX (x_Closed x) (x_IsStream x) (x_Inherit x) (x_LastMethod x) (x_Goid x) (x_Profile x) (x_Txid x) v (x_XType x) (x_StartTime x) (x_ServiceHash x) (x_ServiceName x) (x_RemoteIp x) (x_Error x) (x_HttpMethod x) (x_SqlCount x) (x_SqlTime x) (x_Status x) (x_ApicallCount x) (x_ApicallTime x) (x_Userid x) (x_UserAgent x) (x_Referer x) (x_IsChildTx x) (x_Caller x) (x_CallerObjHash x) (x_Login x) (x_Desc x) (x_Text1 x) (x_Text2 x) (x_Text3 x) (x_Text4 x) (x_Text5 x).
(** tctx.XType = v; tracecontext.go:28 *)
Definition set_XType (v : Z) (x : tctx) : tctx :=
  mkX (x_Closed x) (x_IsStream x) (x_Inherit x) (x_LastMethod x) (x_Goid x) (x_Profile x) (x_Txid x) (x_Gxid x) v (x_StartTime x) (x_ServiceHash x) (x_ServiceName x) (x_RemoteIp x) (x_Error x) (x_HttpMethod x) (x_SqlCount x) (x_SqlTime x) (x_Status x) (x_ApicallCount x) (x_ApicallTime x) (x_Userid x) (x_UserAgent x) (x_Referer x) (x_IsChildTx x) (x_Caller x) (x_CallerObjHash x) (x_Login x) (x_Desc x) (x_Text1 x) (x_Text2 x) (x_Text3 x) (x_Text4 x) (x_Text5 x).
(** tctx.StartTime = v; tracecontext.go:30 *)
Definition set_StartTime (v : Z) (x : tctx) : tctx :=
  mkX (x_Closed x) (x_IsStream x) (x_Inherit x) (x_LastMethod x) (x_Goid x) (x_Profile x) (x_Txid x) (x_Gxid x) (x_XType x) v (x_ServiceHash x) (x_ServiceName x) (x_RemoteIp x) (x_Error x) (x_HttpMethod x) (x_SqlCount x) (x_SqlTime x) (x_Status x) (x_ApicallCount x) (x_ApicallTime x) (x_Userid x) (x_UserAgent x) (x_Referer x) (x_IsChildTx x) (x_Caller x) (x_CallerObjHash x) (x_Login x) (x_Desc x) (x_Text1 x) (x_Text2 x) (x_Text3 x) (x_Text4 x) (x_Text5 x).
(** tctx.ServiceHash = v; tracecontext.go:33 *)
Definition set_ServiceHash (v : Z) (x : tctx) : tctx :=
  mkX (x_Closed x) (x_IsStream x) (x_Inherit x) (x_LastMethod x) (x_Goid x) (x_Profile x) (x_Txid x) (x_Gxid x) (x_XType x) (x_StartTime x) v (x_ServiceName x) (x_RemoteIp x) (x_Error x) (x_HttpMethod x) (x_SqlCount x) (x_SqlTime x) (x_Status x) (x_ApicallCount x) (x_ApicallTime x) (x_Userid x) (x_UserAgent x) (x_Referer x) (x_IsChildTx x) (x_Caller x) (x_CallerObjHash x) (x_Login x) (x_Desc x) (x_Text1 x) (x_Text2 x) (x_Text3 x) (x_Text4 x) (x_Text5 x).
(** tctx.ServiceName = v; tracecontext.go:34 *)
Definition set_ServiceName (v : gostring) (x : tctx) : tctx :=
  mkX (x_Closed x) (x_IsStream x) (x_Inherit x) (x_LastMethod x) (x_Goid x) (x_Profile x) (x_Txid x) (x_Gxid x) (x_XType x) (x_StartTime x) (x_ServiceHash x) v (x_RemoteIp x) (x_Error x) (x_HttpMethod x) (x_SqlCount x) (x_SqlTime x) (x_Status x) (x_ApicallCount x) (x_ApicallTime x) (x_Userid x) (x_UserAgent x) (x_Referer x) (x_IsChildTx x) (x_Caller x) (x_CallerObjHash x) (x_Login x) (x_Desc x) (x_Text1 x) (x_Text2 x) (x_Text3 x) (x_Text4 x) (x_Text5 x).
(** tctx.RemoteIp = v; tracecontext.go:35 *)
Definition set_RemoteIp (v : gostring) (x : tctx) : tctx :=
  mkX (x_Closed x) (x_IsStream x) (x_Inherit x) (x_LastMethod x) (x_Goid x) (x_Profile x) (x_Txid x) (x_Gxid x) (x_XType x) (x_StartTime x) (x_ServiceHash x) (x_ServiceName x) v (x_Error x) (x_HttpMethod x) (x_SqlCount x) (x_SqlTime x) (x_Status x) (x_ApicallCount x) (x_ApicallTime x) (x_Userid x) (x_UserAgent x) (x_Referer x) (x_IsChildTx x) (x_Caller x) (x_CallerObjHash x) (x_Login x) (x_Desc x) (x_Text1 x) (x_Text2 x) (x_Text3 x) (x_Text4 x) (x_Text5 x).
(** tctx.Error = v; tracecontext.go:37 *)
Definition set_Error (v : Z) (x : tctx) : tctx :=
  mkX (x_Closed x) (x_IsStream x) (x_Inherit x) (x_LastMethod x) (x_Goid x) (x_Profile x) (x_Txid x) (x_Gxid x) (x_XType x) (x_StartTime x) (x_ServiceHash x) (x_ServiceName x) (x_RemoteIp x) v (x_HttpMethod x) (x_SqlCount x) (x_SqlTime x) (x_Status x) (x_ApicallCount x) (x_ApicallTime x) (x_Userid x) (x_UserAgent x) (x_Referer x) (x_IsChildTx x) (x_Caller x) (x_CallerObjHash x) (x_Login x) (x_Desc x) (x_Text1 x) (x_Text2 x) (x_Text3 x) (x_Text4 x) (x_Text5 x).
(** tctx.HttpMethod = v; tracecontext.go:38 *)
Definition set_HttpMethod (v : gostring) (x : tctx) : tctx :=
  mkX (x_Closed x) (x_IsStream x) (x_Inherit x) (x_LastMethod x) (x_Goid x) (x_Profile x) (x_Txid x) (x_Gxid x) (x_XType x) (x_StartTime x) (x_ServiceHash x) (x_ServiceName x) (x_RemoteIp x) (x_Error x) v (x_SqlCount x) (x_SqlTime x) (x_Status x) (x_ApicallCount x) (x_ApicallTime x) (x_Userid x) (x_UserAgent x) (x_Referer x) (x_IsChildTx x) (x_Caller x) (x_CallerObjHash x) (x_Login x) (x_Desc x) (x_Text1 x) (x_Text2 x) (x_Text3 x) (x_Text4 x) (x_Text5 x).
(** tctx.SqlCount = v; tracecontext.go:42 *)
Definition set_SqlCount (v : Z) (x : tctx) : tctx :=
  mkX (x_Closed x) (x_IsStream x) (x_Inherit x) (x_LastMethod x) (x_Goid x) (x_Profile x) (x_Txid x) (x_Gxid x) (x_XType x) (x_StartTime x) (x_ServiceHash x) (x_ServiceName x) (x_RemoteIp x) (x_Error x) (x_HttpMethod x) v (x_SqlTime x) (x_Status x) (x_ApicallCount x) (x_ApicallTime x) (x_Userid x) (x_UserAgent x) (x_Referer x) (x_IsChildTx x) (x_Caller x) (x_CallerObjHash x) (x_Login x) (x_Desc x) (x_Text1 x) (x_Text2 x) (x_Text3 x) (x_Text4 x) (x_Text5 x).
(** tctx.SqlTime = v; tracecontext.go:43 *)
Definition set_SqlTime (v : Z) (x : tctx) : tctx :=
  mkX (x_Closed x) (x_IsStream x) (x_Inherit x) (x_LastMethod x) (x_Goid x) (x_Profile x) (x_Txid x) (x_Gxid x) (x_XType x) (x_StartTime x) (x_ServiceHash x) (x_ServiceName x) (x_RemoteIp x) (x_Error x) (x_HttpMethod x) (x_SqlCount x) v (x_Status x) (x_ApicallCount x) (x_ApicallTime x) (x_Userid x) (x_UserAgent x) (x_Referer x) (x_IsChildTx x) (x_Caller x) (x_CallerObjHash x) (x_Login x) (x_Desc x) (x_Text1 x) (x_Text2 x) (x_Text3 x) (x_Text4 x) (x_Text5 x).
(** tctx.Status = v; tracecontext.go:46 *)
Definition set_Status (v : Z) (x : tctx) : tctx :=
  mkX (x_Closed x) (x_IsStream x) (x_Inherit x) (x_LastMethod x) (x_Goid x) (x_Profile x) (x_Txid x) (x_Gxid x) (x_XType x) (x_StartTime x) (x_ServiceHash x) (x_ServiceName x) (x_RemoteIp x) (x_Error x) (x_HttpMethod x) (x_SqlCount x) (x_SqlTime x) v (x_ApicallCount x) (x_ApicallTime x) (x_Userid x) (x_UserAgent x) (x_Referer x) (x_IsChildTx x) (x_Caller x) (x_CallerObjHash x) (x_Login x) (x_Desc x) (x_Text1 x) (x_Text2 x) (x_Text3 x) (x_Text4 x) (x_Text5 x).
(** tctx.ApicallCount = v; tracecontext.go:48 *)
Definition set_ApicallCount (v : Z) (x : tctx) : tctx :=
  mkX (x_Closed x) (x_IsStream x) (x_Inherit x) (x_LastMethod x) (x_Goid x) (x_Profile x) (x_Txid x) (x_Gxid x) (x_XType x) (x_StartTime x) (x_ServiceHash x) (x_ServiceName x) (x_RemoteIp x) (x_Error x) (x_HttpMethod x) (x_SqlCount x) (x_SqlTime x) (x_Status x) v (x_ApicallTime x) (x_Userid x) (x_UserAgent x) (x_Referer x) (x_IsChildTx x) (x_Caller x) (x_CallerObjHash x) (x_Login x) (x_Desc x) (x_Text1 x) (x_Text2 x) (x_Text3 x) (x_Text4 x) (x_Text5 x).
(** tctx.ApicallTime = v; tracecontext.go:49 *)
Definition set_ApicallTime (v : Z) (x : tctx) : tctx :=
  mkX (x_Closed x) (x_IsStream x) (x_Inherit x) (x_LastMethod x) (x_Goid x) (x_Profile x) (x_Txid x) (x_Gxid x) (x_XType x) (x_StartTime x) (x_ServiceHash x) (x_ServiceName x) (x_RemoteIp x) (x_Error x) (x_HttpMethod x) (x_SqlCount x) (x_SqlTime x) (x_Status x) (x_ApicallCount x) v (x_Userid x) (x_UserAgent x) (x_Referer x) (x_IsChildTx x) (x_Caller x) (x_CallerObjHash x) (x_Login x) (x_Desc x) (x_Text1 x) (x_Text2 x) (x_Text3 x) (x_Text4 x) (x_Text5 x).
(** tctx.Userid = v; tracecontext.go:57 *)
Definition set_Userid (v : Z) (x : tctx) : tctx :=
  mkX (x_Closed x) (x_IsStream x) (x_Inherit x) (x_LastMethod x) (x_Goid x) (x_Profile x) (x_Txid x) (x_Gxid x) (x_XType x) (x_StartTime x) (x_ServiceHash x) (x_ServiceName x) (x_RemoteIp x) (x_Error x) (x_HttpMethod x) (x_SqlCount x) (x_SqlTime x) (x_Status x) (x_ApicallCount x) (x_ApicallTime x) v (x_UserAgent x) (x_Referer x) (x_IsChildTx x) (x_Caller x) (x_CallerObjHash x) (x_Login x) (x_Desc x) (x_Text1 x) (x_Text2 x) (x_Text3 x) (x_Text4 x) (x_Text5 x).
(** tctx.UserAgent = v; tracecontext.go:58 *)
Definition set_UserAgent (v : Z) (x : tctx) : tctx :=
  mkX (x_Closed x) (x_IsStream x) (x_Inherit x) (x_LastMethod x) (x_Goid x) (x_Profile x) (x_Txid x) (x_Gxid x) (x_XType x) (x_StartTime x) (x_ServiceHash x) (x_ServiceName x) (x_RemoteIp x) (x_Error x) (x_HttpMethod x) (x_SqlCount x) (x_SqlTime x) (x_Status x) (x_ApicallCount x) (x_ApicallTime x) (x_Userid x) v (x_Referer x) (x_IsChildTx x) (x_Caller x) (x_CallerObjHash x) (x_Login x) (x_Desc x) (x_Text1 x) (x_Text2 x) (x_Text3 x) (x_Text4 x) (x_Text5 x).
(** tctx.Referer = v; tracecontext.go:60 *)
Definition set_Referer (v : Z) (x : tctx) : tctx :=
  mkX (x_Closed x) (x_IsStream x) (x_Inherit x) (x_LastMethod x) (x_Goid x) (x_Profile x) (x_Txid x) (x_Gxid x) (x_XType x) (x_StartTime x) (x_ServiceHash x) (x_ServiceName x) (x_RemoteIp x) (x_Error x) (x_HttpMethod x) (x_SqlCount x) (x_SqlTime x) (x_Status x) (x_ApicallCount x) (x_ApicallTime x) (x_Userid x) (x_UserAgent x) v (x_IsChildTx x) (x_Caller x) (x_CallerObjHash x) (x_Login x) (x_Desc x) (x_Text1 x) (x_Text2 x) (x_Text3 x) (x_Text4 x) (x_Text5 x).
(** tctx.IsChildTx = v; tracecontext.go:62 *)
Definition set_IsChildTx (v : bool) (x : tctx) : tctx :=
  mkX (x_Closed x) (x_IsStream x) (x_Inherit x) (x_LastMethod x) (x_Goid x) (x_Profile x) (x_Txid x) (x_Gxid x) (x_XType x) (x_StartTime x) (x_ServiceHash x) (x_ServiceName x) (x_RemoteIp x) (x_Error x) (x_HttpMethod x) (x_SqlCount x) (x_SqlTime x) (x_Status x) (x_ApicallCount x) (x_ApicallTime x) (x_Userid x) (x_UserAgent x) (x_Referer x) v (x_Caller x) (x_CallerObjHash x) (x_Login x) (x_Desc x) (x_Text1 x) (x_Text2 x) (x_Text3 x) (x_Text4 x) (x_Text5 x).
(** tctx.Caller = v; tracecontext.go:63 *)
Definition set_Caller (v : Z) (x : tctx) : tctx :=
  mkX (x_Closed x) (x_IsStream x) (x_Inherit x) (x_LastMethod x) (x_Goid x) (x_Profile x) (x_Txid x) (x_Gxid x) (x_XType x) (x_StartTime x) (x_ServiceHash x) (x_ServiceName x) (x_RemoteIp x) (x_Error x) (x_HttpMethod x) (x_SqlCount x) (x_SqlTime x) (x_Status x) (x_ApicallCount x) (x_ApicallTime x) (x_Userid x) (x_UserAgent x) (x_Referer x) (x_IsChildTx x) v (x_CallerObjHash x) (x_Login x) (x_Desc x) (x_Text1 x) (x_Text2 x) (x_Text3 x) (x_Text4 x) (x_Text5 x).
(** tctx.CallerObjHash = v; tracecontext.go:65 *)
Definition set_CallerObjHash (v : Z) (x : tctx) : tctx :=
  mkX (x_Closed x) (x_IsStream x) (x_Inherit x) (x_LastMethod x) (x_Goid x) (x_Profile x) (x_Txid x) (x_Gxid x) (x_XType x) (x_StartTime x) (x_ServiceHash x) (x_ServiceName x) (x_RemoteIp x) (x_Error x) (x_HttpMethod x) (x_SqlCount x) (x_SqlTime x) (x_Status x) (x_ApicallCount x) (x_ApicallTime x) (x_Userid x) (x_UserAgent x) (x_Referer x) (x_IsChildTx x) (x_Caller x) v (x_Login x) (x_Desc x) (x_Text1 x) (x_Text2 x) (x_Text3 x) (x_Text4 x) (x_Text5 x).
(** tctx.Login = v; tracecontext.go:67 *)
Definition set_Login (v : gostring) (x : tctx) : tctx :=
  mkX (x_Closed x) (x_IsStream x) (x_Inherit x) (x_LastMethod x) (x_Goid x) (x_Profile x) (x_Txid x) (x_Gxid x) (x_XType x) (x_StartTime x) (x_ServiceHash x) (x_ServiceName x) (x_RemoteIp x) (x_Error x) (x_HttpMethod x) (x_SqlCount x) (x_SqlTime x) (x_Status x) (x_ApicallCount x) (x_ApicallTime x) (x_Userid x) (x_UserAgent x) (x_Referer x) (x_IsChildTx x) (x_Caller x) (x_CallerObjHash x) v (x_Desc x) (x_Text1 x) (x_Text2 x) (x_Text3 x) (x_Text4 x) (x_Text5 x).
(** tctx.Desc = v; tracecontext.go:68 *)
Definition set_Desc (v : gostring) (x : tctx) : tctx :=
  mkX (x_Closed x) (x_IsStream x) (x_Inherit x) (x_LastMethod x) (x_Goid x) (x_Profile x) (x_Txid x) (x_Gxid x) (x_XType x) (x_StartTime x) (x_ServiceHash x) (x_ServiceName x) (x_RemoteIp x) (x_Error x) (x_HttpMethod x) (x_SqlCount x) (x_SqlTime x) (x_Status x) (x_ApicallCount x) (x_ApicallTime x) (x_Userid x) (x_UserAgent x) (x_Referer x) (x_IsChildTx x) (x_Caller x) (x_CallerObjHash x) (x_Login x) v (x_Text1 x) (x_Text2 x) (x_Text3 x) (x_Text4 x) (x_Text5 x).
(** tctx.Text1 = v; tracecontext.go:70 *)
Definition set_Text1 (v : gostring) (x : tctx) : tctx :=
  mkX (x_Closed x) (x_IsStream x) (x_Inherit x) (x_LastMethod x) (x_Goid x) (x_Profile x) (x_Txid x) (x_Gxid x) (x_XType x) (x_StartTime x) (x_ServiceHash x) (x_ServiceName x) (x_RemoteIp x) (x_Error x) (x_HttpMethod x) (x_SqlCount x) (x_SqlTime x) (x_Status x) (x_ApicallCount x) (x_ApicallTime x) (x_Userid x) (x_UserAgent x) (x_Referer x) (x_IsChildTx x) (x_Caller x) (x_CallerObjHash x) (x_Login x) (x_Desc x) v (x_Text2 x) (x_Text3 x) (x_Text4 x) (x_Text5 x).
(** tctx.Text2 = v; tracecontext.go:71 *)
Definition set_Text2 (v : gostring) (x : tctx) : tctx :=
  mkX (x_Closed x) (x_IsStream x) (x_Inherit x) (x_LastMethod x) (x_Goid x) (x_Profile x) (x_Txid x) (x_Gxid x) (x_XType x) (x_StartTime x) (x_ServiceHash x) (x_ServiceName x) (x_RemoteIp x) (x_Error x) (x_HttpMethod x) (x_SqlCount x) (x_SqlTime x) (x_Status x) (x_ApicallCount x) (x_ApicallTime x) (x_Userid x) (x_UserAgent x) (x_Referer x) (x_IsChildTx x) (x_Caller x) (x_CallerObjHash x) (x_Login x) (x_Desc x) (x_Text1 x) v (x_Text3 x) (x_Text4 x) (x_Text5 x).
(** tctx.Text3 = v; tracecontext.go:72 *)
Definition set_Text3 (v : gostring) (x : tctx) : tctx :=
  mkX (x_Closed x) (x_IsStream x) (x_Inherit x) (x_LastMethod x) (x_Goid x) (x_Profile x) (x_Txid x) (x_Gxid x) (x_XType x) (x_StartTime x) (x_ServiceHash x) (x_ServiceName x) (x_RemoteIp x) (x_Error x) (x_HttpMethod x) (x_SqlCount x) (x_SqlTime x) (x_Status x) (x_ApicallCount x) (x_ApicallTime x) (x_Userid x) (x_UserAgent x) (x_Referer x) (x_IsChildTx x) (x_Caller x) (x_CallerObjHash x) (x_Login x) (x_Desc x) (x_Text1 x) (x_Text2 x) v (x_Text4 x) (x_Text5 x).
(** tctx.Text4 = v; tracecontext.go:73 *)
Definition set_Text4 (v : gostring) (x : tctx) : tctx :=
  mkX (x_Closed x) (x_IsStream x) (x_Inherit x) (x_LastMethod x) (x_Goid x) (x_Profile x) (x_Txid x) (x_Gxid x) (x_XType x) (x_StartTime x) (x_ServiceHash x) (x_ServiceName x) (x_RemoteIp x) (x_Error x) (x_HttpMethod x) (x_SqlCount x) (x_SqlTime x) (x_Status x) (x_ApicallCount x) (x_ApicallTime x) (x_Userid x) (x_UserAgent x) (x_Referer x) (x_IsChildTx x) (x_Caller x) (x_CallerObjHash x) (x_Login x) (x_Desc x) (x_Text1 x) (x_Text2 x) (x_Text3 x) v (x_Text5 x).
(** tctx.Text5 = v; tracecontext.go:74 *)
Definition set_Text5 (v : gostring) (x : tctx) : tctx :=
  mkX (x_Closed x) (x_IsStream x) (x_Inherit x) (x_LastMethod x) (x_Goid x) (x_Profile x) (x_Txid x) (x_Gxid x) (x_XType x) (x_StartTime x) (x_ServiceHash x) (x_ServiceName x) (x_RemoteIp x) (x_Error x) (x_HttpMethod x) (x_SqlCount x) (x_SqlTime x) (x_Status x) (x_ApicallCount x) (x_ApicallTime x) (x_Userid x) (x_UserAgent x) (x_Referer x) (x_IsChildTx x) (x_Caller x) (x_CallerObjHash x) (x_Login x) (x_Desc x) (x_Text1 x) (x_Text2 x) (x_Text3 x) (x_Text4 x) v.

(** tracecontext.go:80-86 NewTraceContext; [key] is keygen.Next(), [now] time.Now(). [None]: make panics. *)
Definition new_tctx (keep key now : Z) : option tctx :=
  match new_prof keep with
  | None => None
  | Some p => Some (mkX false false false [] 0 p key 0 0 now 0 [] [] 0 [] 0 0 0 0 0 0 0 0 false 0 0 [] [] [] [] [] [] [])
  end.

(** the settings read by the tracing API; configure.go:58-122 *)
Record conf := mkConf {
  cf_keep : Z;             (* ProfileStepMaxKeepInMemoryCount *)
  cf_bulk : Z;             (* ProfileStepMaxCount *)
  cf_obj : Z;              (* ObjHash *)
  cf_yellow : Z; cf_red : Z;                                          (* TraceActiveserviceYellowTime, RedTime *)
  cf_stuck_ms : Z; cf_stuck_remove : bool; cf_stuck_alert : bool;     (* StuckService... *)
  cf_header : bool; cf_header_keys : gostring; cf_query : bool;       (* ProfileHttp... *)
  cf_sampling : sconf }.

(** What one call gets from outside: the configuration, the clock (one reading per call), whether the queue
    for text packs has room for a text, the random draw of the sampler, the next key of the key generator
    (Go's rand.Int63, any non-negative int64), the number of the calling goroutine, and the order in which a range
    over the table of active services visits it. what tracemain.go:29-605 reads from outside *)
Record env := mkN {
  n_conf : conf; n_now : Z; n_room : kind -> gostring -> bool; n_draw : Z; n_key : Z; n_goid : Z; n_order : list (Z * Z) }.

(** What is observed outside, oldest first: an xlog given to the UDP sender, a sample given to the service meter,
    an alert. The number of the trace context ([h]) is not part of what is sent. dataproxy.go:156-168, 209-248, serviceMetering.go:49-59, called from tracemain.go:373-398 *)
Inductive aevent :=
| EvXlog (h : nat) (p : xlog_pack)
| EvMeter (h : nat) (elapsed : Z) (error : bool)
| EvAlert (level : Z) (title : gostring).

(** The package variables: text caches (dataproxy.go:16-26), the table of active services (tctxmanager.go:17, values are
    the numbers of trace contexts), the sampler; and the trace contexts created so far, in creation order (heap objects). *)
Record agent := mkA { a_text : tstate; a_ctx : list tctx; a_active : lra; a_sampler : sampler; a_log : list aevent }.

(** the start: dataproxy.go:16-26, tctxmanager.go:17, xlogsampler.go:28-46 *)
Definition a_init (c : sconf) : agent := mkA t_init [] (lra_new 10000) (new_sampler c) [].

(** Go calls: a new state, and a result or a panic; tracemain.go:29-605 *)
Definition M (A : Type) := agent -> agent * option A.
(** return x, as in tracemain.go:29-605 *)
Definition ret {A} (x : A) : M A := fun a => (a, Some x).
(** a run-time panic, as a nil dereference in tracemain.go:29-605 *)
Definition panic {A} : M A := fun a => (a, None).
(** two statements one after the other, as in tracemain.go:29-605 *)
Definition bind {A B} (m : M A) (f : A -> M B) : M B :=
  fun a => match m a with (a', Some x) => f x a' | (a', None) => (a', None) end.
Notation "x <- m ;; f" := (bind m (fun x => f)) (at level 61, m at next level, right associativity).
Notation "m ;; f" := (bind m (fun _ => f)) (at level 61, right associativity).

(** the text caches changed: dataproxy.go:16-26 *)
Definition set_text t (a : agent) := mkA t (a_ctx a) (a_active a) (a_sampler a) (a_log a).
(** the trace contexts changed: tracecontext.go:11-78 *)
Definition set_ctxs l (a : agent) := mkA (a_text a) l (a_active a) (a_sampler a) (a_log a).
(** the registry of running services changed: tctxmanager.go:17 *)
Definition set_active c (a : agent) := mkA (a_text a) (a_ctx a) c (a_sampler a) (a_log a).
(** something given to the outside: dataproxy.go:156-168, 209-248 *)
Definition add_log e (a : agent) := mkA (a_text a) (a_ctx a) (a_active a) (a_sampler a) (a_log a ++ [e]).

(** assignment to the fields of a heap object; tracecontext.go:11-78 *)
Fixpoint list_set {A} (l : list A) (i : nat) (x : A) : list A :=
  match l, i with
  | [], _ => []
  | _ :: l', O => x :: l'
  | y :: l', S i' => y :: list_set l' i' x
  end.
(** assignment to fields of a trace context: tracecontext.go:11-78 *)
Definition modify (h : nat) (f : tctx -> tctx) : M unit :=
  fun a => match nth_error (a_ctx a) h with
           | Some x => (set_ctxs (list_set (a_ctx a) h (f x)) a, Some tt)
           | None => (a, None)
           end.
(** reading a field of a trace context: tracecontext.go:11-78 *)
Definition read {A} (h : nat) (f : tctx -> A) : M A :=
  fun a => match nth_error (a_ctx a) h with Some x => (a, Some (f x)) | None => (a, None) end.
(** something given to the outside: dataproxy.go:156-168, 209-248 *)
Definition emit (e : aevent) : M unit := fun a => (add_log e a, Some tt).

(** netio.SendServiceName etc. dataproxy.go:52-207 *)
Definition send_text (n : env) (k : kind) (name : gostring) : M Z :=
  fun a => match text_send k name (n_room n k name) (a_text a) with
           | Some (t, h) => (set_text t a, Some h)
           | None => (a, None)
           end.

(** common.ReportScouterPanic, panic.go:17-23, deferred by a function: a panic is turned into an alert
    and the function returns what its named results hold ([dflt]). The alert's text (with a stack trace) is left out. *)
Definition recovered {A} (dflt : A) (m : M A) : M A :=
  fun a => match m a with
           | (a', Some x) => (a', Some x)
           | (a', None) => (add_log (EvAlert 3 (of_string "Panic")) a', Some dflt)
           end.

(** timeutil.go:25-27 util.MillisToNow(tctx.StartTime) *)
Definition millis (n : env) (h : nat) : M Z := read h (fun x => millis_between (x_StartTime x) (n_now n)).

(** the profile collector's view of a call; profilecollector.go:8-17 *)
Definition env_of (n : env) (x : tctx) : penv :=
  mkEnv (cf_keep (n_conf n)) (cf_bulk (n_conf n)) (x_Txid x) (cf_obj (n_conf n)) (x_ServiceHash x)
        (millis_between (x_StartTime x) (n_now n)).
(** tctx.Profile.Add(step), Push, Pop, Close. A panic inside (M_Profile.v: [None]) leaves the collector as it was: a
    simplification, the real one has counted the step before failing. profilecollector.go:26-65, called from tracemain.go:94-151, 373-398, 431-605 *)
Definition profile_op {A} (h : nat) (f : tctx -> option (prof * A)) : M A :=
  fun a => match nth_error (a_ctx a) h with
           | Some x => match f x with
                       | Some (p, r) => (set_ctxs (list_set (a_ctx a) h (set_Profile p x)) a, Some r)
                       | None => (a, None)
                       end
           | None => (a, None)
           end.
(** a call of profilecollector.go:34-65 without a result *)
Definition unit_op (o : option prof) : option (prof * unit) := option_map (fun p => (p, tt)) o.
(** profilecollector.go:40-46 *)
Definition profile_add (n : env) (h : nat) (st : step) : M unit :=
  profile_op h (fun x => unit_op (add (env_of n x) st (x_Profile x))).
(** the result is the pointer to the new step; profilecollector.go:26-32 *)
Definition profile_push (h : nat) (st : step) : M nat :=
  profile_op h (fun x => Some (push st (x_Profile x), length (p_heap (x_Profile x)))).
(** profilecollector.go:34-38 *)
Definition profile_pop (n : env) (h : nat) (ptr : nat) (st : step) : M unit :=
  profile_op h (fun x => unit_op (pop (env_of n x) ptr st (x_Profile x))).
(** profilecollector.go:60-65 *)
Definition profile_close (n : env) (h : nat) (ok : bool) : M unit :=
  profile_op h (fun x => unit_op (close (env_of n x) ok (x_Profile x))).

(** messagestep.go NewMessageStep(message, startTime); messagestep.go:8-13 *)
Definition message_step (m : gostring) (start : Z) : step := SMessage (mk_single 0 0 start) m.

(* ------------------------------------------------------------------ *)
(** * context.Context values *)

(** nil; a context without a trace; a context carrying trace context number [h]; context.Context as used in tctxmanager.go:31-60 *)
Inductive ctx := CNil | CPlain | CTrace (h : nat).

(** tctxmanager.go:39-46 GetTraceContext. ctx.Value on a nil interface panics. Numbers that were never handed
    out do not occur in a program; here they count as no trace. *)
Definition get_tctx (c : ctx) : M (option nat) :=
  fun a => match c with
           | CNil => (a, None)
           | CPlain => (a, Some None)
           | CTrace h => (a, Some (match nth_error (a_ctx a) h with Some _ => Some h | None => None end))
           end.

(** the prologue of most functions, e.g. tracemain.go:31-37: return [dflt] for a nil context or one without trace *)
Definition traced {A} (c : ctx) (dflt : A) (k : nat -> M A) : M A :=
  match c with
  | CNil => ret dflt
  | _ => o <- get_tctx c ;; match o with None => ret dflt | Some h => k h end
  end.

(* ------------------------------------------------------------------ *)
(** * Starting *)

(** strings.Split(ip, ":")[0], tracemain.go:189-192 *)
Definition normalize_ip (ip : gostring) : gostring := hd [] (split_byte 58 ip).

(** tctxmanager.go:56-60 NewTraceContext, :62-64 Start *)
Definition alloc (n : env) : M nat :=
  fun a => match new_tctx (cf_keep (n_conf n)) (n_key n) (n_now n) with
           | Some x => (set_ctxs (a_ctx a ++ [x]) a, Some (length (a_ctx a)))
           | None => (a, None)
           end.
(** tctxmanager.go:62-64 *)
Definition tm_start (h : nat) : M unit :=
  txid <- read h x_Txid ;;
  fun a => (set_active (fst (lra_add (a_active a) txid (Some (Z.of_nat h)))) a, Some tt).
(** tctxmanager.go:66-68 End *)
Definition tm_end (h : nat) : M unit :=
  txid <- read h x_Txid ;;
  fun a => (set_active (fst (lra_remove (a_active a) txid)) a, Some tt).

(** tracemain.go:333-345 startService; common.Goid() is [n_goid] *)
Definition start_service0 (n : env) (name addr : gostring) : M nat :=
  h <- alloc n ;;
  tm_start h ;;
  modify h (fun x => set_Gxid (x_Txid x) x) ;;
  modify h (set_Goid (n_goid n)) ;;
  profile_add n h (message_step (of_string "goroutine:" ++ format_int 10 (n_goid n)) 0) ;;
  modify h (set_ServiceName name) ;;
  sh <- send_text n KService name ;;
  modify h (set_ServiceHash sh) ;;
  modify h (set_RemoteIp (normalize_ip addr)) ;;
  ret h.

(** xlogpack.go:9-14 *)
Definition XTYPE_WEB := 0. Definition XTYPE_APP := 1. Definition XTYPE_BACK_THREAD2 := 4.

(** tracemain.go:211-223 StartService. The named result is nil until startService returns. *)
Definition start_service (n : env) (c : ctx) (name ip : gostring) : M ctx :=
  recovered CNil (
    let c := match c with CNil => CPlain | _ => c end in
    o <- get_tctx c ;;
    match o with
    | Some _ => ret c
    | None =>
        h <- start_service0 n name ip ;;
        modify h (set_XType XTYPE_APP) ;;
        ret (CTrace h)
    end).

(** The parts of an http.Request that are read: URL.Path, URL.RawQuery, Method, RemoteAddr; the client address header
    (Header.Get of the configured key, empty when no key is configured: tracemain.go:180-181), User-Agent, Referer; all headers in
    iteration order; Header.Values(strings.TrimSpace(key)) *)
Record request := mkReq { rq_path : gostring; rq_query : gostring; rq_method : gostring; rq_remote : gostring;
  rq_ip_header : gostring; rq_ua : gostring; rq_referer : gostring;
  rq_headers : list (gostring * list gostring); rq_values : gostring -> list gostring }.

(** tracemain.go:178-187 *)
Definition get_remote_ip (r : request) : gostring := match rq_ip_header r with [] => rq_remote r | ip => ip end.

(** strings.Join(l, ","); tracemain.go:500-524 *)
Definition join_comma (l : list gostring) : gostring :=
  match l with [] => [] | x :: l' => x ++ concat (map (fun s => 44 :: s) l') end.

(** the step made in the loop of tracemain.go:500-524 *)
Definition header_step (start : Z) (kv : gostring * list gostring) : step :=
  message_step (of_string "header: " ++ fst kv ++ of_string ": " ++ join_comma (snd kv)) start.

(** a range loop, as in tracemain.go:500-524 *)
Fixpoint for_each {A} (l : list A) (f : A -> M unit) : M unit :=
  match l with [] => ret tt | x :: l' => f x ;; for_each l' f end.

(** tracemain.go:500-524 profileHttpHeaders *)
Definition profile_http_headers (n : env) (r : request) (h : nat) : M unit :=
  start <- millis n h ;;
  (if cf_header (n_conf n) then
     match cf_header_keys (n_conf n) with
     | [] => for_each (rq_headers r) (fun kv => profile_add n h (header_step start kv))
     | keys => for_each (split_byte 44 keys) (fun k =>
                 match rq_values r k with [] => ret tt | vs => profile_add n h (header_step start (k, vs)) end)
     end
   else ret tt) ;;
  (if cf_query (n_conf n) then profile_add n h (message_step (of_string "query: " ++ rq_query r) start) else ret tt).

(** tracemain.go:153-176 StartHttpService; [None]: a nil request *)
Definition start_http_service (n : env) (c : ctx) (req : option request) : M ctx :=
  recovered CNil (
    match c with
    | CNil => ret CPlain
    | _ =>
        o <- get_tctx c ;;
        match o with
        | Some _ => ret c
        | None =>
            match req with
            | None => panic
            | Some r =>
                h <- start_service0 n (rq_path r ++ of_string "<" ++ rq_method r ++ of_string ">") (get_remote_ip r) ;;
                (modify h (set_XType XTYPE_WEB) ;;
                 ua <- send_text n KUserAgent (rq_ua r) ;;
                 modify h (set_UserAgent ua) ;;
                 modify h (set_HttpMethod (rq_method r)) ;;
                 rf <- send_text n KReferer (rq_referer r) ;;
                 modify h (set_Referer rf) ;;
                 profile_http_headers n r h ;;
                 ret (CTrace h))
            end
        end
    end).

(** tracemain.go:242-282 inheritTctx (Userid .. Text5 as in the code) *)
Definition inherit_fields (obj : Z) (parent x : tctx) : tctx :=
  set_Text5 (x_Text5 parent) (set_Text4 (x_Text4 parent) (set_Text3 (x_Text3 parent) (set_Text2 (x_Text2 parent) (set_Text1 (x_Text1 parent)
  (set_Desc (x_Desc parent) (set_Login (x_Login parent)
  (set_CallerObjHash obj (set_Caller (x_Txid parent) (set_IsChildTx true
  (set_Referer (x_Referer parent) (set_UserAgent (x_UserAgent parent) (set_Userid (x_Userid parent)
  (set_ApicallTime (x_ApicallTime parent) (set_ApicallCount (x_ApicallCount parent)
  (set_SqlTime (x_SqlTime parent) (set_SqlCount (x_SqlCount parent)
  (set_HttpMethod (x_HttpMethod parent) (set_Error (x_Error parent)
  (set_IsStream (x_IsStream parent) x))))))))))))))))))).
(** tracemain.go:242-282 inheritTctx *)
Definition inherit_tctx (n : env) (h ph : nat) : M unit :=
  p <- read ph (fun x => x) ;;
  modify h (fun x => set_XType (x_XType p) (set_Gxid (x_Gxid p) (set_Inherit true x))) ;;
  profile_add n h (message_step (of_string "scouter inheritance step") 0) ;;
  p <- read ph (fun x => x) ;;
  modify h (inherit_fields (cf_obj (n_conf n)) p).

(** tracemain.go:230-240 StartNewInheritanceService with an existing parent trace context *)
Definition start_inheritance (n : env) (c : ctx) (ph : nat) : M ctx :=
  recovered CNil (
    p <- read ph (fun x => x) ;;
    h <- start_service0 n (x_ServiceName p) (x_RemoteIp p) ;;
    inherit_tctx n h ph ;;
    ret (CTrace h)).

(** tracemain.go:301-326 startChildGoroutineService *)
Definition start_child (n : env) (c : ctx) (name : gostring) : M ctx :=
  traced c c (fun ph =>
    ip <- read ph x_RemoteIp ;;
    h <- start_service0 n name ip ;;
    modify h (set_XType XTYPE_BACK_THREAD2) ;;
    ptx <- read ph x_Txid ;;
    pgx <- read ph x_Gxid ;;
    modify h (fun x => set_Gxid pgx (set_Caller ptx x)) ;;
    (if pgx =? 0 then modify h (set_Gxid ptx) ;; modify ph (set_Gxid ptx) else ret tt) ;;
    tx <- read h x_Txid ;;
    st <- millis n ph ;;
    hs <- send_text n KApicall name ;;
    profile_add n ph (SAsync (mk_single 0 0 st) tx hs 0) ;;
    ret (CTrace h)).

(** tracemain.go:289-299 GoWithTrace up to and including the go statement: the context the user's function is
    started with; [None]: it is never started *)
Definition go_with_trace (n : env) (c : ctx) (name : gostring) : M (option ctx) :=
  recovered None (c' <- start_child n c name ;; ret (Some c')).
(** tracemain.go:293-295, the first thing the new goroutine does *)
Definition go_begin (n : env) (c : ctx) : M unit :=
  match c with CTrace h => modify h (set_StartTime (n_now n)) | _ => ret tt end.

(* ------------------------------------------------------------------ *)
(** * Ending *)

(** tracecontext.go:98-138 ToXlog; the receiver is a copy of the trace context *)
Definition to_xlog (n : env) (x : tctx) (discard elapsed : Z) : M xlog_pack :=
  thread <- send_text n KHashMsg (format_int 10 (x_Gxid x)) ;;
  login <- (match x_Login x with [] => ret 0 | s => send_text n KLogin s end) ;;
  desc <- (match x_Desc x with [] => ret 0 | s => send_text n KDesc s end) ;;
  ret {| xl_EndTime := 0; xl_ObjHash := 0; xl_Service := x_ServiceHash x; xl_Txid := x_Txid x; xl_Caller := x_Caller x; xl_Gxid := x_Gxid x;
         xl_Elapsed := elapsed; xl_Error := x_Error x; xl_Cpu := 0; xl_SqlCount := x_SqlCount x; xl_SqlTime := x_SqlTime x;
         xl_Ipaddr := ip_to_bytes (x_RemoteIp x); xl_Kbytes := 0; xl_Status := x_Status x; xl_Userid := x_Userid x;
         xl_UserAgent := x_UserAgent x; xl_Referer := x_Referer x; xl_Group := 0; xl_ApicallCount := x_ApicallCount x;
         xl_ApicallTime := x_ApicallTime x; xl_CountryCode := []; xl_City := 0; xl_XType := x_XType x; xl_Login := login; xl_Desc := desc;
         xl_WebHash := 0; xl_WebTime := 0; xl_HasDump := 0; xl_ThreadNameHash := thread;
         xl_Text1 := x_Text1 x; xl_Text2 := x_Text2 x; xl_QueuingHostHash := 0; xl_QueuingTime := 0; xl_Queuing2ndHostHash := 0;
         xl_Queuing2ndTime := 0; xl_Text3 := x_Text3 x; xl_Text4 := x_Text4 x; xl_Text5 := x_Text5 x;
         xl_ProfileCount := int32 (p_count (x_Profile x)); xl_B3Mode := false; xl_ProfileSize := int32 (p_size (x_Profile x));
         xl_DiscardType := discard; xl_IgnoreGCS := false |}.

(** xlogpack.go:93-95 IsDriving *)
Definition is_driving (p : xlog_pack) : bool := (xl_Gxid p =? xl_Txid p) || (xl_Gxid p =? 0).

(** dataproxy.go:209-212 SendXlog *)
Definition with_obj (obj : Z) (p : xlog_pack) : xlog_pack :=
  match p with
  | mk_xlog_pack a _ c d e f g h i j k l m o p q r s t u v w x y z a1 b1 c1 d1 e1 f1 g1 h1 i1 j1 k1 l1 m1 n1 o1 p1 q1 r1 =>
      mk_xlog_pack a obj c d e f g h i j k l m o p q r s t u v w x y z a1 b1 c1 d1 e1 f1 g1 h1 i1 j1 k1 l1 m1 n1 o1 p1 q1 r1
  end.

(** tracemain.go:373-398 endAnyServiceOfTraceContext *)
Definition end_tctx (n : env) (h : nat) : M unit :=
  closed <- read h x_Closed ;;
  if (closed : bool) then ret tt
  else
    (modify h (set_Closed true) ;;
     name <- read h x_ServiceName ;;
     sh <- send_text n KService name ;;
     modify h (set_ServiceHash sh) ;;
     tm_end h ;;
     elapsed <- millis n h ;;
     x <- read h (fun x => x) ;;
     discard <- (fun a => (a, Some (find_xlog_discard (cf_sampling (n_conf n)) (a_sampler a) (n_draw n) (x_Error x) elapsed (x_ServiceName x)))) ;;
     xlog <- to_xlog n x discard elapsed ;;
     profile_close n h (discard =? DISCARD_NONE) ;;
     emit (EvMeter h (xl_Elapsed xlog) (negb (xl_Error xlog =? 0))) ;;
     (if (negb (xl_DiscardType xlog =? DISCARD_ALL) && negb (xl_DiscardType xlog =? DISCARD_ALL_FORCE))
         || (negb (is_driving xlog) && (xl_DiscardType xlog =? DISCARD_ALL))
      then emit (EvXlog h (with_obj (cf_obj (n_conf n)) xlog))
      else ret tt)).

(** tracemain.go:347-356 endAnyService *)
Definition end_any (n : env) (c : ctx) : M unit :=
  traced c tt (fun h => closed <- read h x_Closed ;; if (closed : bool) then ret tt else end_tctx n h).

(** tracemain.go:225-228 EndService; :328-331 endChildGoroutineService is the same *)
Definition end_service (n : env) (c : ctx) : M unit := recovered tt (end_any n c).

(** tracemain.go:194-209 EndHttpService; [status]: res.StatusCode, [None] for a nil response *)
Definition end_http_service (n : env) (c : ctx) (status : option Z) : M unit :=
  recovered tt (
    match status with
    | None => end_any n c
    | Some code =>
        traced c tt (fun h =>
          closed <- read h x_Closed ;;
          if (closed : bool) then ret tt else (modify h (set_Status (int32 code)) ;; end_any n c))
    end).

(** tracemain.go:358-371 endStuckServiceForcibly *)
Definition PMSG_ERROR := 3.
(** tracemain.go:358-371 *)
Definition end_stuck (n : env) (h : nat) : M unit :=
  recovered tt (
    if cf_stuck_remove (n_conf n) then
      (st <- millis n h ;;
       hs <- send_text n KHashMsg (of_string "Service currently may running, not finished!") ;;
       profile_add n h (SPMessage (mk_single 0 0 st) hs 0 PMSG_ERROR []) ;;
       err <- read h x_Error ;;
       (if err =? 0 then (e <- send_text n KError (of_string "This stuck service currently may running, not finished!") ;;
                          modify h (set_Error e))
        else ret tt) ;;
       end_tctx n h)
    else ret tt).

(** tctxmanager.go:74-106 GetActiveCount; the loop over the values. The alert's message is left out. *)
Fixpoint active_loop (n : env) (count : Z) (values : list nat) (c0 c1 c2 : Z) : M (Z * Z * Z) :=
  match values with
  | [] => ret (c0, c1, c2)
  | h :: rest =>
      if 2000 <? count + 1 then ret (c0, c1, c2)
      else
        elapsed <- read h (fun x => Z.quot (time_sub (n_now n) (x_StartTime x)) 1000000) ;;
        let '(c0, c1, c2) := if elapsed <=? cf_yellow (n_conf n) then (c0 + 1, c1, c2)
                             else if elapsed <=? cf_red (n_conf n) then (c0, c1 + 1, c2) else (c0, c1, c2 + 1) in
        (if cf_stuck_ms (n_conf n) <? elapsed then
           (end_stuck n h ;; emit (EvAlert (if cf_stuck_alert (n_conf n) then 2 else 1) (of_string "STUCK_SERVICE")))
         else ret tt) ;;
        active_loop n (count + 1) rest c0 c1 c2
  end.
(** the type assertion of the values in tctxmanager.go:74-106 *)
Definition handles (l : list (option Z)) : list nat := map (fun v => match v with Some h => Z.to_nat h | None => O end) l.
(** tctxmanager.go:74-106 GetActiveCount *)
Definition get_active_count (n : env) : M (Z * Z * Z) :=
  fun a => active_loop n 0 (handles (lra_values (a_active a) (n_order n))) 0 0 0 a.

(** tctxmanager.go:48-54 GetTraceContextByTxid *)
Definition find_by_txid (txid : Z) (a : agent) : option nat := option_map Z.to_nat (lra_get (a_active a) txid).

(* ------------------------------------------------------------------ *)
(** * While the service runs *)

(** tracemain.go:29-39, 41-52 *)
Definition is_stream (c : ctx) : M bool := recovered false (traced c false (fun h => read h x_IsStream)).
(** tracemain.go:41-52 *)
Definition set_as_stream (c : ctx) : M bool := recovered false (traced c false (fun h => modify h (set_IsStream true) ;; ret true)).

(** tracemain.go:136-151 AddPMessageStep *)
Definition add_pmessage_step (n : env) (c : ctx) (level : Z) (msg : gostring) (elapsed : Z) (params : list gostring) : M unit :=
  recovered tt (traced c tt (fun h =>
    st <- millis n h ;;
    hs <- send_text n KHashMsg msg ;;
    profile_add n h (SPMessage (mk_single 0 0 st) hs elapsed level (param_string params)))).

(** tracemain.go:54-67 MarkAsError *)
Definition mark_as_error (n : env) (c : ctx) (msg : gostring) : M unit :=
  recovered tt (traced c tt (fun h =>
    err <- read h x_Error ;;
    (if err =? 0 then (e <- send_text n KError msg ;; modify h (set_Error e)) else ret tt) ;;
    add_pmessage_step n c PMSG_ERROR msg 0 [])).

(** tracemain.go:69-79 *)
Definition mark_as_error_forcibly (n : env) (c : ctx) (msg : gostring) : M unit :=
  recovered tt (traced c tt (fun h => e <- send_text n KError msg ;; modify h (set_Error e))).

(** tracemain.go:81-92 *)
Definition set_service_name (n : env) (c : ctx) (name : gostring) : M unit :=
  recovered tt (traced c tt (fun h =>
    modify h (set_ServiceName name) ;; sh <- send_text n KService name ;; modify h (set_ServiceHash sh))).

(** tracemain.go:94-104 AddStep with a step the profile does not have yet; [None]: a nil step *)
Definition add_step (n : env) (c : ctx) (st : option step) : M unit :=
  recovered tt (traced c tt (fun h => match st with Some st => profile_add n h st | None => panic end)).
(** tracemain.go:106-118 *)
Definition add_message_step (n : env) (c : ctx) (msg : gostring) : M unit :=
  recovered tt (traced c tt (fun h => st <- millis n h ;; profile_add n h (message_step msg st))).
(** tracemain.go:120-134 *)
Definition add_hashed_message_step (n : env) (c : ctx) (msg : gostring) (value elapsed : Z) : M unit :=
  recovered tt (traced c tt (fun h =>
    hs <- send_text n KHashMsg msg ;; st <- millis n h ;;
    profile_add n h (SHashed (mk_single 0 0 st) hs elapsed value))).

(** tracemain.go:472-484; a parameter is given as fmt.Sprintf("%v") of it, [None] for nil *)
Definition add_params (n : env) (h : nat) (params : list (option gostring)) : M unit :=
  for_each params (fun p => match p with
                            | None => ret tt
                            | Some s => st <- millis n h ;; profile_add n h (message_step (of_string "param: " ++ s) st)
                            end).
(** tracemain.go:461-470 startMethodWithParam0 *)
Definition start_method0 (n : env) (h : nat) (func method : gostring) (params : list (option gostring)) : M (option nat) :=
  add_params n h params ;;
  modify h (set_LastMethod func) ;;
  hs <- send_text n KMethod method ;;
  st <- millis n h ;;
  ptr <- profile_push h (SMethod (mk_single 0 0 st) hs 0 0) ;;
  ret (Some ptr).
(** tracemain.go:455-456: the part after the last slash, with parentheses *)
Definition method_name (func : gostring) : gostring := last (split_byte 47 func) [] ++ of_string "()".
(** tracemain.go:417-425, 444-459 StartMethod, StartMethodWithParam; [func]: the caller's name from the runtime *)
Definition start_method (n : env) (c : ctx) (func : gostring) (params : list (option gostring)) : M (option nat) :=
  recovered None (traced c None (fun h => start_method0 n h func (method_name func) params)).
(** tracemain.go:427-442 StartCustomMethod, StartCustomMethodWithParam *)
Definition start_custom_method (n : env) (c : ctx) (name : gostring) (params : list (option gostring)) : M (option nat) :=
  recovered None (traced c None (fun h => start_method0 n h name name params)).

(** the step object [ptr] of trace context [h]; tracemain.go:486-498, 583-603 *)
Definition read_step (h ptr : nat) : M (option step) := read h (fun x => deref (p_heap (x_Profile x)) ptr).

(** tracemain.go:486-498 EndMethod; [ptr]: the step returned by StartMethod with this context ([None]: nil). A step of
    another context is outside the model. *)
Definition end_method (n : env) (c : ctx) (ptr : option nat) : M unit :=
  recovered tt (
    match ptr with
    | None => ret tt
    | Some ptr => traced c tt (fun h =>
        o <- read_step h ptr ;;
        match o with
        | Some (SMethod s hs _ cpu) =>
            now <- millis n h ;;
            profile_pop n h ptr (SMethod s hs (int32 (now - ss_StartTime s)) cpu)
        | _ => ret tt
        end)
    end).

(** tracemain.go:568-580 startApiCall *)
Definition start_api_call0 (n : env) (h : nat) (name addr : gostring) : M nat :=
  hs <- send_text n KApicall name ;;
  st <- millis n h ;;
  profile_push h (SApiCall (mk_single 0 0 st) (n_key n) hs 0 0 0 (match addr with [] => 0 | _ => 1 end) addr).
(** tracemain.go:526-537 *)
Definition start_api_call (n : env) (c : ctx) (name addr : gostring) : M (option nat) :=
  recovered None (traced c None (fun h => p <- start_api_call0 n h name addr ;; ret (Some p))).
(** tracemain.go:544-566 StartApiCallWithPropagation; the result includes the values added to the request's headers
    (X-Scouter-Gxid, -Caller, -Callee, -Caller-Obj); [req]: a request was given *)
Definition start_api_call_prop (n : env) (c : ctx) (req : bool) (name addr : gostring) : M (option nat * list gostring) :=
  recovered (None, []) (traced c (None, []) (fun h =>
    p <- start_api_call0 n h name addr ;;
    gx <- read h x_Gxid ;;
    (if gx =? 0 then modify h (fun x => set_Gxid (x_Txid x) x) else ret tt) ;;
    gx <- read h x_Gxid ;;
    tx <- read h x_Txid ;;
    ret (Some p, if req then [int_to_xlog_string32 gx; int_to_xlog_string32 tx; int_to_xlog_string32 (n_key n);
                              format_int 10 (cf_obj (n_conf n))] else []))).

(** tracemain.go:583-603 EndApiCall; [err]: err.Error(), [None] for a nil error *)
Definition end_api_call (n : env) (c : ctx) (ptr : option nat) (err : option gostring) : M unit :=
  recovered tt (
    match ptr with
    | None => ret tt
    | Some ptr => traced c tt (fun h =>
        o <- read_step h ptr ;;
        match o with
        | Some (SApiCall s txid hs _ cpu er opt addr) =>
            now <- millis n h ;;
            let el := int32 (now - ss_StartTime s) in
            modify h (fun x => set_ApicallTime (int32 (x_ApicallTime x + el)) (set_ApicallCount (int32 (x_ApicallCount x + 1)) x)) ;;
            er <- (match err with
                   | None => ret er
                   | Some msg =>
                       e <- send_text n KError msg ;;
                       modify h (fun x => if x_Error x =? 0 then set_Error e x else x) ;;
                       ret e
                   end) ;;
            profile_pop n h ptr (SApiCall s txid hs el cpu er opt addr)
        | _ => ret tt
        end)
    end).

(** what application code may do with the fields of tctxmanager.GetTraceContext(ctx), if it is not nil; the fields of tracecontext.go:11-78 *)
Definition set_user (c : ctx) (userid : Z) (login desc t1 t2 t3 t4 t5 : gostring) : M unit :=
  traced c tt (fun h => modify h (fun x =>
    set_Userid userid (set_Login login (set_Desc desc
      (set_Text1 t1 (set_Text2 t2 (set_Text3 t3 (set_Text4 t4 (set_Text5 t5 x))))))))).

(* ------------------------------------------------------------------ *)
(** * Histories *)

(** the exported functions of tracemain.go:29-603, tctxmanager.go:26-106, dataproxy.go:28-40 *)
Inductive call :=
| KStartService (c : ctx) (name ip : gostring)
| KStartHttp (c : ctx) (req : option request)
| KInherit (c : ctx) (parent : nat)
| KGo (c : ctx) (name : gostring)
| KGoBegin (c : ctx)                      (* not an API call: the goroutine created by GoWithTrace begins *)
| KGoEnd (c : ctx)                        (* and ends *)
| KEndService (c : ctx)
| KEndHttp (c : ctx) (status : option Z)
| KIsStream (c : ctx) | KSetAsStream (c : ctx)
| KMarkError (c : ctx) (msg : gostring) | KMarkErrorForcibly (c : ctx) (msg : gostring)
| KSetServiceName (c : ctx) (name : gostring)
| KAddStep (c : ctx) (st : option step)
| KAddMessage (c : ctx) (msg : gostring)
| KAddHashed (c : ctx) (msg : gostring) (value elapsed : Z)
| KAddPMessage (c : ctx) (level : Z) (msg : gostring) (elapsed : Z) (params : list gostring)
| KStartMethod (c : ctx) (func : gostring) (params : list (option gostring))
| KStartCustom (c : ctx) (name : gostring) (params : list (option gostring))
| KEndMethod (c : ctx) (ptr : option nat)
| KStartApi (c : ctx) (name addr : gostring)
| KStartApiProp (c : ctx) (req : bool) (name addr : gostring)
| KEndApi (c : ctx) (ptr : option nat) (err : option gostring)
| KUser (c : ctx) (userid : Z) (login desc t1 t2 t3 t4 t5 : gostring) (* assignments to the exported fields of the trace context
                                             obtained with tctxmanager.GetTraceContext (Userid, Login, Desc, Text1..5) *)
| KActiveCount                            (* GetActiveCount, called by the counter task and the console *)
| KResetText                              (* ResetTextSent *)
| KConf.                                  (* the configuration was reloaded: the sampler's observer runs *)

(** what the functions of tracemain.go:29-603, tctxmanager.go:26-106 return; RReload: the configuration was reloaded and the sampler's observer ran (xlogsampler.go:48-71) *)
Inductive res := RUnit | RCtx (c : ctx) | RRun (c : option ctx) | RBool (b : bool) | RStep (ptr : option nat)
| RApi (ptr : option nat) (headers : list gostring) | RCounts (c0 c1 c2 : Z).

(** the result of a call renamed (no code of its own): results of tracemain.go:29-603 *)
Definition fmap {A B} (f : A -> B) (m : M A) : M B := x <- m ;; ret (f x).

(** tracemain.go:29-603, tctxmanager.go:26-106, dataproxy.go:28-40 *)
Definition do_call (n : env) (k : call) : M res :=
  match k with
  | KStartService c name ip => fmap RCtx (start_service n c name ip)
  | KStartHttp c req => fmap RCtx (start_http_service n c req)
  | KInherit c p => fmap RCtx (start_inheritance n c p)
  | KGo c name => fmap RRun (go_with_trace n c name)
  | KGoBegin c => fmap (fun _ => RUnit) (go_begin n c)
  | KGoEnd c => fmap (fun _ => RUnit) (end_service n c)
  | KEndService c => fmap (fun _ => RUnit) (end_service n c)
  | KEndHttp c s => fmap (fun _ => RUnit) (end_http_service n c s)
  | KIsStream c => fmap RBool (is_stream c)
  | KSetAsStream c => fmap RBool (set_as_stream c)
  | KMarkError c m => fmap (fun _ => RUnit) (mark_as_error n c m)
  | KMarkErrorForcibly c m => fmap (fun _ => RUnit) (mark_as_error_forcibly n c m)
  | KSetServiceName c m => fmap (fun _ => RUnit) (set_service_name n c m)
  | KAddStep c st => fmap (fun _ => RUnit) (add_step n c st)
  | KAddMessage c m => fmap (fun _ => RUnit) (add_message_step n c m)
  | KAddHashed c m v e => fmap (fun _ => RUnit) (add_hashed_message_step n c m v e)
  | KAddPMessage c l m e p => fmap (fun _ => RUnit) (add_pmessage_step n c l m e p)
  | KStartMethod c f p => fmap RStep (start_method n c f p)
  | KStartCustom c f p => fmap RStep (start_custom_method n c f p)
  | KEndMethod c p => fmap (fun _ => RUnit) (end_method n c p)
  | KStartApi c m ad => fmap RStep (start_api_call n c m ad)
  | KStartApiProp c r m ad => fmap (fun x => RApi (fst x) (snd x)) (start_api_call_prop n c r m ad)
  | KEndApi c p e => fmap (fun _ => RUnit) (end_api_call n c p e)
  | KUser c u l d t1 t2 t3 t4 t5 => fmap (fun _ => RUnit) (set_user c u l d t1 t2 t3 t4 t5)
  | KActiveCount => fmap (fun x => RCounts (fst (fst x)) (snd (fst x)) (snd x)) (get_active_count n)
  | KResetText => fun a => (set_text (reset_text_sent (a_text a)) a, Some RUnit)
  | KConf => fun a => (mkA (a_text a) (a_ctx a) (a_active a) (sampler_run (cf_sampling (n_conf n)) (a_sampler a)) (a_log a), Some RUnit)
  end.

(** a history of calls; the results, oldest first. A panic that leaves the agent (it cannot) ends the history. calls of tracemain.go:29-603 one after the other *)
Fixpoint run (ops : list (env * call)) (a : agent) : agent * option (list res) :=
  match ops with
  | [] => (a, Some [])
  | (n, k) :: ops' =>
      match do_call n k a with
      | (a', Some r) => match run ops' a' with (a'', Some rs) => (a'', Some (r :: rs)) | (a'', None) => (a'', None) end
      | (a', None) => (a', None)
      end
  end.
