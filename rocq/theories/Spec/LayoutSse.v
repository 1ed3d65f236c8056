(* GENERATED by tools/translate.py: the wire layout of each message class of sse-bin, i.e. its fields in wire
   order with their formats.  This is specification data (what the messages look like on the wire);
   that the translated Java code follows it is proved in Proofs/Conform.v. *)
From Coq Require Import String ZArith List.
From Verif.Model Require Import JavaPrim Ast.
From Verif.Spec Require Import Wire.
Import ListNotations.
Open Scope string_scope.

(* sse-bin/src/main/java/com/finproto/sse/bin/messages/CancelReject.java:8-234 *)
Definition sse_CancelReject_layout : layout :=
      [ ("pbu", WFix 8 32 false);
        ("setId", WInt 4 BE);
        ("reportIndex", WInt 8 BE);
        ("bizId", WInt 4 BE);
        ("bizPbu", WFix 8 32 false);
        ("clOrdId", WFix 10 32 false);
        ("securityId", WFix 12 32 false);
        ("origClOrdId", WFix 10 32 false);
        ("branchId", WFix 8 32 false);
        ("cxlRejReason", WInt 4 BE);
        ("tradeDate", WInt 4 BE);
        ("transactTime", WInt 8 BE);
        ("userInfo", WFix 32 32 false) ].

(* sse-bin/src/main/java/com/finproto/sse/bin/messages/Confirm.java:8-459 *)
Definition sse_Confirm_layout : layout :=
      [ ("pbu", WFix 8 32 false);
        ("setId", WInt 4 BE);
        ("reportIndex", WInt 8 BE);
        ("bizId", WInt 4 BE);
        ("execType", WFix 1 32 false);
        ("bizPbu", WFix 8 32 false);
        ("clOrdId", WFix 10 32 false);
        ("securityId", WFix 12 32 false);
        ("account", WFix 13 32 false);
        ("ownerType", WInt 1 BE);
        ("side", WFix 1 32 false);
        ("price", WInt 8 BE);
        ("orderQty", WInt 8 BE);
        ("leavesQty", WInt 8 BE);
        ("cxlQty", WInt 8 BE);
        ("ordType", WFix 1 32 false);
        ("timeInForce", WFix 1 32 false);
        ("ordStatus", WFix 1 32 false);
        ("creditTag", WFix 2 32 false);
        ("origClOrdId", WFix 10 32 false);
        ("clearingFirm", WFix 8 32 false);
        ("branchId", WFix 8 32 false);
        ("ordRejReason", WInt 4 BE);
        ("ordCnfmId", WFix 16 32 false);
        ("origOrdCnfmId", WFix 16 32 false);
        ("tradeDate", WInt 4 BE);
        ("transactTime", WInt 8 BE);
        ("userInfo", WFix 32 32 false) ].

(* sse-bin/src/main/java/com/finproto/sse/bin/messages/ExecRptEndOfStream.java:8-81 *)
Definition sse_ExecRptEndOfStream_layout : layout :=
      [ ("pbu", WFix 8 32 false);
        ("setId", WInt 4 BE);
        ("endReportIndex", WInt 8 BE) ].

(* sse-bin/src/main/java/com/finproto/sse/bin/messages/ExecRptInfo.java:10-109 *)
Definition sse_ExecRptInfo_layout : layout :=
      [ ("platformId", WInt 2 BE);
        ("pbu", WList 2 BE (WFix 8 32 false));
        ("setId", WList 2 BE (WInt 4 BE)) ].

(* sse-bin/src/main/java/com/finproto/sse/bin/messages/ExecRptSync.java:10-143 *)
Definition sse_ExecRptSync_layout : layout :=
      [ ("subExecRptSync", WList 2 BE (WObj "sse.ExecRptSync.SubExecRptSync")) ].

(* sse-bin/src/main/java/com/finproto/sse/bin/messages/ExecRptSync.java:69-142 *)
Definition sse_ExecRptSync_SubExecRptSync_layout : layout :=
      [ ("pbu", WFix 8 32 false);
        ("setId", WInt 4 BE);
        ("beginReportIndex", WInt 8 BE) ].

(* sse-bin/src/main/java/com/finproto/sse/bin/messages/ExecRptSyncRsp.java:10-185 *)
Definition sse_ExecRptSyncRsp_layout : layout :=
      [ ("subExecRptSyncRsp", WList 2 BE (WObj "sse.ExecRptSyncRsp.SubExecRptSyncRsp")) ].

(* sse-bin/src/main/java/com/finproto/sse/bin/messages/ExecRptSyncRsp.java:69-184 *)
Definition sse_ExecRptSyncRsp_SubExecRptSyncRsp_layout : layout :=
      [ ("pbu", WFix 8 32 false);
        ("setId", WInt 4 BE);
        ("beginReportIndex", WInt 8 BE);
        ("endReportIndex", WInt 8 BE);
        ("rejReason", WInt 4 BE);
        ("text", WFix 64 32 false) ].

(* sse-bin/src/main/java/com/finproto/sse/bin/messages/Heartbeat.java:7-35 *)
Definition sse_Heartbeat_layout : layout :=
      [].

(* sse-bin/src/main/java/com/finproto/sse/bin/messages/Logon.java:8-123 *)
Definition sse_Logon_layout : layout :=
      [ ("senderCompId", WFix 32 32 false);
        ("targetCompId", WFix 32 32 false);
        ("heartBtInt", WInt 2 BE);
        ("prtclVersion", WFix 8 32 false);
        ("tradeDate", WInt 4 BE);
        ("qsize", WInt 4 BE) ].

(* sse-bin/src/main/java/com/finproto/sse/bin/messages/Logout.java:8-62 *)
Definition sse_Logout_layout : layout :=
      [ ("sessionStatus", WInt 4 BE);
        ("text", WFix 64 32 false) ].

(* sse-bin/src/main/java/com/finproto/sse/bin/messages/NewOrderSingle.java:8-279 *)
Definition sse_NewOrderSingle_layout : layout :=
      [ ("bizId", WInt 4 BE);
        ("bizPbu", WFix 8 32 false);
        ("clOrdId", WFix 10 32 false);
        ("securityId", WFix 12 32 false);
        ("account", WFix 13 32 false);
        ("ownerType", WInt 1 BE);
        ("side", WFix 1 32 false);
        ("price", WInt 8 BE);
        ("orderQty", WInt 8 BE);
        ("ordType", WFix 1 32 false);
        ("timeInForce", WFix 1 32 false);
        ("transactTime", WInt 8 BE);
        ("creditTag", WFix 2 32 false);
        ("clearingFirm", WFix 8 32 false);
        ("branchId", WFix 8 32 false);
        ("userInfo", WFix 32 32 false) ].

(* sse-bin/src/main/java/com/finproto/sse/bin/messages/OrderCancel.java:8-204 *)
Definition sse_OrderCancel_layout : layout :=
      [ ("bizId", WInt 4 BE);
        ("bizPbu", WFix 8 32 false);
        ("clOrdId", WFix 10 32 false);
        ("securityId", WFix 12 32 false);
        ("account", WFix 13 32 false);
        ("ownerType", WInt 1 BE);
        ("side", WFix 1 32 false);
        ("origClOrdId", WFix 10 32 false);
        ("transactTime", WInt 8 BE);
        ("branchId", WFix 8 32 false);
        ("userInfo", WFix 32 32 false) ].

(* sse-bin/src/main/java/com/finproto/sse/bin/messages/OrderReject.java:8-152 *)
Definition sse_OrderReject_layout : layout :=
      [ ("bizId", WInt 4 BE);
        ("bizPbu", WFix 8 32 false);
        ("clOrdId", WFix 10 32 false);
        ("securityId", WFix 12 32 false);
        ("ordRejReason", WInt 4 BE);
        ("tradeDate", WInt 4 BE);
        ("transactTime", WInt 8 BE);
        ("userInfo", WFix 32 32 false) ].

(* sse-bin/src/main/java/com/finproto/sse/bin/messages/PlatformState.java:8-67 *)
Definition sse_PlatformState_layout : layout :=
      [ ("platformId", WInt 2 BE);
        ("platformState", WInt 2 BE) ].

(* sse-bin/src/main/java/com/finproto/sse/bin/messages/Report.java:8-429 *)
Definition sse_Report_layout : layout :=
      [ ("pbu", WFix 8 32 false);
        ("setId", WInt 4 BE);
        ("reportIndex", WInt 8 BE);
        ("bizId", WInt 4 BE);
        ("execType", WFix 1 32 false);
        ("bizPbu", WFix 8 32 false);
        ("clOrdId", WFix 10 32 false);
        ("securityId", WFix 12 32 false);
        ("account", WFix 13 32 false);
        ("ownerType", WInt 1 BE);
        ("orderEntryTime", WInt 8 BE);
        ("lastPx", WInt 8 BE);
        ("lastQty", WInt 8 BE);
        ("grossTradeAmt", WInt 8 BE);
        ("side", WFix 1 32 false);
        ("orderQty", WInt 8 BE);
        ("leavesQty", WInt 8 BE);
        ("ordStatus", WFix 1 32 false);
        ("creditTag", WFix 2 32 false);
        ("clearingFirm", WFix 8 32 false);
        ("branchId", WFix 8 32 false);
        ("trdCnfmId", WFix 16 32 false);
        ("ordCnfmId", WFix 16 32 false);
        ("tradeDate", WInt 4 BE);
        ("transactTime", WInt 8 BE);
        ("userInfo", WFix 32 32 false) ].

(* sse-bin/src/main/java/com/finproto/sse/bin/messages/SseBinary.java:13-226 *)
Definition sse_SseBinary_layout : layout :=
      [ ("msgType", WInt 4 BE);
        ("msgSeqNum", WInt 8 BE);
        ("msgBodyLen", WLen 4 BE);
        ("body", WBody "msgType");
        ("checksum", WSum 4 BE "SSE_BIN") ].

Definition sse_layouts : list (string * layout) :=
      [ ("sse.CancelReject", sse_CancelReject_layout);
        ("sse.Confirm", sse_Confirm_layout);
        ("sse.ExecRptEndOfStream", sse_ExecRptEndOfStream_layout);
        ("sse.ExecRptInfo", sse_ExecRptInfo_layout);
        ("sse.ExecRptSync", sse_ExecRptSync_layout);
        ("sse.ExecRptSync.SubExecRptSync", sse_ExecRptSync_SubExecRptSync_layout);
        ("sse.ExecRptSyncRsp", sse_ExecRptSyncRsp_layout);
        ("sse.ExecRptSyncRsp.SubExecRptSyncRsp", sse_ExecRptSyncRsp_SubExecRptSyncRsp_layout);
        ("sse.Heartbeat", sse_Heartbeat_layout);
        ("sse.Logon", sse_Logon_layout);
        ("sse.Logout", sse_Logout_layout);
        ("sse.NewOrderSingle", sse_NewOrderSingle_layout);
        ("sse.OrderCancel", sse_OrderCancel_layout);
        ("sse.OrderReject", sse_OrderReject_layout);
        ("sse.PlatformState", sse_PlatformState_layout);
        ("sse.Report", sse_Report_layout);
        ("sse.SseBinary", sse_SseBinary_layout) ].
