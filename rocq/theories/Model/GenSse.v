(* GENERATED by tools/translate.py from /repo/sse-bin/src/main/java: do not edit by hand.
   One definition per Java message class; each comment cites the file and the line ranges. *)
From Coq Require Import String ZArith List.
From Verif.Model Require Import JavaPrim Ast.
Import ListNotations.
Open Scope string_scope.

(* sse-bin/src/main/java/com/finproto/sse/bin/messages/CancelReject.java:8-234  class CancelReject; fields 9-21; encode 128-142; decode 145-159; hashCode 162-177; equals 180-201; toString 204-233; the rest: getters and setters *)
Definition sse_CancelReject : class_def := {|
  c_name := "sse.CancelReject";
  c_fields :=
      [ ("pbu", TStr);
        ("setId", TInt);
        ("reportIndex", TLong);
        ("bizId", TInt);
        ("bizPbu", TStr);
        ("clOrdId", TStr);
        ("securityId", TStr);
        ("origClOrdId", TStr);
        ("branchId", TStr);
        ("cxlRejReason", TInt);
        ("tradeDate", TInt);
        ("transactTime", TLong);
        ("userInfo", TStr) ];
  c_enc :=
      [ EFix "pbu" 8 32 false;
        EWrite 4 BE "setId";
        EWrite 8 BE "reportIndex";
        EWrite 4 BE "bizId";
        EFix "bizPbu" 8 32 false;
        EFix "clOrdId" 10 32 false;
        EFix "securityId" 12 32 false;
        EFix "origClOrdId" 10 32 false;
        EFix "branchId" 8 32 false;
        EWrite 4 BE "cxlRejReason";
        EWrite 4 BE "tradeDate";
        EWrite 8 BE "transactTime";
        EFix "userInfo" 32 32 false ];
  c_dec :=
      [ DFix "pbu" 8 32 false;
        DRead 4 BE "setId";
        DRead 8 BE "reportIndex";
        DRead 4 BE "bizId";
        DFix "bizPbu" 8 32 false;
        DFix "clOrdId" 10 32 false;
        DFix "securityId" 12 32 false;
        DFix "origClOrdId" 10 32 false;
        DFix "branchId" 8 32 false;
        DRead 4 BE "cxlRejReason";
        DRead 4 BE "tradeDate";
        DRead 8 BE "transactTime";
        DFix "userInfo" 32 32 false ];
  c_eq :=
      [ "pbu";
        "setId";
        "reportIndex";
        "bizId";
        "bizPbu";
        "clOrdId";
        "securityId";
        "origClOrdId";
        "branchId";
        "cxlRejReason";
        "tradeDate";
        "transactTime";
        "userInfo" ];
  c_hash := 
      HashFields [ "pbu";
        "setId";
        "reportIndex";
        "bizId";
        "bizPbu";
        "clOrdId";
        "securityId";
        "origClOrdId";
        "branchId";
        "cxlRejReason";
        "tradeDate";
        "transactTime";
        "userInfo" ];
  c_tag := "CancelReject";
  c_str :=
      [ ("pbu", "pbu");
        ("setId", "setId");
        ("reportIndex", "reportIndex");
        ("bizId", "bizId");
        ("bizPbu", "bizPbu");
        ("clOrdId", "clOrdId");
        ("securityId", "securityId");
        ("origClOrdId", "origClOrdId");
        ("branchId", "branchId");
        ("cxlRejReason", "cxlRejReason");
        ("tradeDate", "tradeDate");
        ("transactTime", "transactTime");
        ("userInfo", "userInfo") ];
  c_get :=
      [ ("getPbu", "pbu");
        ("getSetId", "setId");
        ("getReportIndex", "reportIndex");
        ("getBizId", "bizId");
        ("getBizPbu", "bizPbu");
        ("getClOrdId", "clOrdId");
        ("getSecurityId", "securityId");
        ("getOrigClOrdId", "origClOrdId");
        ("getBranchId", "branchId");
        ("getCxlRejReason", "cxlRejReason");
        ("getTradeDate", "tradeDate");
        ("getTransactTime", "transactTime");
        ("getUserInfo", "userInfo") ];
  c_set :=
      [ ("setPbu", "pbu");
        ("setSetId", "setId");
        ("setReportIndex", "reportIndex");
        ("setBizId", "bizId");
        ("setBizPbu", "bizPbu");
        ("setClOrdId", "clOrdId");
        ("setSecurityId", "securityId");
        ("setOrigClOrdId", "origClOrdId");
        ("setBranchId", "branchId");
        ("setCxlRejReason", "cxlRejReason");
        ("setTradeDate", "tradeDate");
        ("setTransactTime", "transactTime");
        ("setUserInfo", "userInfo") ] |}.

(* sse-bin/src/main/java/com/finproto/sse/bin/messages/Confirm.java:8-459  class Confirm; fields 9-36; encode 263-292; decode 295-324; hashCode 327-357; equals 360-396; toString 399-458; the rest: getters and setters *)
Definition sse_Confirm : class_def := {|
  c_name := "sse.Confirm";
  c_fields :=
      [ ("pbu", TStr);
        ("setId", TInt);
        ("reportIndex", TLong);
        ("bizId", TInt);
        ("execType", TStr);
        ("bizPbu", TStr);
        ("clOrdId", TStr);
        ("securityId", TStr);
        ("account", TStr);
        ("ownerType", TByte);
        ("side", TStr);
        ("price", TLong);
        ("orderQty", TLong);
        ("leavesQty", TLong);
        ("cxlQty", TLong);
        ("ordType", TStr);
        ("timeInForce", TStr);
        ("ordStatus", TStr);
        ("creditTag", TStr);
        ("origClOrdId", TStr);
        ("clearingFirm", TStr);
        ("branchId", TStr);
        ("ordRejReason", TInt);
        ("ordCnfmId", TStr);
        ("origOrdCnfmId", TStr);
        ("tradeDate", TInt);
        ("transactTime", TLong);
        ("userInfo", TStr) ];
  c_enc :=
      [ EFix "pbu" 8 32 false;
        EWrite 4 BE "setId";
        EWrite 8 BE "reportIndex";
        EWrite 4 BE "bizId";
        EFix "execType" 1 32 false;
        EFix "bizPbu" 8 32 false;
        EFix "clOrdId" 10 32 false;
        EFix "securityId" 12 32 false;
        EFix "account" 13 32 false;
        EWrite 1 BE "ownerType";
        EFix "side" 1 32 false;
        EWrite 8 BE "price";
        EWrite 8 BE "orderQty";
        EWrite 8 BE "leavesQty";
        EWrite 8 BE "cxlQty";
        EFix "ordType" 1 32 false;
        EFix "timeInForce" 1 32 false;
        EFix "ordStatus" 1 32 false;
        EFix "creditTag" 2 32 false;
        EFix "origClOrdId" 10 32 false;
        EFix "clearingFirm" 8 32 false;
        EFix "branchId" 8 32 false;
        EWrite 4 BE "ordRejReason";
        EFix "ordCnfmId" 16 32 false;
        EFix "origOrdCnfmId" 16 32 false;
        EWrite 4 BE "tradeDate";
        EWrite 8 BE "transactTime";
        EFix "userInfo" 32 32 false ];
  c_dec :=
      [ DFix "pbu" 8 32 false;
        DRead 4 BE "setId";
        DRead 8 BE "reportIndex";
        DRead 4 BE "bizId";
        DFix "execType" 1 32 false;
        DFix "bizPbu" 8 32 false;
        DFix "clOrdId" 10 32 false;
        DFix "securityId" 12 32 false;
        DFix "account" 13 32 false;
        DRead 1 BE "ownerType";
        DFix "side" 1 32 false;
        DRead 8 BE "price";
        DRead 8 BE "orderQty";
        DRead 8 BE "leavesQty";
        DRead 8 BE "cxlQty";
        DFix "ordType" 1 32 false;
        DFix "timeInForce" 1 32 false;
        DFix "ordStatus" 1 32 false;
        DFix "creditTag" 2 32 false;
        DFix "origClOrdId" 10 32 false;
        DFix "clearingFirm" 8 32 false;
        DFix "branchId" 8 32 false;
        DRead 4 BE "ordRejReason";
        DFix "ordCnfmId" 16 32 false;
        DFix "origOrdCnfmId" 16 32 false;
        DRead 4 BE "tradeDate";
        DRead 8 BE "transactTime";
        DFix "userInfo" 32 32 false ];
  c_eq :=
      [ "pbu";
        "setId";
        "reportIndex";
        "bizId";
        "execType";
        "bizPbu";
        "clOrdId";
        "securityId";
        "account";
        "ownerType";
        "side";
        "price";
        "orderQty";
        "leavesQty";
        "cxlQty";
        "ordType";
        "timeInForce";
        "ordStatus";
        "creditTag";
        "origClOrdId";
        "clearingFirm";
        "branchId";
        "ordRejReason";
        "ordCnfmId";
        "origOrdCnfmId";
        "tradeDate";
        "transactTime";
        "userInfo" ];
  c_hash := 
      HashFields [ "pbu";
        "setId";
        "reportIndex";
        "bizId";
        "execType";
        "bizPbu";
        "clOrdId";
        "securityId";
        "account";
        "ownerType";
        "side";
        "price";
        "orderQty";
        "leavesQty";
        "cxlQty";
        "ordType";
        "timeInForce";
        "ordStatus";
        "creditTag";
        "origClOrdId";
        "clearingFirm";
        "branchId";
        "ordRejReason";
        "ordCnfmId";
        "origOrdCnfmId";
        "tradeDate";
        "transactTime";
        "userInfo" ];
  c_tag := "Confirm";
  c_str :=
      [ ("pbu", "pbu");
        ("setId", "setId");
        ("reportIndex", "reportIndex");
        ("bizId", "bizId");
        ("execType", "execType");
        ("bizPbu", "bizPbu");
        ("clOrdId", "clOrdId");
        ("securityId", "securityId");
        ("account", "account");
        ("ownerType", "ownerType");
        ("side", "side");
        ("price", "price");
        ("orderQty", "orderQty");
        ("leavesQty", "leavesQty");
        ("cxlQty", "cxlQty");
        ("ordType", "ordType");
        ("timeInForce", "timeInForce");
        ("ordStatus", "ordStatus");
        ("creditTag", "creditTag");
        ("origClOrdId", "origClOrdId");
        ("clearingFirm", "clearingFirm");
        ("branchId", "branchId");
        ("ordRejReason", "ordRejReason");
        ("ordCnfmId", "ordCnfmId");
        ("origOrdCnfmId", "origOrdCnfmId");
        ("tradeDate", "tradeDate");
        ("transactTime", "transactTime");
        ("userInfo", "userInfo") ];
  c_get :=
      [ ("getPbu", "pbu");
        ("getSetId", "setId");
        ("getReportIndex", "reportIndex");
        ("getBizId", "bizId");
        ("getExecType", "execType");
        ("getBizPbu", "bizPbu");
        ("getClOrdId", "clOrdId");
        ("getSecurityId", "securityId");
        ("getAccount", "account");
        ("getOwnerType", "ownerType");
        ("getSide", "side");
        ("getPrice", "price");
        ("getOrderQty", "orderQty");
        ("getLeavesQty", "leavesQty");
        ("getCxlQty", "cxlQty");
        ("getOrdType", "ordType");
        ("getTimeInForce", "timeInForce");
        ("getOrdStatus", "ordStatus");
        ("getCreditTag", "creditTag");
        ("getOrigClOrdId", "origClOrdId");
        ("getClearingFirm", "clearingFirm");
        ("getBranchId", "branchId");
        ("getOrdRejReason", "ordRejReason");
        ("getOrdCnfmId", "ordCnfmId");
        ("getOrigOrdCnfmId", "origOrdCnfmId");
        ("getTradeDate", "tradeDate");
        ("getTransactTime", "transactTime");
        ("getUserInfo", "userInfo") ];
  c_set :=
      [ ("setPbu", "pbu");
        ("setSetId", "setId");
        ("setReportIndex", "reportIndex");
        ("setBizId", "bizId");
        ("setExecType", "execType");
        ("setBizPbu", "bizPbu");
        ("setClOrdId", "clOrdId");
        ("setSecurityId", "securityId");
        ("setAccount", "account");
        ("setOwnerType", "ownerType");
        ("setSide", "side");
        ("setPrice", "price");
        ("setOrderQty", "orderQty");
        ("setLeavesQty", "leavesQty");
        ("setCxlQty", "cxlQty");
        ("setOrdType", "ordType");
        ("setTimeInForce", "timeInForce");
        ("setOrdStatus", "ordStatus");
        ("setCreditTag", "creditTag");
        ("setOrigClOrdId", "origClOrdId");
        ("setClearingFirm", "clearingFirm");
        ("setBranchId", "branchId");
        ("setOrdRejReason", "ordRejReason");
        ("setOrdCnfmId", "ordCnfmId");
        ("setOrigOrdCnfmId", "origOrdCnfmId");
        ("setTradeDate", "tradeDate");
        ("setTransactTime", "transactTime");
        ("setUserInfo", "userInfo") ] |}.

(* sse-bin/src/main/java/com/finproto/sse/bin/messages/ExecRptEndOfStream.java:8-81  class ExecRptEndOfStream; fields 9-11; encode 38-42; decode 45-49; hashCode 52-54; equals 57-68; toString 71-80; the rest: getters and setters *)
Definition sse_ExecRptEndOfStream : class_def := {|
  c_name := "sse.ExecRptEndOfStream";
  c_fields :=
      [ ("pbu", TStr);
        ("setId", TInt);
        ("endReportIndex", TLong) ];
  c_enc :=
      [ EFix "pbu" 8 32 false;
        EWrite 4 BE "setId";
        EWrite 8 BE "endReportIndex" ];
  c_dec :=
      [ DFix "pbu" 8 32 false;
        DRead 4 BE "setId";
        DRead 8 BE "endReportIndex" ];
  c_eq :=
      [ "pbu";
        "setId";
        "endReportIndex" ];
  c_hash := 
      HashFields [ "pbu";
        "setId";
        "endReportIndex" ];
  c_tag := "ExecRptEndOfStream";
  c_str :=
      [ ("pbu", "pbu");
        ("setId", "setId");
        ("endReportIndex", "endReportIndex") ];
  c_get :=
      [ ("getPbu", "pbu");
        ("getSetId", "setId");
        ("getEndReportIndex", "endReportIndex") ];
  c_set :=
      [ ("setPbu", "pbu");
        ("setSetId", "setId");
        ("setEndReportIndex", "endReportIndex") ] |}.

(* sse-bin/src/main/java/com/finproto/sse/bin/messages/ExecRptInfo.java:10-109  class ExecRptInfo; fields 11-13; encode 40-58; decode 61-77; hashCode 80-82; equals 85-96; toString 99-108; the rest: getters and setters *)
Definition sse_ExecRptInfo : class_def := {|
  c_name := "sse.ExecRptInfo";
  c_fields :=
      [ ("platformId", TShort);
        ("pbu", (TList TStr));
        ("setId", (TList TInt)) ];
  c_enc :=
      [ EWrite 2 BE "platformId";
        EList "pbu" 2 BE 16 2 BE (XFix 8 32 false);
        EList "setId" 2 BE 16 2 BE (XInt 4 BE) ];
  c_dec :=
      [ DRead 2 BE "platformId";
        DList "pbu" 2 BE (YFix 8 32 false);
        DList "setId" 2 BE (YInt 4 BE) ];
  c_eq :=
      [ "platformId";
        "pbu";
        "setId" ];
  c_hash := 
      HashFields [ "platformId";
        "pbu";
        "setId" ];
  c_tag := "ExecRptInfo";
  c_str :=
      [ ("platformId", "platformId");
        ("pbu", "pbu");
        ("setId", "setId") ];
  c_get :=
      [ ("getPlatformId", "platformId");
        ("getPbu", "pbu");
        ("getSetId", "setId") ];
  c_set :=
      [ ("setPlatformId", "platformId");
        ("setPbu", "pbu");
        ("setSetId", "setId") ] |}.

(* sse-bin/src/main/java/com/finproto/sse/bin/messages/ExecRptSync.java:10-143  class ExecRptSync; fields 11-11; encode 22-31; decode 34-44; hashCode 47-49; equals 52-61; toString 64-66; the rest: getters and setters *)
Definition sse_ExecRptSync : class_def := {|
  c_name := "sse.ExecRptSync";
  c_fields :=
      [ ("subExecRptSync", (TList (TObj "sse.ExecRptSync.SubExecRptSync"))) ];
  c_enc :=
      [ EList "subExecRptSync" 2 BE 16 2 BE XObj ];
  c_dec :=
      [ DList "subExecRptSync" 2 BE (YObj "sse.ExecRptSync.SubExecRptSync") ];
  c_eq :=
      [ "subExecRptSync" ];
  c_hash := 
      HashFields [ "subExecRptSync" ];
  c_tag := "ExecRptSync";
  c_str :=
      [ ("subExecRptSync", "subExecRptSync") ];
  c_get :=
      [ ("getSubExecRptSync", "subExecRptSync") ];
  c_set :=
      [ ("setSubExecRptSync", "subExecRptSync") ] |}.

(* sse-bin/src/main/java/com/finproto/sse/bin/messages/ExecRptSync.java:69-142  class SubExecRptSync; fields 70-72; encode 99-103; decode 106-110; hashCode 113-115; equals 118-129; toString 132-141; the rest: getters and setters *)
Definition sse_ExecRptSync_SubExecRptSync : class_def := {|
  c_name := "sse.ExecRptSync.SubExecRptSync";
  c_fields :=
      [ ("pbu", TStr);
        ("setId", TInt);
        ("beginReportIndex", TLong) ];
  c_enc :=
      [ EFix "pbu" 8 32 false;
        EWrite 4 BE "setId";
        EWrite 8 BE "beginReportIndex" ];
  c_dec :=
      [ DFix "pbu" 8 32 false;
        DRead 4 BE "setId";
        DRead 8 BE "beginReportIndex" ];
  c_eq :=
      [ "pbu";
        "setId";
        "beginReportIndex" ];
  c_hash := 
      HashFields [ "pbu";
        "setId";
        "beginReportIndex" ];
  c_tag := "SubExecRptSync";
  c_str :=
      [ ("pbu", "pbu");
        ("setId", "setId");
        ("beginReportIndex", "beginReportIndex") ];
  c_get :=
      [ ("getPbu", "pbu");
        ("getSetId", "setId");
        ("getBeginReportIndex", "beginReportIndex") ];
  c_set :=
      [ ("setPbu", "pbu");
        ("setSetId", "setId");
        ("setBeginReportIndex", "beginReportIndex") ] |}.

(* sse-bin/src/main/java/com/finproto/sse/bin/messages/ExecRptSyncRsp.java:10-185  class ExecRptSyncRsp; fields 11-11; encode 22-31; decode 34-44; hashCode 47-49; equals 52-61; toString 64-66; the rest: getters and setters *)
Definition sse_ExecRptSyncRsp : class_def := {|
  c_name := "sse.ExecRptSyncRsp";
  c_fields :=
      [ ("subExecRptSyncRsp", (TList (TObj "sse.ExecRptSyncRsp.SubExecRptSyncRsp"))) ];
  c_enc :=
      [ EList "subExecRptSyncRsp" 2 BE 16 2 BE XObj ];
  c_dec :=
      [ DList "subExecRptSyncRsp" 2 BE (YObj "sse.ExecRptSyncRsp.SubExecRptSyncRsp") ];
  c_eq :=
      [ "subExecRptSyncRsp" ];
  c_hash := 
      HashFields [ "subExecRptSyncRsp" ];
  c_tag := "ExecRptSyncRsp";
  c_str :=
      [ ("subExecRptSyncRsp", "subExecRptSyncRsp") ];
  c_get :=
      [ ("getSubExecRptSyncRsp", "subExecRptSyncRsp") ];
  c_set :=
      [ ("setSubExecRptSyncRsp", "subExecRptSyncRsp") ] |}.

(* sse-bin/src/main/java/com/finproto/sse/bin/messages/ExecRptSyncRsp.java:69-184  class SubExecRptSyncRsp; fields 70-75; encode 126-133; decode 136-143; hashCode 146-148; equals 151-165; toString 168-183; the rest: getters and setters *)
Definition sse_ExecRptSyncRsp_SubExecRptSyncRsp : class_def := {|
  c_name := "sse.ExecRptSyncRsp.SubExecRptSyncRsp";
  c_fields :=
      [ ("pbu", TStr);
        ("setId", TInt);
        ("beginReportIndex", TLong);
        ("endReportIndex", TLong);
        ("rejReason", TInt);
        ("text", TStr) ];
  c_enc :=
      [ EFix "pbu" 8 32 false;
        EWrite 4 BE "setId";
        EWrite 8 BE "beginReportIndex";
        EWrite 8 BE "endReportIndex";
        EWrite 4 BE "rejReason";
        EFix "text" 64 32 false ];
  c_dec :=
      [ DFix "pbu" 8 32 false;
        DRead 4 BE "setId";
        DRead 8 BE "beginReportIndex";
        DRead 8 BE "endReportIndex";
        DRead 4 BE "rejReason";
        DFix "text" 64 32 false ];
  c_eq :=
      [ "pbu";
        "setId";
        "beginReportIndex";
        "endReportIndex";
        "rejReason";
        "text" ];
  c_hash := 
      HashFields [ "pbu";
        "setId";
        "beginReportIndex";
        "endReportIndex";
        "rejReason";
        "text" ];
  c_tag := "SubExecRptSyncRsp";
  c_str :=
      [ ("pbu", "pbu");
        ("setId", "setId");
        ("beginReportIndex", "beginReportIndex");
        ("endReportIndex", "endReportIndex");
        ("rejReason", "rejReason");
        ("text", "text") ];
  c_get :=
      [ ("getPbu", "pbu");
        ("getSetId", "setId");
        ("getBeginReportIndex", "beginReportIndex");
        ("getEndReportIndex", "endReportIndex");
        ("getRejReason", "rejReason");
        ("getText", "text") ];
  c_set :=
      [ ("setPbu", "pbu");
        ("setSetId", "setId");
        ("setBeginReportIndex", "beginReportIndex");
        ("setEndReportIndex", "endReportIndex");
        ("setRejReason", "rejReason");
        ("setText", "text") ] |}.

(* sse-bin/src/main/java/com/finproto/sse/bin/messages/Heartbeat.java:7-35  class Heartbeat; fields none; encode 10-10; decode 13-13; hashCode 16-18; equals 21-29; toString 32-34; the rest: getters and setters *)
Definition sse_Heartbeat : class_def := {|
  c_name := "sse.Heartbeat";
  c_fields :=
      [];
  c_enc :=
      [];
  c_dec :=
      [];
  c_eq :=
      [];
  c_hash := HashSelf;
  c_tag := "Heartbeat";
  c_str :=
      [];
  c_get :=
      [];
  c_set :=
      [] |}.

(* sse-bin/src/main/java/com/finproto/sse/bin/messages/Logon.java:8-123  class Logon; fields 9-14; encode 65-72; decode 75-82; hashCode 85-87; equals 90-104; toString 107-122; the rest: getters and setters *)
Definition sse_Logon : class_def := {|
  c_name := "sse.Logon";
  c_fields :=
      [ ("senderCompId", TStr);
        ("targetCompId", TStr);
        ("heartBtInt", TShort);
        ("prtclVersion", TStr);
        ("tradeDate", TInt);
        ("qsize", TInt) ];
  c_enc :=
      [ EFix "senderCompId" 32 32 false;
        EFix "targetCompId" 32 32 false;
        EWrite 2 BE "heartBtInt";
        EFix "prtclVersion" 8 32 false;
        EWrite 4 BE "tradeDate";
        EWrite 4 BE "qsize" ];
  c_dec :=
      [ DFix "senderCompId" 32 32 false;
        DFix "targetCompId" 32 32 false;
        DRead 2 BE "heartBtInt";
        DFix "prtclVersion" 8 32 false;
        DRead 4 BE "tradeDate";
        DRead 4 BE "qsize" ];
  c_eq :=
      [ "senderCompId";
        "targetCompId";
        "heartBtInt";
        "prtclVersion";
        "tradeDate";
        "qsize" ];
  c_hash := 
      HashFields [ "senderCompId";
        "targetCompId";
        "heartBtInt";
        "prtclVersion";
        "tradeDate";
        "qsize" ];
  c_tag := "Logon";
  c_str :=
      [ ("senderCompId", "senderCompId");
        ("targetCompId", "targetCompId");
        ("heartBtInt", "heartBtInt");
        ("prtclVersion", "prtclVersion");
        ("tradeDate", "tradeDate");
        ("qsize", "qsize") ];
  c_get :=
      [ ("getSenderCompId", "senderCompId");
        ("getTargetCompId", "targetCompId");
        ("getHeartBtInt", "heartBtInt");
        ("getPrtclVersion", "prtclVersion");
        ("getTradeDate", "tradeDate");
        ("getQsize", "qsize") ];
  c_set :=
      [ ("setSenderCompId", "senderCompId");
        ("setTargetCompId", "targetCompId");
        ("setHeartBtInt", "heartBtInt");
        ("setPrtclVersion", "prtclVersion");
        ("setTradeDate", "tradeDate");
        ("setQsize", "qsize") ] |}.

(* sse-bin/src/main/java/com/finproto/sse/bin/messages/Logout.java:8-62  class Logout; fields 9-10; encode 29-32; decode 35-38; hashCode 41-43; equals 46-56; toString 59-61; the rest: getters and setters *)
Definition sse_Logout : class_def := {|
  c_name := "sse.Logout";
  c_fields :=
      [ ("sessionStatus", TInt);
        ("text", TStr) ];
  c_enc :=
      [ EWrite 4 BE "sessionStatus";
        EFix "text" 64 32 false ];
  c_dec :=
      [ DRead 4 BE "sessionStatus";
        DFix "text" 64 32 false ];
  c_eq :=
      [ "sessionStatus";
        "text" ];
  c_hash := 
      HashFields [ "sessionStatus";
        "text" ];
  c_tag := "Logout";
  c_str :=
      [ ("sessionStatus", "sessionStatus");
        ("text", "text") ];
  c_get :=
      [ ("getSessionStatus", "sessionStatus");
        ("getText", "text") ];
  c_set :=
      [ ("setSessionStatus", "sessionStatus");
        ("setText", "text") ] |}.

(* sse-bin/src/main/java/com/finproto/sse/bin/messages/NewOrderSingle.java:8-279  class NewOrderSingle; fields 9-24; encode 155-172; decode 175-192; hashCode 195-213; equals 216-240; toString 243-278; the rest: getters and setters *)
Definition sse_NewOrderSingle : class_def := {|
  c_name := "sse.NewOrderSingle";
  c_fields :=
      [ ("bizId", TInt);
        ("bizPbu", TStr);
        ("clOrdId", TStr);
        ("securityId", TStr);
        ("account", TStr);
        ("ownerType", TByte);
        ("side", TStr);
        ("price", TLong);
        ("orderQty", TLong);
        ("ordType", TStr);
        ("timeInForce", TStr);
        ("transactTime", TLong);
        ("creditTag", TStr);
        ("clearingFirm", TStr);
        ("branchId", TStr);
        ("userInfo", TStr) ];
  c_enc :=
      [ EWrite 4 BE "bizId";
        EFix "bizPbu" 8 32 false;
        EFix "clOrdId" 10 32 false;
        EFix "securityId" 12 32 false;
        EFix "account" 13 32 false;
        EWrite 1 BE "ownerType";
        EFix "side" 1 32 false;
        EWrite 8 BE "price";
        EWrite 8 BE "orderQty";
        EFix "ordType" 1 32 false;
        EFix "timeInForce" 1 32 false;
        EWrite 8 BE "transactTime";
        EFix "creditTag" 2 32 false;
        EFix "clearingFirm" 8 32 false;
        EFix "branchId" 8 32 false;
        EFix "userInfo" 32 32 false ];
  c_dec :=
      [ DRead 4 BE "bizId";
        DFix "bizPbu" 8 32 false;
        DFix "clOrdId" 10 32 false;
        DFix "securityId" 12 32 false;
        DFix "account" 13 32 false;
        DRead 1 BE "ownerType";
        DFix "side" 1 32 false;
        DRead 8 BE "price";
        DRead 8 BE "orderQty";
        DFix "ordType" 1 32 false;
        DFix "timeInForce" 1 32 false;
        DRead 8 BE "transactTime";
        DFix "creditTag" 2 32 false;
        DFix "clearingFirm" 8 32 false;
        DFix "branchId" 8 32 false;
        DFix "userInfo" 32 32 false ];
  c_eq :=
      [ "bizId";
        "bizPbu";
        "clOrdId";
        "securityId";
        "account";
        "ownerType";
        "side";
        "price";
        "orderQty";
        "ordType";
        "timeInForce";
        "transactTime";
        "creditTag";
        "clearingFirm";
        "branchId";
        "userInfo" ];
  c_hash := 
      HashFields [ "bizId";
        "bizPbu";
        "clOrdId";
        "securityId";
        "account";
        "ownerType";
        "side";
        "price";
        "orderQty";
        "ordType";
        "timeInForce";
        "transactTime";
        "creditTag";
        "clearingFirm";
        "branchId";
        "userInfo" ];
  c_tag := "NewOrderSingle";
  c_str :=
      [ ("bizId", "bizId");
        ("bizPbu", "bizPbu");
        ("clOrdId", "clOrdId");
        ("securityId", "securityId");
        ("account", "account");
        ("ownerType", "ownerType");
        ("side", "side");
        ("price", "price");
        ("orderQty", "orderQty");
        ("ordType", "ordType");
        ("timeInForce", "timeInForce");
        ("transactTime", "transactTime");
        ("creditTag", "creditTag");
        ("clearingFirm", "clearingFirm");
        ("branchId", "branchId");
        ("userInfo", "userInfo") ];
  c_get :=
      [ ("getBizId", "bizId");
        ("getBizPbu", "bizPbu");
        ("getClOrdId", "clOrdId");
        ("getSecurityId", "securityId");
        ("getAccount", "account");
        ("getOwnerType", "ownerType");
        ("getSide", "side");
        ("getPrice", "price");
        ("getOrderQty", "orderQty");
        ("getOrdType", "ordType");
        ("getTimeInForce", "timeInForce");
        ("getTransactTime", "transactTime");
        ("getCreditTag", "creditTag");
        ("getClearingFirm", "clearingFirm");
        ("getBranchId", "branchId");
        ("getUserInfo", "userInfo") ];
  c_set :=
      [ ("setBizId", "bizId");
        ("setBizPbu", "bizPbu");
        ("setClOrdId", "clOrdId");
        ("setSecurityId", "securityId");
        ("setAccount", "account");
        ("setOwnerType", "ownerType");
        ("setSide", "side");
        ("setPrice", "price");
        ("setOrderQty", "orderQty");
        ("setOrdType", "ordType");
        ("setTimeInForce", "timeInForce");
        ("setTransactTime", "transactTime");
        ("setCreditTag", "creditTag");
        ("setClearingFirm", "clearingFirm");
        ("setBranchId", "branchId");
        ("setUserInfo", "userInfo") ] |}.

(* sse-bin/src/main/java/com/finproto/sse/bin/messages/OrderCancel.java:8-204  class OrderCancel; fields 9-19; encode 110-122; decode 125-137; hashCode 140-153; equals 156-175; toString 178-203; the rest: getters and setters *)
Definition sse_OrderCancel : class_def := {|
  c_name := "sse.OrderCancel";
  c_fields :=
      [ ("bizId", TInt);
        ("bizPbu", TStr);
        ("clOrdId", TStr);
        ("securityId", TStr);
        ("account", TStr);
        ("ownerType", TByte);
        ("side", TStr);
        ("origClOrdId", TStr);
        ("transactTime", TLong);
        ("branchId", TStr);
        ("userInfo", TStr) ];
  c_enc :=
      [ EWrite 4 BE "bizId";
        EFix "bizPbu" 8 32 false;
        EFix "clOrdId" 10 32 false;
        EFix "securityId" 12 32 false;
        EFix "account" 13 32 false;
        EWrite 1 BE "ownerType";
        EFix "side" 1 32 false;
        EFix "origClOrdId" 10 32 false;
        EWrite 8 BE "transactTime";
        EFix "branchId" 8 32 false;
        EFix "userInfo" 32 32 false ];
  c_dec :=
      [ DRead 4 BE "bizId";
        DFix "bizPbu" 8 32 false;
        DFix "clOrdId" 10 32 false;
        DFix "securityId" 12 32 false;
        DFix "account" 13 32 false;
        DRead 1 BE "ownerType";
        DFix "side" 1 32 false;
        DFix "origClOrdId" 10 32 false;
        DRead 8 BE "transactTime";
        DFix "branchId" 8 32 false;
        DFix "userInfo" 32 32 false ];
  c_eq :=
      [ "bizId";
        "bizPbu";
        "clOrdId";
        "securityId";
        "account";
        "ownerType";
        "side";
        "origClOrdId";
        "transactTime";
        "branchId";
        "userInfo" ];
  c_hash := 
      HashFields [ "bizId";
        "bizPbu";
        "clOrdId";
        "securityId";
        "account";
        "ownerType";
        "side";
        "origClOrdId";
        "transactTime";
        "branchId";
        "userInfo" ];
  c_tag := "OrderCancel";
  c_str :=
      [ ("bizId", "bizId");
        ("bizPbu", "bizPbu");
        ("clOrdId", "clOrdId");
        ("securityId", "securityId");
        ("account", "account");
        ("ownerType", "ownerType");
        ("side", "side");
        ("origClOrdId", "origClOrdId");
        ("transactTime", "transactTime");
        ("branchId", "branchId");
        ("userInfo", "userInfo") ];
  c_get :=
      [ ("getBizId", "bizId");
        ("getBizPbu", "bizPbu");
        ("getClOrdId", "clOrdId");
        ("getSecurityId", "securityId");
        ("getAccount", "account");
        ("getOwnerType", "ownerType");
        ("getSide", "side");
        ("getOrigClOrdId", "origClOrdId");
        ("getTransactTime", "transactTime");
        ("getBranchId", "branchId");
        ("getUserInfo", "userInfo") ];
  c_set :=
      [ ("setBizId", "bizId");
        ("setBizPbu", "bizPbu");
        ("setClOrdId", "clOrdId");
        ("setSecurityId", "securityId");
        ("setAccount", "account");
        ("setOwnerType", "ownerType");
        ("setSide", "side");
        ("setOrigClOrdId", "origClOrdId");
        ("setTransactTime", "transactTime");
        ("setBranchId", "branchId");
        ("setUserInfo", "userInfo") ] |}.

(* sse-bin/src/main/java/com/finproto/sse/bin/messages/OrderReject.java:8-152  class OrderReject; fields 9-16; encode 83-92; decode 95-104; hashCode 107-110; equals 113-129; toString 132-151; the rest: getters and setters *)
Definition sse_OrderReject : class_def := {|
  c_name := "sse.OrderReject";
  c_fields :=
      [ ("bizId", TInt);
        ("bizPbu", TStr);
        ("clOrdId", TStr);
        ("securityId", TStr);
        ("ordRejReason", TInt);
        ("tradeDate", TInt);
        ("transactTime", TLong);
        ("userInfo", TStr) ];
  c_enc :=
      [ EWrite 4 BE "bizId";
        EFix "bizPbu" 8 32 false;
        EFix "clOrdId" 10 32 false;
        EFix "securityId" 12 32 false;
        EWrite 4 BE "ordRejReason";
        EWrite 4 BE "tradeDate";
        EWrite 8 BE "transactTime";
        EFix "userInfo" 32 32 false ];
  c_dec :=
      [ DRead 4 BE "bizId";
        DFix "bizPbu" 8 32 false;
        DFix "clOrdId" 10 32 false;
        DFix "securityId" 12 32 false;
        DRead 4 BE "ordRejReason";
        DRead 4 BE "tradeDate";
        DRead 8 BE "transactTime";
        DFix "userInfo" 32 32 false ];
  c_eq :=
      [ "bizId";
        "bizPbu";
        "clOrdId";
        "securityId";
        "ordRejReason";
        "tradeDate";
        "transactTime";
        "userInfo" ];
  c_hash := 
      HashFields [ "bizId";
        "bizPbu";
        "clOrdId";
        "securityId";
        "ordRejReason";
        "tradeDate";
        "transactTime";
        "userInfo" ];
  c_tag := "OrderReject";
  c_str :=
      [ ("bizId", "bizId");
        ("bizPbu", "bizPbu");
        ("clOrdId", "clOrdId");
        ("securityId", "securityId");
        ("ordRejReason", "ordRejReason");
        ("tradeDate", "tradeDate");
        ("transactTime", "transactTime");
        ("userInfo", "userInfo") ];
  c_get :=
      [ ("getBizId", "bizId");
        ("getBizPbu", "bizPbu");
        ("getClOrdId", "clOrdId");
        ("getSecurityId", "securityId");
        ("getOrdRejReason", "ordRejReason");
        ("getTradeDate", "tradeDate");
        ("getTransactTime", "transactTime");
        ("getUserInfo", "userInfo") ];
  c_set :=
      [ ("setBizId", "bizId");
        ("setBizPbu", "bizPbu");
        ("setClOrdId", "clOrdId");
        ("setSecurityId", "securityId");
        ("setOrdRejReason", "ordRejReason");
        ("setTradeDate", "tradeDate");
        ("setTransactTime", "transactTime");
        ("setUserInfo", "userInfo") ] |}.

(* sse-bin/src/main/java/com/finproto/sse/bin/messages/PlatformState.java:8-67  class PlatformState; fields 9-10; encode 29-32; decode 35-38; hashCode 41-43; equals 46-56; toString 59-66; the rest: getters and setters *)
Definition sse_PlatformState : class_def := {|
  c_name := "sse.PlatformState";
  c_fields :=
      [ ("platformId", TShort);
        ("platformState", TShort) ];
  c_enc :=
      [ EWrite 2 BE "platformId";
        EWrite 2 BE "platformState" ];
  c_dec :=
      [ DRead 2 BE "platformId";
        DRead 2 BE "platformState" ];
  c_eq :=
      [ "platformId";
        "platformState" ];
  c_hash := 
      HashFields [ "platformId";
        "platformState" ];
  c_tag := "PlatformState";
  c_str :=
      [ ("platformId", "platformId");
        ("platformState", "platformState") ];
  c_get :=
      [ ("getPlatformId", "platformId");
        ("getPlatformState", "platformState") ];
  c_set :=
      [ ("setPlatformId", "platformId");
        ("setPlatformState", "platformState") ] |}.

(* sse-bin/src/main/java/com/finproto/sse/bin/messages/Report.java:8-429  class Report; fields 9-34; encode 245-272; decode 275-302; hashCode 305-333; equals 336-370; toString 373-428; the rest: getters and setters *)
Definition sse_Report : class_def := {|
  c_name := "sse.Report";
  c_fields :=
      [ ("pbu", TStr);
        ("setId", TInt);
        ("reportIndex", TLong);
        ("bizId", TInt);
        ("execType", TStr);
        ("bizPbu", TStr);
        ("clOrdId", TStr);
        ("securityId", TStr);
        ("account", TStr);
        ("ownerType", TByte);
        ("orderEntryTime", TLong);
        ("lastPx", TLong);
        ("lastQty", TLong);
        ("grossTradeAmt", TLong);
        ("side", TStr);
        ("orderQty", TLong);
        ("leavesQty", TLong);
        ("ordStatus", TStr);
        ("creditTag", TStr);
        ("clearingFirm", TStr);
        ("branchId", TStr);
        ("trdCnfmId", TStr);
        ("ordCnfmId", TStr);
        ("tradeDate", TInt);
        ("transactTime", TLong);
        ("userInfo", TStr) ];
  c_enc :=
      [ EFix "pbu" 8 32 false;
        EWrite 4 BE "setId";
        EWrite 8 BE "reportIndex";
        EWrite 4 BE "bizId";
        EFix "execType" 1 32 false;
        EFix "bizPbu" 8 32 false;
        EFix "clOrdId" 10 32 false;
        EFix "securityId" 12 32 false;
        EFix "account" 13 32 false;
        EWrite 1 BE "ownerType";
        EWrite 8 BE "orderEntryTime";
        EWrite 8 BE "lastPx";
        EWrite 8 BE "lastQty";
        EWrite 8 BE "grossTradeAmt";
        EFix "side" 1 32 false;
        EWrite 8 BE "orderQty";
        EWrite 8 BE "leavesQty";
        EFix "ordStatus" 1 32 false;
        EFix "creditTag" 2 32 false;
        EFix "clearingFirm" 8 32 false;
        EFix "branchId" 8 32 false;
        EFix "trdCnfmId" 16 32 false;
        EFix "ordCnfmId" 16 32 false;
        EWrite 4 BE "tradeDate";
        EWrite 8 BE "transactTime";
        EFix "userInfo" 32 32 false ];
  c_dec :=
      [ DFix "pbu" 8 32 false;
        DRead 4 BE "setId";
        DRead 8 BE "reportIndex";
        DRead 4 BE "bizId";
        DFix "execType" 1 32 false;
        DFix "bizPbu" 8 32 false;
        DFix "clOrdId" 10 32 false;
        DFix "securityId" 12 32 false;
        DFix "account" 13 32 false;
        DRead 1 BE "ownerType";
        DRead 8 BE "orderEntryTime";
        DRead 8 BE "lastPx";
        DRead 8 BE "lastQty";
        DRead 8 BE "grossTradeAmt";
        DFix "side" 1 32 false;
        DRead 8 BE "orderQty";
        DRead 8 BE "leavesQty";
        DFix "ordStatus" 1 32 false;
        DFix "creditTag" 2 32 false;
        DFix "clearingFirm" 8 32 false;
        DFix "branchId" 8 32 false;
        DFix "trdCnfmId" 16 32 false;
        DFix "ordCnfmId" 16 32 false;
        DRead 4 BE "tradeDate";
        DRead 8 BE "transactTime";
        DFix "userInfo" 32 32 false ];
  c_eq :=
      [ "pbu";
        "setId";
        "reportIndex";
        "bizId";
        "execType";
        "bizPbu";
        "clOrdId";
        "securityId";
        "account";
        "ownerType";
        "orderEntryTime";
        "lastPx";
        "lastQty";
        "grossTradeAmt";
        "side";
        "orderQty";
        "leavesQty";
        "ordStatus";
        "creditTag";
        "clearingFirm";
        "branchId";
        "trdCnfmId";
        "ordCnfmId";
        "tradeDate";
        "transactTime";
        "userInfo" ];
  c_hash := 
      HashFields [ "pbu";
        "setId";
        "reportIndex";
        "bizId";
        "execType";
        "bizPbu";
        "clOrdId";
        "securityId";
        "account";
        "ownerType";
        "orderEntryTime";
        "lastPx";
        "lastQty";
        "grossTradeAmt";
        "side";
        "orderQty";
        "leavesQty";
        "ordStatus";
        "creditTag";
        "clearingFirm";
        "branchId";
        "trdCnfmId";
        "ordCnfmId";
        "tradeDate";
        "transactTime";
        "userInfo" ];
  c_tag := "Report";
  c_str :=
      [ ("pbu", "pbu");
        ("setId", "setId");
        ("reportIndex", "reportIndex");
        ("bizId", "bizId");
        ("execType", "execType");
        ("bizPbu", "bizPbu");
        ("clOrdId", "clOrdId");
        ("securityId", "securityId");
        ("account", "account");
        ("ownerType", "ownerType");
        ("orderEntryTime", "orderEntryTime");
        ("lastPx", "lastPx");
        ("lastQty", "lastQty");
        ("grossTradeAmt", "grossTradeAmt");
        ("side", "side");
        ("orderQty", "orderQty");
        ("leavesQty", "leavesQty");
        ("ordStatus", "ordStatus");
        ("creditTag", "creditTag");
        ("clearingFirm", "clearingFirm");
        ("branchId", "branchId");
        ("trdCnfmId", "trdCnfmId");
        ("ordCnfmId", "ordCnfmId");
        ("tradeDate", "tradeDate");
        ("transactTime", "transactTime");
        ("userInfo", "userInfo") ];
  c_get :=
      [ ("getPbu", "pbu");
        ("getSetId", "setId");
        ("getReportIndex", "reportIndex");
        ("getBizId", "bizId");
        ("getExecType", "execType");
        ("getBizPbu", "bizPbu");
        ("getClOrdId", "clOrdId");
        ("getSecurityId", "securityId");
        ("getAccount", "account");
        ("getOwnerType", "ownerType");
        ("getOrderEntryTime", "orderEntryTime");
        ("getLastPx", "lastPx");
        ("getLastQty", "lastQty");
        ("getGrossTradeAmt", "grossTradeAmt");
        ("getSide", "side");
        ("getOrderQty", "orderQty");
        ("getLeavesQty", "leavesQty");
        ("getOrdStatus", "ordStatus");
        ("getCreditTag", "creditTag");
        ("getClearingFirm", "clearingFirm");
        ("getBranchId", "branchId");
        ("getTrdCnfmId", "trdCnfmId");
        ("getOrdCnfmId", "ordCnfmId");
        ("getTradeDate", "tradeDate");
        ("getTransactTime", "transactTime");
        ("getUserInfo", "userInfo") ];
  c_set :=
      [ ("setPbu", "pbu");
        ("setSetId", "setId");
        ("setReportIndex", "reportIndex");
        ("setBizId", "bizId");
        ("setExecType", "execType");
        ("setBizPbu", "bizPbu");
        ("setClOrdId", "clOrdId");
        ("setSecurityId", "securityId");
        ("setAccount", "account");
        ("setOwnerType", "ownerType");
        ("setOrderEntryTime", "orderEntryTime");
        ("setLastPx", "lastPx");
        ("setLastQty", "lastQty");
        ("setGrossTradeAmt", "grossTradeAmt");
        ("setSide", "side");
        ("setOrderQty", "orderQty");
        ("setLeavesQty", "leavesQty");
        ("setOrdStatus", "ordStatus");
        ("setCreditTag", "creditTag");
        ("setClearingFirm", "clearingFirm");
        ("setBranchId", "branchId");
        ("setTrdCnfmId", "trdCnfmId");
        ("setOrdCnfmId", "ordCnfmId");
        ("setTradeDate", "tradeDate");
        ("setTransactTime", "transactTime");
        ("setUserInfo", "userInfo") ] |}.

(* sse-bin/src/main/java/com/finproto/sse/bin/messages/SseBinary.java:13-226  class SseBinary; fields 14-18; encode 61-80; decode 83-90; hashCode 93-95; equals 98-111; toString 114-127; the rest: getters and setters *)
Definition sse_SseBinary : class_def := {|
  c_name := "sse.SseBinary";
  c_fields :=
      [ ("msgType", TInt);
        ("msgSeqNum", TLong);
        ("msgBodyLen", TInt);
        ("body", TCodec);
        ("checksum", TInt) ];
  c_enc :=
      [ EWrite 4 BE "msgType";
        EWrite 8 BE "msgSeqNum";
        EMark "msgBodyLenPos";
        EZero 4 BE;
        EMark "bodyStart";
        EObjOpt "body";
        EMark "bodyEnd";
        EDiff "msgBodyLen" "bodyEnd" "bodyStart";
        EPatch 4 BE "msgBodyLenPos" "msgBodyLen";
        ESum "SSE_BIN" "checksum";
        EWrite 4 BE "checksum" ];
  c_dec :=
      [ DRead 4 BE "msgType";
        DRead 8 BE "msgSeqNum";
        DRead 4 BE "msgBodyLen";
        DCreate "body" "msgType";
        DObj "body";
        DRead 4 BE "checksum" ];
  c_eq :=
      [ "msgType";
        "msgSeqNum";
        "msgBodyLen";
        "body";
        "checksum" ];
  c_hash := 
      HashFields [ "msgType";
        "msgSeqNum";
        "msgBodyLen";
        "body";
        "checksum" ];
  c_tag := "SseBinary";
  c_str :=
      [ ("msgType", "msgType");
        ("msgSeqNum", "msgSeqNum");
        ("msgBodyLen", "msgBodyLen");
        ("body", "body");
        ("checksum", "checksum") ];
  c_get :=
      [ ("getMsgType", "msgType");
        ("getMsgSeqNum", "msgSeqNum");
        ("getMsgBodyLen", "msgBodyLen");
        ("getBody", "body");
        ("getChecksum", "checksum") ];
  c_set :=
      [ ("setMsgType", "msgType");
        ("setMsgSeqNum", "msgSeqNum");
        ("setMsgBodyLen", "msgBodyLen");
        ("setBody", "body");
        ("setChecksum", "checksum") ] |}.

Definition sse_classes : list class_def :=
      [ sse_CancelReject;
        sse_Confirm;
        sse_ExecRptEndOfStream;
        sse_ExecRptInfo;
        sse_ExecRptSync;
        sse_ExecRptSync_SubExecRptSync;
        sse_ExecRptSyncRsp;
        sse_ExecRptSyncRsp_SubExecRptSyncRsp;
        sse_Heartbeat;
        sse_Logon;
        sse_Logout;
        sse_NewOrderSingle;
        sse_OrderCancel;
        sse_OrderReject;
        sse_PlatformState;
        sse_Report;
        sse_SseBinary ].

(* sse-bin/src/main/java/com/finproto/sse/bin/messages/SseBinary.java:129-225  factory of SseBinary (key type Integer): registrations of its static initialiser, in order *)
Definition sse_SseBinary_factory : list (key * string) :=
      [ (KInt 33, "sse.Heartbeat");
        (KInt 40, "sse.Logon");
        (KInt 41, "sse.Logout");
        (KInt 58, "sse.NewOrderSingle");
        (KInt 61, "sse.OrderCancel");
        (KInt 32, "sse.Confirm");
        (KInt 59, "sse.CancelReject");
        (KInt 103, "sse.Report");
        (KInt 204, "sse.OrderReject");
        (KInt 209, "sse.PlatformState");
        (KInt 208, "sse.ExecRptInfo");
        (KInt 206, "sse.ExecRptSync");
        (KInt 207, "sse.ExecRptSyncRsp");
        (KInt 210, "sse.ExecRptEndOfStream") ].

(* sse-bin/src/main/java/com/finproto/sse/bin/messages/SseBinary.java: reverseMap registrations, in order *)
Definition sse_SseBinary_reverse : list (string * Z) :=
      [ ("sse.Heartbeat", 33%Z);
        ("sse.Logon", 40%Z);
        ("sse.Logout", 41%Z);
        ("sse.NewOrderSingle", 58%Z);
        ("sse.OrderCancel", 61%Z);
        ("sse.Confirm", 32%Z);
        ("sse.CancelReject", 59%Z);
        ("sse.Report", 103%Z);
        ("sse.OrderReject", 204%Z);
        ("sse.PlatformState", 209%Z);
        ("sse.ExecRptInfo", 208%Z);
        ("sse.ExecRptSync", 206%Z);
        ("sse.ExecRptSyncRsp", 207%Z);
        ("sse.ExecRptEndOfStream", 210%Z) ].

(* sse-bin/src/main/java/com/finproto/sse/bin/messages/SseBinary.java: enum MessageType, constants in declaration order *)
Definition sse_SseBinary_msgtypes : list (string * Z) :=
      [ ("HEARTBEAT", 33%Z);
        ("LOGON", 40%Z);
        ("LOGOUT", 41%Z);
        ("NEW_ORDER_SINGLE", 58%Z);
        ("ORDER_CANCEL", 61%Z);
        ("CONFIRM", 32%Z);
        ("CANCEL_REJECT", 59%Z);
        ("REPORT", 103%Z);
        ("ORDER_REJECT", 204%Z);
        ("PLATFORM_STATE", 209%Z);
        ("EXEC_RPT_INFO", 208%Z);
        ("EXEC_RPT_SYNC", 206%Z);
        ("EXEC_RPT_SYNC_RSP", 207%Z);
        ("EXEC_RPT_END_OF_STREAM", 210%Z) ].

Definition sse_factories : list (string * list (key * string)) :=
      [ ("sse.SseBinary", sse_SseBinary_factory) ].
