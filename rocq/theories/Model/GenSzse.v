(* GENERATED by tools/translate.py from /repo/szse-bin/src/main/java: do not edit by hand.
   One definition per Java message class; each comment cites the file and the line ranges. *)
From Coq Require Import String ZArith List.
From Verif.Model Require Import JavaPrim Ast.
Import ListNotations.
Open Scope string_scope.

(* szse-bin/src/main/java/com/finproto/szse/bin/messages/BusinessReject.java:8-189  class BusinessReject; fields 9-18; encode 101-112; decode 115-126; hashCode 129-141; equals 144-162; toString 165-188; the rest: getters and setters *)
Definition szse_BusinessReject : class_def := {|
  c_name := "szse.BusinessReject";
  c_fields :=
      [ ("applId", TStr);
        ("transactTime", TLong);
        ("submittingPbuid", TStr);
        ("securityId", TStr);
        ("securityIdsource", TStr);
        ("refSeqNum", TLong);
        ("refMsgType", TInt);
        ("businessRejectRefId", TStr);
        ("businessRejectReason", TShort);
        ("businessRejectText", TStr) ];
  c_enc :=
      [ EFix "applId" 3 32 false;
        EWrite 8 BE "transactTime";
        EFix "submittingPbuid" 6 32 false;
        EFix "securityId" 8 32 false;
        EFix "securityIdsource" 4 32 false;
        EWrite 8 BE "refSeqNum";
        EWrite 4 BE "refMsgType";
        EFix "businessRejectRefId" 10 32 false;
        EWrite 2 BE "businessRejectReason";
        EFix "businessRejectText" 50 32 false ];
  c_dec :=
      [ DFix "applId" 3 32 false;
        DRead 8 BE "transactTime";
        DFix "submittingPbuid" 6 32 false;
        DFix "securityId" 8 32 false;
        DFix "securityIdsource" 4 32 false;
        DRead 8 BE "refSeqNum";
        DRead 4 BE "refMsgType";
        DFix "businessRejectRefId" 10 32 false;
        DRead 2 BE "businessRejectReason";
        DFix "businessRejectText" 50 32 false ];
  c_eq :=
      [ "applId";
        "transactTime";
        "submittingPbuid";
        "securityId";
        "securityIdsource";
        "refSeqNum";
        "refMsgType";
        "businessRejectRefId";
        "businessRejectReason";
        "businessRejectText" ];
  c_hash := 
      HashFields [ "applId";
        "transactTime";
        "submittingPbuid";
        "securityId";
        "securityIdsource";
        "refSeqNum";
        "refMsgType";
        "businessRejectRefId";
        "businessRejectReason";
        "businessRejectText" ];
  c_tag := "BusinessReject";
  c_str :=
      [ ("applId", "applId");
        ("transactTime", "transactTime");
        ("submittingPbuid", "submittingPbuid");
        ("securityId", "securityId");
        ("securityIdsource", "securityIdsource");
        ("refSeqNum", "refSeqNum");
        ("refMsgType", "refMsgType");
        ("businessRejectRefId", "businessRejectRefId");
        ("businessRejectReason", "businessRejectReason");
        ("businessRejectText", "businessRejectText") ];
  c_get :=
      [ ("getApplId", "applId");
        ("getTransactTime", "transactTime");
        ("getSubmittingPbuid", "submittingPbuid");
        ("getSecurityId", "securityId");
        ("getSecurityIdsource", "securityIdsource");
        ("getRefSeqNum", "refSeqNum");
        ("getRefMsgType", "refMsgType");
        ("getBusinessRejectRefId", "businessRejectRefId");
        ("getBusinessRejectReason", "businessRejectReason");
        ("getBusinessRejectText", "businessRejectText") ];
  c_set :=
      [ ("setApplId", "applId");
        ("setTransactTime", "transactTime");
        ("setSubmittingPbuid", "submittingPbuid");
        ("setSecurityId", "securityId");
        ("setSecurityIdsource", "securityIdsource");
        ("setRefSeqNum", "refSeqNum");
        ("setRefMsgType", "refMsgType");
        ("setBusinessRejectRefId", "businessRejectRefId");
        ("setBusinessRejectReason", "businessRejectReason");
        ("setBusinessRejectText", "businessRejectText") ] |}.

(* szse-bin/src/main/java/com/finproto/szse/bin/messages/CancelReject.java:8-309  class CancelReject; fields 9-26; encode 173-192; decode 195-214; hashCode 217-237; equals 240-266; toString 269-308; the rest: getters and setters *)
Definition szse_CancelReject : class_def := {|
  c_name := "szse.CancelReject";
  c_fields :=
      [ ("partitionNo", TInt);
        ("reportIndex", TLong);
        ("applId", TStr);
        ("reportingPbuid", TStr);
        ("submittingPbuid", TStr);
        ("securityId", TStr);
        ("securityIdsource", TStr);
        ("ownerType", TShort);
        ("clearingFirm", TStr);
        ("transactTime", TLong);
        ("userInfo", TStr);
        ("clOrdId", TStr);
        ("origClOrdId", TStr);
        ("side", TStr);
        ("ordStatus", TStr);
        ("cxlRejReason", TShort);
        ("rejectText", TStr);
        ("orderId", TStr) ];
  c_enc :=
      [ EWrite 4 BE "partitionNo";
        EWrite 8 BE "reportIndex";
        EFix "applId" 3 32 false;
        EFix "reportingPbuid" 6 32 false;
        EFix "submittingPbuid" 6 32 false;
        EFix "securityId" 8 32 false;
        EFix "securityIdsource" 4 32 false;
        EWrite 2 BE "ownerType";
        EFix "clearingFirm" 2 32 false;
        EWrite 8 BE "transactTime";
        EFix "userInfo" 8 32 false;
        EFix "clOrdId" 10 32 false;
        EFix "origClOrdId" 10 32 false;
        EFix "side" 1 32 false;
        EFix "ordStatus" 1 32 false;
        EWrite 2 BE "cxlRejReason";
        EFix "rejectText" 16 32 false;
        EFix "orderId" 16 32 false ];
  c_dec :=
      [ DRead 4 BE "partitionNo";
        DRead 8 BE "reportIndex";
        DFix "applId" 3 32 false;
        DFix "reportingPbuid" 6 32 false;
        DFix "submittingPbuid" 6 32 false;
        DFix "securityId" 8 32 false;
        DFix "securityIdsource" 4 32 false;
        DRead 2 BE "ownerType";
        DFix "clearingFirm" 2 32 false;
        DRead 8 BE "transactTime";
        DFix "userInfo" 8 32 false;
        DFix "clOrdId" 10 32 false;
        DFix "origClOrdId" 10 32 false;
        DFix "side" 1 32 false;
        DFix "ordStatus" 1 32 false;
        DRead 2 BE "cxlRejReason";
        DFix "rejectText" 16 32 false;
        DFix "orderId" 16 32 false ];
  c_eq :=
      [ "partitionNo";
        "reportIndex";
        "applId";
        "reportingPbuid";
        "submittingPbuid";
        "securityId";
        "securityIdsource";
        "ownerType";
        "clearingFirm";
        "transactTime";
        "userInfo";
        "clOrdId";
        "origClOrdId";
        "side";
        "ordStatus";
        "cxlRejReason";
        "rejectText";
        "orderId" ];
  c_hash := 
      HashFields [ "partitionNo";
        "reportIndex";
        "applId";
        "reportingPbuid";
        "submittingPbuid";
        "securityId";
        "securityIdsource";
        "ownerType";
        "clearingFirm";
        "transactTime";
        "userInfo";
        "clOrdId";
        "origClOrdId";
        "side";
        "ordStatus";
        "cxlRejReason";
        "rejectText";
        "orderId" ];
  c_tag := "CancelReject";
  c_str :=
      [ ("partitionNo", "partitionNo");
        ("reportIndex", "reportIndex");
        ("applId", "applId");
        ("reportingPbuid", "reportingPbuid");
        ("submittingPbuid", "submittingPbuid");
        ("securityId", "securityId");
        ("securityIdsource", "securityIdsource");
        ("ownerType", "ownerType");
        ("clearingFirm", "clearingFirm");
        ("transactTime", "transactTime");
        ("userInfo", "userInfo");
        ("clOrdId", "clOrdId");
        ("origClOrdId", "origClOrdId");
        ("side", "side");
        ("ordStatus", "ordStatus");
        ("cxlRejReason", "cxlRejReason");
        ("rejectText", "rejectText");
        ("orderId", "orderId") ];
  c_get :=
      [ ("getPartitionNo", "partitionNo");
        ("getReportIndex", "reportIndex");
        ("getApplId", "applId");
        ("getReportingPbuid", "reportingPbuid");
        ("getSubmittingPbuid", "submittingPbuid");
        ("getSecurityId", "securityId");
        ("getSecurityIdsource", "securityIdsource");
        ("getOwnerType", "ownerType");
        ("getClearingFirm", "clearingFirm");
        ("getTransactTime", "transactTime");
        ("getUserInfo", "userInfo");
        ("getClOrdId", "clOrdId");
        ("getOrigClOrdId", "origClOrdId");
        ("getSide", "side");
        ("getOrdStatus", "ordStatus");
        ("getCxlRejReason", "cxlRejReason");
        ("getRejectText", "rejectText");
        ("getOrderId", "orderId") ];
  c_set :=
      [ ("setPartitionNo", "partitionNo");
        ("setReportIndex", "reportIndex");
        ("setApplId", "applId");
        ("setReportingPbuid", "reportingPbuid");
        ("setSubmittingPbuid", "submittingPbuid");
        ("setSecurityId", "securityId");
        ("setSecurityIdsource", "securityIdsource");
        ("setOwnerType", "ownerType");
        ("setClearingFirm", "clearingFirm");
        ("setTransactTime", "transactTime");
        ("setUserInfo", "userInfo");
        ("setClOrdId", "clOrdId");
        ("setOrigClOrdId", "origClOrdId");
        ("setSide", "side");
        ("setOrdStatus", "ordStatus");
        ("setCxlRejReason", "cxlRejReason");
        ("setRejectText", "rejectText");
        ("setOrderId", "orderId") ] |}.

(* szse-bin/src/main/java/com/finproto/szse/bin/messages/ExecutionConfirm.java:11-536  class ExecutionConfirm; fields 12-40; encode 275-307; decode 310-341; hashCode 344-375; equals 378-415; toString 418-479; the rest: getters and setters *)
Definition szse_ExecutionConfirm : class_def := {|
  c_name := "szse.ExecutionConfirm";
  c_fields :=
      [ ("partitionNo", TInt);
        ("reportIndex", TLong);
        ("applId", TStr);
        ("reportingPbuid", TStr);
        ("submittingPbuid", TStr);
        ("securityId", TStr);
        ("securityIdsource", TStr);
        ("ownerType", TShort);
        ("clearingFirm", TStr);
        ("transactTime", TLong);
        ("userInfo", TStr);
        ("orderId", TStr);
        ("clOrdId", TStr);
        ("quoteMsgId", TStr);
        ("origClOrdId", TStr);
        ("execId", TStr);
        ("execType", TStr);
        ("ordStatus", TStr);
        ("ordRejReason", TShort);
        ("leavesQty", TLong);
        ("cumQty", TLong);
        ("side", TStr);
        ("ordType", TStr);
        ("orderQty", TLong);
        ("price", TLong);
        ("accountId", TStr);
        ("branchId", TStr);
        ("orderRestrictions", TStr);
        ("applExtend", TCodec) ];
  c_enc :=
      [ EWrite 4 BE "partitionNo";
        EWrite 8 BE "reportIndex";
        EFix "applId" 3 32 false;
        EFix "reportingPbuid" 6 32 false;
        EFix "submittingPbuid" 6 32 false;
        EFix "securityId" 8 32 false;
        EFix "securityIdsource" 4 32 false;
        EWrite 2 BE "ownerType";
        EFix "clearingFirm" 2 32 false;
        EWrite 8 BE "transactTime";
        EFix "userInfo" 8 32 false;
        EFix "orderId" 16 32 false;
        EFix "clOrdId" 10 32 false;
        EFix "quoteMsgId" 10 32 false;
        EFix "origClOrdId" 10 32 false;
        EFix "execId" 16 32 false;
        EFix "execType" 1 32 false;
        EFix "ordStatus" 1 32 false;
        EWrite 2 BE "ordRejReason";
        EWrite 8 BE "leavesQty";
        EWrite 8 BE "cumQty";
        EFix "side" 1 32 false;
        EFix "ordType" 1 32 false;
        EWrite 8 BE "orderQty";
        EWrite 8 BE "price";
        EFix "accountId" 12 32 false;
        EFix "branchId" 4 32 false;
        EFix "orderRestrictions" 4 32 false;
        EObjOpt "applExtend" ];
  c_dec :=
      [ DRead 4 BE "partitionNo";
        DRead 8 BE "reportIndex";
        DFix "applId" 3 32 false;
        DFix "reportingPbuid" 6 32 false;
        DFix "submittingPbuid" 6 32 false;
        DFix "securityId" 8 32 false;
        DFix "securityIdsource" 4 32 false;
        DRead 2 BE "ownerType";
        DFix "clearingFirm" 2 32 false;
        DRead 8 BE "transactTime";
        DFix "userInfo" 8 32 false;
        DFix "orderId" 16 32 false;
        DFix "clOrdId" 10 32 false;
        DFix "quoteMsgId" 10 32 false;
        DFix "origClOrdId" 10 32 false;
        DFix "execId" 16 32 false;
        DFix "execType" 1 32 false;
        DFix "ordStatus" 1 32 false;
        DRead 2 BE "ordRejReason";
        DRead 8 BE "leavesQty";
        DRead 8 BE "cumQty";
        DFix "side" 1 32 false;
        DFix "ordType" 1 32 false;
        DRead 8 BE "orderQty";
        DRead 8 BE "price";
        DFix "accountId" 12 32 false;
        DFix "branchId" 4 32 false;
        DFix "orderRestrictions" 4 32 false;
        DCreate "applExtend" "applId";
        DObj "applExtend" ];
  c_eq :=
      [ "partitionNo";
        "reportIndex";
        "applId";
        "reportingPbuid";
        "submittingPbuid";
        "securityId";
        "securityIdsource";
        "ownerType";
        "clearingFirm";
        "transactTime";
        "userInfo";
        "orderId";
        "clOrdId";
        "quoteMsgId";
        "origClOrdId";
        "execId";
        "execType";
        "ordStatus";
        "ordRejReason";
        "leavesQty";
        "cumQty";
        "side";
        "ordType";
        "orderQty";
        "price";
        "accountId";
        "branchId";
        "orderRestrictions";
        "applExtend" ];
  c_hash := 
      HashFields [ "partitionNo";
        "reportIndex";
        "applId";
        "reportingPbuid";
        "submittingPbuid";
        "securityId";
        "securityIdsource";
        "ownerType";
        "clearingFirm";
        "transactTime";
        "userInfo";
        "orderId";
        "clOrdId";
        "quoteMsgId";
        "origClOrdId";
        "execId";
        "execType";
        "ordStatus";
        "ordRejReason";
        "leavesQty";
        "cumQty";
        "side";
        "ordType";
        "orderQty";
        "price";
        "accountId";
        "branchId";
        "orderRestrictions";
        "applExtend" ];
  c_tag := "ExecutionConfirm";
  c_str :=
      [ ("partitionNo", "partitionNo");
        ("reportIndex", "reportIndex");
        ("applId", "applId");
        ("reportingPbuid", "reportingPbuid");
        ("submittingPbuid", "submittingPbuid");
        ("securityId", "securityId");
        ("securityIdsource", "securityIdsource");
        ("ownerType", "ownerType");
        ("clearingFirm", "clearingFirm");
        ("transactTime", "transactTime");
        ("userInfo", "userInfo");
        ("orderId", "orderId");
        ("clOrdId", "clOrdId");
        ("quoteMsgId", "quoteMsgId");
        ("origClOrdId", "origClOrdId");
        ("execId", "execId");
        ("execType", "execType");
        ("ordStatus", "ordStatus");
        ("ordRejReason", "ordRejReason");
        ("leavesQty", "leavesQty");
        ("cumQty", "cumQty");
        ("side", "side");
        ("ordType", "ordType");
        ("orderQty", "orderQty");
        ("price", "price");
        ("accountId", "accountId");
        ("branchId", "branchId");
        ("orderRestrictions", "orderRestrictions");
        ("applExtend", "applExtend") ];
  c_get :=
      [ ("getPartitionNo", "partitionNo");
        ("getReportIndex", "reportIndex");
        ("getApplId", "applId");
        ("getReportingPbuid", "reportingPbuid");
        ("getSubmittingPbuid", "submittingPbuid");
        ("getSecurityId", "securityId");
        ("getSecurityIdsource", "securityIdsource");
        ("getOwnerType", "ownerType");
        ("getClearingFirm", "clearingFirm");
        ("getTransactTime", "transactTime");
        ("getUserInfo", "userInfo");
        ("getOrderId", "orderId");
        ("getClOrdId", "clOrdId");
        ("getQuoteMsgId", "quoteMsgId");
        ("getOrigClOrdId", "origClOrdId");
        ("getExecId", "execId");
        ("getExecType", "execType");
        ("getOrdStatus", "ordStatus");
        ("getOrdRejReason", "ordRejReason");
        ("getLeavesQty", "leavesQty");
        ("getCumQty", "cumQty");
        ("getSide", "side");
        ("getOrdType", "ordType");
        ("getOrderQty", "orderQty");
        ("getPrice", "price");
        ("getAccountId", "accountId");
        ("getBranchId", "branchId");
        ("getOrderRestrictions", "orderRestrictions");
        ("getApplExtend", "applExtend") ];
  c_set :=
      [ ("setPartitionNo", "partitionNo");
        ("setReportIndex", "reportIndex");
        ("setApplId", "applId");
        ("setReportingPbuid", "reportingPbuid");
        ("setSubmittingPbuid", "submittingPbuid");
        ("setSecurityId", "securityId");
        ("setSecurityIdsource", "securityIdsource");
        ("setOwnerType", "ownerType");
        ("setClearingFirm", "clearingFirm");
        ("setTransactTime", "transactTime");
        ("setUserInfo", "userInfo");
        ("setOrderId", "orderId");
        ("setClOrdId", "clOrdId");
        ("setQuoteMsgId", "quoteMsgId");
        ("setOrigClOrdId", "origClOrdId");
        ("setExecId", "execId");
        ("setExecType", "execType");
        ("setOrdStatus", "ordStatus");
        ("setOrdRejReason", "ordRejReason");
        ("setLeavesQty", "leavesQty");
        ("setCumQty", "cumQty");
        ("setSide", "side");
        ("setOrdType", "ordType");
        ("setOrderQty", "orderQty");
        ("setPrice", "price");
        ("setAccountId", "accountId");
        ("setBranchId", "branchId");
        ("setOrderRestrictions", "orderRestrictions");
        ("setApplExtend", "applExtend") ] |}.

(* szse-bin/src/main/java/com/finproto/szse/bin/messages/ExecutionReport.java:11-467  class ExecutionReport; fields 12-36; encode 239-267; decode 270-297; hashCode 300-327; equals 330-363; toString 366-419; the rest: getters and setters *)
Definition szse_ExecutionReport : class_def := {|
  c_name := "szse.ExecutionReport";
  c_fields :=
      [ ("partitionNo", TInt);
        ("reportIndex", TLong);
        ("applId", TStr);
        ("reportingPbuid", TStr);
        ("submittingPbuid", TStr);
        ("securityId", TStr);
        ("securityIdsource", TStr);
        ("ownerType", TShort);
        ("clearingFirm", TStr);
        ("transactTime", TLong);
        ("userInfo", TStr);
        ("orderId", TStr);
        ("clOrdId", TStr);
        ("quoteMsgId", TStr);
        ("execId", TStr);
        ("execType", TStr);
        ("ordStatus", TStr);
        ("lastPx", TLong);
        ("lastQty", TLong);
        ("leavesQty", TLong);
        ("cumQty", TLong);
        ("side", TStr);
        ("accountId", TStr);
        ("branchId", TStr);
        ("applExtend", TCodec) ];
  c_enc :=
      [ EWrite 4 BE "partitionNo";
        EWrite 8 BE "reportIndex";
        EFix "applId" 3 32 false;
        EFix "reportingPbuid" 6 32 false;
        EFix "submittingPbuid" 6 32 false;
        EFix "securityId" 8 32 false;
        EFix "securityIdsource" 4 32 false;
        EWrite 2 BE "ownerType";
        EFix "clearingFirm" 2 32 false;
        EWrite 8 BE "transactTime";
        EFix "userInfo" 8 32 false;
        EFix "orderId" 16 32 false;
        EFix "clOrdId" 10 32 false;
        EFix "quoteMsgId" 10 32 false;
        EFix "execId" 16 32 false;
        EFix "execType" 1 32 false;
        EFix "ordStatus" 1 32 false;
        EWrite 8 BE "lastPx";
        EWrite 8 BE "lastQty";
        EWrite 8 BE "leavesQty";
        EWrite 8 BE "cumQty";
        EFix "side" 1 32 false;
        EFix "accountId" 12 32 false;
        EFix "branchId" 4 32 false;
        EObjOpt "applExtend" ];
  c_dec :=
      [ DRead 4 BE "partitionNo";
        DRead 8 BE "reportIndex";
        DFix "applId" 3 32 false;
        DFix "reportingPbuid" 6 32 false;
        DFix "submittingPbuid" 6 32 false;
        DFix "securityId" 8 32 false;
        DFix "securityIdsource" 4 32 false;
        DRead 2 BE "ownerType";
        DFix "clearingFirm" 2 32 false;
        DRead 8 BE "transactTime";
        DFix "userInfo" 8 32 false;
        DFix "orderId" 16 32 false;
        DFix "clOrdId" 10 32 false;
        DFix "quoteMsgId" 10 32 false;
        DFix "execId" 16 32 false;
        DFix "execType" 1 32 false;
        DFix "ordStatus" 1 32 false;
        DRead 8 BE "lastPx";
        DRead 8 BE "lastQty";
        DRead 8 BE "leavesQty";
        DRead 8 BE "cumQty";
        DFix "side" 1 32 false;
        DFix "accountId" 12 32 false;
        DFix "branchId" 4 32 false;
        DCreate "applExtend" "applId";
        DObj "applExtend" ];
  c_eq :=
      [ "partitionNo";
        "reportIndex";
        "applId";
        "reportingPbuid";
        "submittingPbuid";
        "securityId";
        "securityIdsource";
        "ownerType";
        "clearingFirm";
        "transactTime";
        "userInfo";
        "orderId";
        "clOrdId";
        "quoteMsgId";
        "execId";
        "execType";
        "ordStatus";
        "lastPx";
        "lastQty";
        "leavesQty";
        "cumQty";
        "side";
        "accountId";
        "branchId";
        "applExtend" ];
  c_hash := 
      HashFields [ "partitionNo";
        "reportIndex";
        "applId";
        "reportingPbuid";
        "submittingPbuid";
        "securityId";
        "securityIdsource";
        "ownerType";
        "clearingFirm";
        "transactTime";
        "userInfo";
        "orderId";
        "clOrdId";
        "quoteMsgId";
        "execId";
        "execType";
        "ordStatus";
        "lastPx";
        "lastQty";
        "leavesQty";
        "cumQty";
        "side";
        "accountId";
        "branchId";
        "applExtend" ];
  c_tag := "ExecutionReport";
  c_str :=
      [ ("partitionNo", "partitionNo");
        ("reportIndex", "reportIndex");
        ("applId", "applId");
        ("reportingPbuid", "reportingPbuid");
        ("submittingPbuid", "submittingPbuid");
        ("securityId", "securityId");
        ("securityIdsource", "securityIdsource");
        ("ownerType", "ownerType");
        ("clearingFirm", "clearingFirm");
        ("transactTime", "transactTime");
        ("userInfo", "userInfo");
        ("orderId", "orderId");
        ("clOrdId", "clOrdId");
        ("quoteMsgId", "quoteMsgId");
        ("execId", "execId");
        ("execType", "execType");
        ("ordStatus", "ordStatus");
        ("lastPx", "lastPx");
        ("lastQty", "lastQty");
        ("leavesQty", "leavesQty");
        ("cumQty", "cumQty");
        ("side", "side");
        ("accountId", "accountId");
        ("branchId", "branchId");
        ("applExtend", "applExtend") ];
  c_get :=
      [ ("getPartitionNo", "partitionNo");
        ("getReportIndex", "reportIndex");
        ("getApplId", "applId");
        ("getReportingPbuid", "reportingPbuid");
        ("getSubmittingPbuid", "submittingPbuid");
        ("getSecurityId", "securityId");
        ("getSecurityIdsource", "securityIdsource");
        ("getOwnerType", "ownerType");
        ("getClearingFirm", "clearingFirm");
        ("getTransactTime", "transactTime");
        ("getUserInfo", "userInfo");
        ("getOrderId", "orderId");
        ("getClOrdId", "clOrdId");
        ("getQuoteMsgId", "quoteMsgId");
        ("getExecId", "execId");
        ("getExecType", "execType");
        ("getOrdStatus", "ordStatus");
        ("getLastPx", "lastPx");
        ("getLastQty", "lastQty");
        ("getLeavesQty", "leavesQty");
        ("getCumQty", "cumQty");
        ("getSide", "side");
        ("getAccountId", "accountId");
        ("getBranchId", "branchId");
        ("getApplExtend", "applExtend") ];
  c_set :=
      [ ("setPartitionNo", "partitionNo");
        ("setReportIndex", "reportIndex");
        ("setApplId", "applId");
        ("setReportingPbuid", "reportingPbuid");
        ("setSubmittingPbuid", "submittingPbuid");
        ("setSecurityId", "securityId");
        ("setSecurityIdsource", "securityIdsource");
        ("setOwnerType", "ownerType");
        ("setClearingFirm", "clearingFirm");
        ("setTransactTime", "transactTime");
        ("setUserInfo", "userInfo");
        ("setOrderId", "orderId");
        ("setClOrdId", "clOrdId");
        ("setQuoteMsgId", "quoteMsgId");
        ("setExecId", "execId");
        ("setExecType", "execType");
        ("setOrdStatus", "ordStatus");
        ("setLastPx", "lastPx");
        ("setLastQty", "lastQty");
        ("setLeavesQty", "leavesQty");
        ("setCumQty", "cumQty");
        ("setSide", "side");
        ("setAccountId", "accountId");
        ("setBranchId", "branchId");
        ("setApplExtend", "applExtend") ] |}.

(* szse-bin/src/main/java/com/finproto/szse/bin/messages/Extend100101.java:8-109  class Extend100101; fields 9-13; encode 56-62; decode 65-71; hashCode 74-76; equals 79-92; toString 95-108; the rest: getters and setters *)
Definition szse_Extend100101 : class_def := {|
  c_name := "szse.Extend100101";
  c_fields :=
      [ ("stopPx", TLong);
        ("minQty", TLong);
        ("maxPriceLevels", TShort);
        ("timeInForce", TStr);
        ("cashMargin", TStr) ];
  c_enc :=
      [ EWrite 8 BE "stopPx";
        EWrite 8 BE "minQty";
        EWrite 2 BE "maxPriceLevels";
        EFix "timeInForce" 1 32 false;
        EFix "cashMargin" 1 32 false ];
  c_dec :=
      [ DRead 8 BE "stopPx";
        DRead 8 BE "minQty";
        DRead 2 BE "maxPriceLevels";
        DFix "timeInForce" 1 32 false;
        DFix "cashMargin" 1 32 false ];
  c_eq :=
      [ "stopPx";
        "minQty";
        "maxPriceLevels";
        "timeInForce";
        "cashMargin" ];
  c_hash := 
      HashFields [ "stopPx";
        "minQty";
        "maxPriceLevels";
        "timeInForce";
        "cashMargin" ];
  c_tag := "Extend100101";
  c_str :=
      [ ("stopPx", "stopPx");
        ("minQty", "minQty");
        ("maxPriceLevels", "maxPriceLevels");
        ("timeInForce", "timeInForce");
        ("cashMargin", "cashMargin") ];
  c_get :=
      [ ("getStopPx", "stopPx");
        ("getMinQty", "minQty");
        ("getMaxPriceLevels", "maxPriceLevels");
        ("getTimeInForce", "timeInForce");
        ("getCashMargin", "cashMargin") ];
  c_set :=
      [ ("setStopPx", "stopPx");
        ("setMinQty", "minQty");
        ("setMaxPriceLevels", "maxPriceLevels");
        ("setTimeInForce", "timeInForce");
        ("setCashMargin", "cashMargin") ] |}.

(* szse-bin/src/main/java/com/finproto/szse/bin/messages/Extend100201.java:8-95  class Extend100201; fields 9-12; encode 47-52; decode 55-60; hashCode 63-65; equals 68-80; toString 83-94; the rest: getters and setters *)
Definition szse_Extend100201 : class_def := {|
  c_name := "szse.Extend100201";
  c_fields :=
      [ ("stopPx", TLong);
        ("minQty", TLong);
        ("maxPriceLevels", TShort);
        ("timeInForce", TStr) ];
  c_enc :=
      [ EWrite 8 BE "stopPx";
        EWrite 8 BE "minQty";
        EWrite 2 BE "maxPriceLevels";
        EFix "timeInForce" 1 32 false ];
  c_dec :=
      [ DRead 8 BE "stopPx";
        DRead 8 BE "minQty";
        DRead 2 BE "maxPriceLevels";
        DFix "timeInForce" 1 32 false ];
  c_eq :=
      [ "stopPx";
        "minQty";
        "maxPriceLevels";
        "timeInForce" ];
  c_hash := 
      HashFields [ "stopPx";
        "minQty";
        "maxPriceLevels";
        "timeInForce" ];
  c_tag := "Extend100201";
  c_str :=
      [ ("stopPx", "stopPx");
        ("minQty", "minQty");
        ("maxPriceLevels", "maxPriceLevels");
        ("timeInForce", "timeInForce") ];
  c_get :=
      [ ("getStopPx", "stopPx");
        ("getMinQty", "minQty");
        ("getMaxPriceLevels", "maxPriceLevels");
        ("getTimeInForce", "timeInForce") ];
  c_set :=
      [ ("setStopPx", "stopPx");
        ("setMinQty", "minQty");
        ("setMaxPriceLevels", "maxPriceLevels");
        ("setTimeInForce", "timeInForce") ] |}.

(* szse-bin/src/main/java/com/finproto/szse/bin/messages/Extend100301.java:8-95  class Extend100301; fields 9-12; encode 47-52; decode 55-60; hashCode 63-65; equals 68-80; toString 83-94; the rest: getters and setters *)
Definition szse_Extend100301 : class_def := {|
  c_name := "szse.Extend100301";
  c_fields :=
      [ ("stopPx", TLong);
        ("minQty", TLong);
        ("maxPriceLevels", TShort);
        ("timeInForce", TStr) ];
  c_enc :=
      [ EWrite 8 BE "stopPx";
        EWrite 8 BE "minQty";
        EWrite 2 BE "maxPriceLevels";
        EFix "timeInForce" 1 32 false ];
  c_dec :=
      [ DRead 8 BE "stopPx";
        DRead 8 BE "minQty";
        DRead 2 BE "maxPriceLevels";
        DFix "timeInForce" 1 32 false ];
  c_eq :=
      [ "stopPx";
        "minQty";
        "maxPriceLevels";
        "timeInForce" ];
  c_hash := 
      HashFields [ "stopPx";
        "minQty";
        "maxPriceLevels";
        "timeInForce" ];
  c_tag := "Extend100301";
  c_str :=
      [ ("stopPx", "stopPx");
        ("minQty", "minQty");
        ("maxPriceLevels", "maxPriceLevels");
        ("timeInForce", "timeInForce") ];
  c_get :=
      [ ("getStopPx", "stopPx");
        ("getMinQty", "minQty");
        ("getMaxPriceLevels", "maxPriceLevels");
        ("getTimeInForce", "timeInForce") ];
  c_set :=
      [ ("setStopPx", "stopPx");
        ("setMinQty", "minQty");
        ("setMaxPriceLevels", "maxPriceLevels");
        ("setTimeInForce", "timeInForce") ] |}.

(* szse-bin/src/main/java/com/finproto/szse/bin/messages/Extend100501.java:8-67  class Extend100501; fields 9-10; encode 29-32; decode 35-38; hashCode 41-43; equals 46-56; toString 59-66; the rest: getters and setters *)
Definition szse_Extend100501 : class_def := {|
  c_name := "szse.Extend100501";
  c_fields :=
      [ ("confirmId", TStr);
        ("cashMargin", TStr) ];
  c_enc :=
      [ EFix "confirmId" 8 32 false;
        EFix "cashMargin" 1 32 false ];
  c_dec :=
      [ DFix "confirmId" 8 32 false;
        DFix "cashMargin" 1 32 false ];
  c_eq :=
      [ "confirmId";
        "cashMargin" ];
  c_hash := 
      HashFields [ "confirmId";
        "cashMargin" ];
  c_tag := "Extend100501";
  c_str :=
      [ ("confirmId", "confirmId");
        ("cashMargin", "cashMargin") ];
  c_get :=
      [ ("getConfirmId", "confirmId");
        ("getCashMargin", "cashMargin") ];
  c_set :=
      [ ("setConfirmId", "confirmId");
        ("setCashMargin", "cashMargin") ] |}.

(* szse-bin/src/main/java/com/finproto/szse/bin/messages/Extend100601.java:8-50  class Extend100601; fields 9-9; encode 20-22; decode 25-27; hashCode 30-32; equals 35-44; toString 47-49; the rest: getters and setters *)
Definition szse_Extend100601 : class_def := {|
  c_name := "szse.Extend100601";
  c_fields :=
      [ ("cashMargin", TStr) ];
  c_enc :=
      [ EFix "cashMargin" 1 32 false ];
  c_dec :=
      [ DFix "cashMargin" 1 32 false ];
  c_eq :=
      [ "cashMargin" ];
  c_hash := 
      HashFields [ "cashMargin" ];
  c_tag := "Extend100601";
  c_str :=
      [ ("cashMargin", "cashMargin") ];
  c_get :=
      [ ("getCashMargin", "cashMargin") ];
  c_set :=
      [ ("setCashMargin", "cashMargin") ] |}.

(* szse-bin/src/main/java/com/finproto/szse/bin/messages/Extend100701.java:8-81  class Extend100701; fields 9-11; encode 38-42; decode 45-49; hashCode 52-54; equals 57-68; toString 71-80; the rest: getters and setters *)
Definition szse_Extend100701 : class_def := {|
  c_name := "szse.Extend100701";
  c_fields :=
      [ ("expirationDays", TShort);
        ("expirationType", TByte);
        ("shareProperty", TStr) ];
  c_enc :=
      [ EWrite 2 BE "expirationDays";
        EWrite 1 BE "expirationType";
        EFix "shareProperty" 2 32 false ];
  c_dec :=
      [ DRead 2 BE "expirationDays";
        DRead 1 BE "expirationType";
        DFix "shareProperty" 2 32 false ];
  c_eq :=
      [ "expirationDays";
        "expirationType";
        "shareProperty" ];
  c_hash := 
      HashFields [ "expirationDays";
        "expirationType";
        "shareProperty" ];
  c_tag := "Extend100701";
  c_str :=
      [ ("expirationDays", "expirationDays");
        ("expirationType", "expirationType");
        ("shareProperty", "shareProperty") ];
  c_get :=
      [ ("getExpirationDays", "expirationDays");
        ("getExpirationType", "expirationType");
        ("getShareProperty", "shareProperty") ];
  c_set :=
      [ ("setExpirationDays", "expirationDays");
        ("setExpirationType", "expirationType");
        ("setShareProperty", "shareProperty") ] |}.

(* szse-bin/src/main/java/com/finproto/szse/bin/messages/Extend101401.java:8-159  class Extend101401; fields 9-16; encode 83-92; decode 95-104; hashCode 107-117; equals 120-136; toString 139-158; the rest: getters and setters *)
Definition szse_Extend101401 : class_def := {|
  c_name := "szse.Extend101401";
  c_fields :=
      [ ("stopPx", TLong);
        ("minQty", TLong);
        ("maxPriceLevels", TShort);
        ("timeInForce", TStr);
        ("positionEffect", TStr);
        ("coveredOrUncovered", TByte);
        ("contractAccountCode", TStr);
        ("secondaryOrderId", TStr) ];
  c_enc :=
      [ EWrite 8 BE "stopPx";
        EWrite 8 BE "minQty";
        EWrite 2 BE "maxPriceLevels";
        EFix "timeInForce" 1 32 false;
        EFix "positionEffect" 1 32 false;
        EWrite 1 BE "coveredOrUncovered";
        EFix "contractAccountCode" 6 32 false;
        EFix "secondaryOrderId" 16 32 false ];
  c_dec :=
      [ DRead 8 BE "stopPx";
        DRead 8 BE "minQty";
        DRead 2 BE "maxPriceLevels";
        DFix "timeInForce" 1 32 false;
        DFix "positionEffect" 1 32 false;
        DRead 1 BE "coveredOrUncovered";
        DFix "contractAccountCode" 6 32 false;
        DFix "secondaryOrderId" 16 32 false ];
  c_eq :=
      [ "stopPx";
        "minQty";
        "maxPriceLevels";
        "timeInForce";
        "positionEffect";
        "coveredOrUncovered";
        "contractAccountCode";
        "secondaryOrderId" ];
  c_hash := 
      HashFields [ "stopPx";
        "minQty";
        "maxPriceLevels";
        "timeInForce";
        "positionEffect";
        "coveredOrUncovered";
        "contractAccountCode";
        "secondaryOrderId" ];
  c_tag := "Extend101401";
  c_str :=
      [ ("stopPx", "stopPx");
        ("minQty", "minQty");
        ("maxPriceLevels", "maxPriceLevels");
        ("timeInForce", "timeInForce");
        ("positionEffect", "positionEffect");
        ("coveredOrUncovered", "coveredOrUncovered");
        ("contractAccountCode", "contractAccountCode");
        ("secondaryOrderId", "secondaryOrderId") ];
  c_get :=
      [ ("getStopPx", "stopPx");
        ("getMinQty", "minQty");
        ("getMaxPriceLevels", "maxPriceLevels");
        ("getTimeInForce", "timeInForce");
        ("getPositionEffect", "positionEffect");
        ("getCoveredOrUncovered", "coveredOrUncovered");
        ("getContractAccountCode", "contractAccountCode");
        ("getSecondaryOrderId", "secondaryOrderId") ];
  c_set :=
      [ ("setStopPx", "stopPx");
        ("setMinQty", "minQty");
        ("setMaxPriceLevels", "maxPriceLevels");
        ("setTimeInForce", "timeInForce");
        ("setPositionEffect", "positionEffect");
        ("setCoveredOrUncovered", "coveredOrUncovered");
        ("setContractAccountCode", "contractAccountCode");
        ("setSecondaryOrderId", "secondaryOrderId") ] |}.

(* szse-bin/src/main/java/com/finproto/szse/bin/messages/Extend101501.java:8-50  class Extend101501; fields 9-9; encode 20-22; decode 25-27; hashCode 30-32; equals 35-44; toString 47-49; the rest: getters and setters *)
Definition szse_Extend101501 : class_def := {|
  c_name := "szse.Extend101501";
  c_fields :=
      [ ("shareProperty", TStr) ];
  c_enc :=
      [ EFix "shareProperty" 2 32 false ];
  c_dec :=
      [ DFix "shareProperty" 2 32 false ];
  c_eq :=
      [ "shareProperty" ];
  c_hash := 
      HashFields [ "shareProperty" ];
  c_tag := "Extend101501";
  c_str :=
      [ ("shareProperty", "shareProperty") ];
  c_get :=
      [ ("getShareProperty", "shareProperty") ];
  c_set :=
      [ ("setShareProperty", "shareProperty") ] |}.

(* szse-bin/src/main/java/com/finproto/szse/bin/messages/Extend101601.java:8-50  class Extend101601; fields 9-9; encode 20-22; decode 25-27; hashCode 30-32; equals 35-44; toString 47-49; the rest: getters and setters *)
Definition szse_Extend101601 : class_def := {|
  c_name := "szse.Extend101601";
  c_fields :=
      [ ("contractAccountCode", TStr) ];
  c_enc :=
      [ EFix "contractAccountCode" 6 32 false ];
  c_dec :=
      [ DFix "contractAccountCode" 6 32 false ];
  c_eq :=
      [ "contractAccountCode" ];
  c_hash := 
      HashFields [ "contractAccountCode" ];
  c_tag := "Extend101601";
  c_str :=
      [ ("contractAccountCode", "contractAccountCode") ];
  c_get :=
      [ ("getContractAccountCode", "contractAccountCode") ];
  c_set :=
      [ ("setContractAccountCode", "contractAccountCode") ] |}.

(* szse-bin/src/main/java/com/finproto/szse/bin/messages/Extend101701.java:8-50  class Extend101701; fields 9-9; encode 20-22; decode 25-27; hashCode 30-32; equals 35-44; toString 47-49; the rest: getters and setters *)
Definition szse_Extend101701 : class_def := {|
  c_name := "szse.Extend101701";
  c_fields :=
      [ ("cashOrderQty", TLong) ];
  c_enc :=
      [ EWrite 8 BE "cashOrderQty" ];
  c_dec :=
      [ DRead 8 BE "cashOrderQty" ];
  c_eq :=
      [ "cashOrderQty" ];
  c_hash := 
      HashFields [ "cashOrderQty" ];
  c_tag := "Extend101701";
  c_str :=
      [ ("cashOrderQty", "cashOrderQty") ];
  c_get :=
      [ ("getCashOrderQty", "cashOrderQty") ];
  c_set :=
      [ ("setCashOrderQty", "cashOrderQty") ] |}.

(* szse-bin/src/main/java/com/finproto/szse/bin/messages/Extend101801.java:8-50  class Extend101801; fields 9-9; encode 20-22; decode 25-27; hashCode 30-32; equals 35-44; toString 47-49; the rest: getters and setters *)
Definition szse_Extend101801 : class_def := {|
  c_name := "szse.Extend101801";
  c_fields :=
      [ ("tenderer", TStr) ];
  c_enc :=
      [ EFix "tenderer" 6 32 false ];
  c_dec :=
      [ DFix "tenderer" 6 32 false ];
  c_eq :=
      [ "tenderer" ];
  c_hash := 
      HashFields [ "tenderer" ];
  c_tag := "Extend101801";
  c_str :=
      [ ("tenderer", "tenderer") ];
  c_get :=
      [ ("getTenderer", "tenderer") ];
  c_set :=
      [ ("setTenderer", "tenderer") ] |}.

(* szse-bin/src/main/java/com/finproto/szse/bin/messages/Extend102701.java:8-67  class Extend102701; fields 9-10; encode 29-32; decode 35-38; hashCode 41-43; equals 46-56; toString 59-66; the rest: getters and setters *)
Definition szse_Extend102701 : class_def := {|
  c_name := "szse.Extend102701";
  c_fields :=
      [ ("disposalPbu", TStr);
        ("disposalAccountId", TStr) ];
  c_enc :=
      [ EFix "disposalPbu" 6 32 false;
        EFix "disposalAccountId" 12 32 false ];
  c_dec :=
      [ DFix "disposalPbu" 6 32 false;
        DFix "disposalAccountId" 12 32 false ];
  c_eq :=
      [ "disposalPbu";
        "disposalAccountId" ];
  c_hash := 
      HashFields [ "disposalPbu";
        "disposalAccountId" ];
  c_tag := "Extend102701";
  c_str :=
      [ ("disposalPbu", "disposalPbu");
        ("disposalAccountId", "disposalAccountId") ];
  c_get :=
      [ ("getDisposalPbu", "disposalPbu");
        ("getDisposalAccountId", "disposalAccountId") ];
  c_set :=
      [ ("setDisposalPbu", "disposalPbu");
        ("setDisposalAccountId", "disposalAccountId") ] |}.

(* szse-bin/src/main/java/com/finproto/szse/bin/messages/Extend102801.java:8-67  class Extend102801; fields 9-10; encode 29-32; decode 35-38; hashCode 41-43; equals 46-56; toString 59-66; the rest: getters and setters *)
Definition szse_Extend102801 : class_def := {|
  c_name := "szse.Extend102801";
  c_fields :=
      [ ("lenderPbu", TStr);
        ("lenderAccountId", TStr) ];
  c_enc :=
      [ EFix "lenderPbu" 6 32 false;
        EFix "lenderAccountId" 12 32 false ];
  c_dec :=
      [ DFix "lenderPbu" 6 32 false;
        DFix "lenderAccountId" 12 32 false ];
  c_eq :=
      [ "lenderPbu";
        "lenderAccountId" ];
  c_hash := 
      HashFields [ "lenderPbu";
        "lenderAccountId" ];
  c_tag := "Extend102801";
  c_str :=
      [ ("lenderPbu", "lenderPbu");
        ("lenderAccountId", "lenderAccountId") ];
  c_get :=
      [ ("getLenderPbu", "lenderPbu");
        ("getLenderAccountId", "lenderAccountId") ];
  c_set :=
      [ ("setLenderPbu", "lenderPbu");
        ("setLenderAccountId", "lenderAccountId") ] |}.

(* szse-bin/src/main/java/com/finproto/szse/bin/messages/Extend102901.java:8-67  class Extend102901; fields 9-10; encode 29-32; decode 35-38; hashCode 41-43; equals 46-56; toString 59-66; the rest: getters and setters *)
Definition szse_Extend102901 : class_def := {|
  c_name := "szse.Extend102901";
  c_fields :=
      [ ("deductionPbu", TStr);
        ("deductionAccountId", TStr) ];
  c_enc :=
      [ EFix "deductionPbu" 6 32 false;
        EFix "deductionAccountId" 12 32 false ];
  c_dec :=
      [ DFix "deductionPbu" 6 32 false;
        DFix "deductionAccountId" 12 32 false ];
  c_eq :=
      [ "deductionPbu";
        "deductionAccountId" ];
  c_hash := 
      HashFields [ "deductionPbu";
        "deductionAccountId" ];
  c_tag := "Extend102901";
  c_str :=
      [ ("deductionPbu", "deductionPbu");
        ("deductionAccountId", "deductionAccountId") ];
  c_get :=
      [ ("getDeductionPbu", "deductionPbu");
        ("getDeductionAccountId", "deductionAccountId") ];
  c_set :=
      [ ("setDeductionPbu", "deductionPbu");
        ("setDeductionAccountId", "deductionAccountId") ] |}.

(* szse-bin/src/main/java/com/finproto/szse/bin/messages/Extend103501.java:8-50  class Extend103501; fields 9-9; encode 20-22; decode 25-27; hashCode 30-32; equals 35-44; toString 47-49; the rest: getters and setters *)
Definition szse_Extend103501 : class_def := {|
  c_name := "szse.Extend103501";
  c_fields :=
      [ ("contractAccountCode", TStr) ];
  c_enc :=
      [ EFix "contractAccountCode" 6 32 false ];
  c_dec :=
      [ DFix "contractAccountCode" 6 32 false ];
  c_eq :=
      [ "contractAccountCode" ];
  c_hash := 
      HashFields [ "contractAccountCode" ];
  c_tag := "Extend103501";
  c_str :=
      [ ("contractAccountCode", "contractAccountCode") ];
  c_get :=
      [ ("getContractAccountCode", "contractAccountCode") ];
  c_set :=
      [ ("setContractAccountCode", "contractAccountCode") ] |}.

(* szse-bin/src/main/java/com/finproto/szse/bin/messages/Extend103701.java:8-50  class Extend103701; fields 9-9; encode 20-22; decode 25-27; hashCode 30-32; equals 35-44; toString 47-49; the rest: getters and setters *)
Definition szse_Extend103701 : class_def := {|
  c_name := "szse.Extend103701";
  c_fields :=
      [ ("cashMargin", TStr) ];
  c_enc :=
      [ EFix "cashMargin" 1 32 false ];
  c_dec :=
      [ DFix "cashMargin" 1 32 false ];
  c_eq :=
      [ "cashMargin" ];
  c_hash := 
      HashFields [ "cashMargin" ];
  c_tag := "Extend103701";
  c_str :=
      [ ("cashMargin", "cashMargin") ];
  c_get :=
      [ ("getCashMargin", "cashMargin") ];
  c_set :=
      [ ("setCashMargin", "cashMargin") ] |}.

(* szse-bin/src/main/java/com/finproto/szse/bin/messages/Extend104101.java:8-109  class Extend104101; fields 9-13; encode 56-62; decode 65-71; hashCode 74-76; equals 79-92; toString 95-108; the rest: getters and setters *)
Definition szse_Extend104101 : class_def := {|
  c_name := "szse.Extend104101";
  c_fields :=
      [ ("stopPx", TLong);
        ("minQty", TLong);
        ("maxPriceLevels", TShort);
        ("timeInForce", TStr);
        ("cashMargin", TStr) ];
  c_enc :=
      [ EWrite 8 BE "stopPx";
        EWrite 8 BE "minQty";
        EWrite 2 BE "maxPriceLevels";
        EFix "timeInForce" 1 32 false;
        EFix "cashMargin" 1 32 false ];
  c_dec :=
      [ DRead 8 BE "stopPx";
        DRead 8 BE "minQty";
        DRead 2 BE "maxPriceLevels";
        DFix "timeInForce" 1 32 false;
        DFix "cashMargin" 1 32 false ];
  c_eq :=
      [ "stopPx";
        "minQty";
        "maxPriceLevels";
        "timeInForce";
        "cashMargin" ];
  c_hash := 
      HashFields [ "stopPx";
        "minQty";
        "maxPriceLevels";
        "timeInForce";
        "cashMargin" ];
  c_tag := "Extend104101";
  c_str :=
      [ ("stopPx", "stopPx");
        ("minQty", "minQty");
        ("maxPriceLevels", "maxPriceLevels");
        ("timeInForce", "timeInForce");
        ("cashMargin", "cashMargin") ];
  c_get :=
      [ ("getStopPx", "stopPx");
        ("getMinQty", "minQty");
        ("getMaxPriceLevels", "maxPriceLevels");
        ("getTimeInForce", "timeInForce");
        ("getCashMargin", "cashMargin") ];
  c_set :=
      [ ("setStopPx", "stopPx");
        ("setMinQty", "minQty");
        ("setMaxPriceLevels", "maxPriceLevels");
        ("setTimeInForce", "timeInForce");
        ("setCashMargin", "cashMargin") ] |}.

(* szse-bin/src/main/java/com/finproto/szse/bin/messages/Extend104128.java:8-294  class Extend104128; fields 9-25; encode 164-182; decode 185-203; hashCode 206-225; equals 228-253; toString 256-293; the rest: getters and setters *)
Definition szse_Extend104128 : class_def := {|
  c_name := "szse.Extend104128";
  c_fields :=
      [ ("memberId", TStr);
        ("investorType", TStr);
        ("investorId", TStr);
        ("investorName", TStr);
        ("traderCode", TStr);
        ("secondaryOrderId", TStr);
        ("bidTransType", TShort);
        ("bidExecInstType", TShort);
        ("lowLimitPrice", TLong);
        ("highLimitPrice", TLong);
        ("minQty", TLong);
        ("tradeDate", TInt);
        ("settlType", TShort);
        ("settlPeriod", TByte);
        ("preTradeAnonymity", TByte);
        ("cashMargin", TStr);
        ("memo", TStr) ];
  c_enc :=
      [ EFix "memberId" 6 32 false;
        EFix "investorType" 2 32 false;
        EFix "investorId" 10 32 false;
        EFix "investorName" 120 32 false;
        EFix "traderCode" 8 32 false;
        EFix "secondaryOrderId" 16 32 false;
        EWrite 2 BE "bidTransType";
        EWrite 2 BE "bidExecInstType";
        EWrite 8 BE "lowLimitPrice";
        EWrite 8 BE "highLimitPrice";
        EWrite 8 BE "minQty";
        EWrite 4 BE "tradeDate";
        EWrite 2 BE "settlType";
        EWrite 1 BE "settlPeriod";
        EWrite 1 BE "preTradeAnonymity";
        EFix "cashMargin" 1 32 false;
        EFix "memo" 160 32 false ];
  c_dec :=
      [ DFix "memberId" 6 32 false;
        DFix "investorType" 2 32 false;
        DFix "investorId" 10 32 false;
        DFix "investorName" 120 32 false;
        DFix "traderCode" 8 32 false;
        DFix "secondaryOrderId" 16 32 false;
        DRead 2 BE "bidTransType";
        DRead 2 BE "bidExecInstType";
        DRead 8 BE "lowLimitPrice";
        DRead 8 BE "highLimitPrice";
        DRead 8 BE "minQty";
        DRead 4 BE "tradeDate";
        DRead 2 BE "settlType";
        DRead 1 BE "settlPeriod";
        DRead 1 BE "preTradeAnonymity";
        DFix "cashMargin" 1 32 false;
        DFix "memo" 160 32 false ];
  c_eq :=
      [ "memberId";
        "investorType";
        "investorId";
        "investorName";
        "traderCode";
        "secondaryOrderId";
        "bidTransType";
        "bidExecInstType";
        "lowLimitPrice";
        "highLimitPrice";
        "minQty";
        "tradeDate";
        "settlType";
        "settlPeriod";
        "preTradeAnonymity";
        "cashMargin";
        "memo" ];
  c_hash := 
      HashFields [ "memberId";
        "investorType";
        "investorId";
        "investorName";
        "traderCode";
        "secondaryOrderId";
        "bidTransType";
        "bidExecInstType";
        "lowLimitPrice";
        "highLimitPrice";
        "minQty";
        "tradeDate";
        "settlType";
        "settlPeriod";
        "preTradeAnonymity";
        "cashMargin";
        "memo" ];
  c_tag := "Extend104128";
  c_str :=
      [ ("memberId", "memberId");
        ("investorType", "investorType");
        ("investorId", "investorId");
        ("investorName", "investorName");
        ("traderCode", "traderCode");
        ("secondaryOrderId", "secondaryOrderId");
        ("bidTransType", "bidTransType");
        ("bidExecInstType", "bidExecInstType");
        ("lowLimitPrice", "lowLimitPrice");
        ("highLimitPrice", "highLimitPrice");
        ("minQty", "minQty");
        ("tradeDate", "tradeDate");
        ("settlType", "settlType");
        ("settlPeriod", "settlPeriod");
        ("preTradeAnonymity", "preTradeAnonymity");
        ("cashMargin", "cashMargin");
        ("memo", "memo") ];
  c_get :=
      [ ("getMemberId", "memberId");
        ("getInvestorType", "investorType");
        ("getInvestorId", "investorId");
        ("getInvestorName", "investorName");
        ("getTraderCode", "traderCode");
        ("getSecondaryOrderId", "secondaryOrderId");
        ("getBidTransType", "bidTransType");
        ("getBidExecInstType", "bidExecInstType");
        ("getLowLimitPrice", "lowLimitPrice");
        ("getHighLimitPrice", "highLimitPrice");
        ("getMinQty", "minQty");
        ("getTradeDate", "tradeDate");
        ("getSettlType", "settlType");
        ("getSettlPeriod", "settlPeriod");
        ("getPreTradeAnonymity", "preTradeAnonymity");
        ("getCashMargin", "cashMargin");
        ("getMemo", "memo") ];
  c_set :=
      [ ("setMemberId", "memberId");
        ("setInvestorType", "investorType");
        ("setInvestorId", "investorId");
        ("setInvestorName", "investorName");
        ("setTraderCode", "traderCode");
        ("setSecondaryOrderId", "secondaryOrderId");
        ("setBidTransType", "bidTransType");
        ("setBidExecInstType", "bidExecInstType");
        ("setLowLimitPrice", "lowLimitPrice");
        ("setHighLimitPrice", "highLimitPrice");
        ("setMinQty", "minQty");
        ("setTradeDate", "tradeDate");
        ("setSettlType", "settlType");
        ("setSettlPeriod", "settlPeriod");
        ("setPreTradeAnonymity", "preTradeAnonymity");
        ("setCashMargin", "cashMargin");
        ("setMemo", "memo") ] |}.

(* szse-bin/src/main/java/com/finproto/szse/bin/messages/Extend104701.java:8-50  class Extend104701; fields 9-9; encode 20-22; decode 25-27; hashCode 30-32; equals 35-44; toString 47-49; the rest: getters and setters *)
Definition szse_Extend104701 : class_def := {|
  c_name := "szse.Extend104701";
  c_fields :=
      [ ("secondaryOrderId", TStr) ];
  c_enc :=
      [ EFix "secondaryOrderId" 16 32 false ];
  c_dec :=
      [ DFix "secondaryOrderId" 16 32 false ];
  c_eq :=
      [ "secondaryOrderId" ];
  c_hash := 
      HashFields [ "secondaryOrderId" ];
  c_tag := "Extend104701";
  c_str :=
      [ ("secondaryOrderId", "secondaryOrderId") ];
  c_get :=
      [ ("getSecondaryOrderId", "secondaryOrderId") ];
  c_set :=
      [ ("setSecondaryOrderId", "secondaryOrderId") ] |}.

(* szse-bin/src/main/java/com/finproto/szse/bin/messages/Extend106301.java:8-109  class Extend106301; fields 9-13; encode 56-62; decode 65-71; hashCode 74-76; equals 79-92; toString 95-108; the rest: getters and setters *)
Definition szse_Extend106301 : class_def := {|
  c_name := "szse.Extend106301";
  c_fields :=
      [ ("stopPx", TLong);
        ("minQty", TLong);
        ("maxPriceLevels", TShort);
        ("timeInForce", TStr);
        ("lotType", TStr) ];
  c_enc :=
      [ EWrite 8 BE "stopPx";
        EWrite 8 BE "minQty";
        EWrite 2 BE "maxPriceLevels";
        EFix "timeInForce" 1 32 false;
        EFix "lotType" 1 32 false ];
  c_dec :=
      [ DRead 8 BE "stopPx";
        DRead 8 BE "minQty";
        DRead 2 BE "maxPriceLevels";
        DFix "timeInForce" 1 32 false;
        DFix "lotType" 1 32 false ];
  c_eq :=
      [ "stopPx";
        "minQty";
        "maxPriceLevels";
        "timeInForce";
        "lotType" ];
  c_hash := 
      HashFields [ "stopPx";
        "minQty";
        "maxPriceLevels";
        "timeInForce";
        "lotType" ];
  c_tag := "Extend106301";
  c_str :=
      [ ("stopPx", "stopPx");
        ("minQty", "minQty");
        ("maxPriceLevels", "maxPriceLevels");
        ("timeInForce", "timeInForce");
        ("lotType", "lotType") ];
  c_get :=
      [ ("getStopPx", "stopPx");
        ("getMinQty", "minQty");
        ("getMaxPriceLevels", "maxPriceLevels");
        ("getTimeInForce", "timeInForce");
        ("getLotType", "lotType") ];
  c_set :=
      [ ("setStopPx", "stopPx");
        ("setMinQty", "minQty");
        ("setMaxPriceLevels", "maxPriceLevels");
        ("setTimeInForce", "timeInForce");
        ("setLotType", "lotType") ] |}.

(* szse-bin/src/main/java/com/finproto/szse/bin/messages/Extend200102.java:8-109  class Extend200102; fields 9-13; encode 56-62; decode 65-71; hashCode 74-76; equals 79-92; toString 95-108; the rest: getters and setters *)
Definition szse_Extend200102 : class_def := {|
  c_name := "szse.Extend200102";
  c_fields :=
      [ ("stopPx", TLong);
        ("minQty", TLong);
        ("maxPriceLevels", TShort);
        ("timeInForce", TStr);
        ("cashMargin", TStr) ];
  c_enc :=
      [ EWrite 8 BE "stopPx";
        EWrite 8 BE "minQty";
        EWrite 2 BE "maxPriceLevels";
        EFix "timeInForce" 1 32 false;
        EFix "cashMargin" 1 32 false ];
  c_dec :=
      [ DRead 8 BE "stopPx";
        DRead 8 BE "minQty";
        DRead 2 BE "maxPriceLevels";
        DFix "timeInForce" 1 32 false;
        DFix "cashMargin" 1 32 false ];
  c_eq :=
      [ "stopPx";
        "minQty";
        "maxPriceLevels";
        "timeInForce";
        "cashMargin" ];
  c_hash := 
      HashFields [ "stopPx";
        "minQty";
        "maxPriceLevels";
        "timeInForce";
        "cashMargin" ];
  c_tag := "Extend200102";
  c_str :=
      [ ("stopPx", "stopPx");
        ("minQty", "minQty");
        ("maxPriceLevels", "maxPriceLevels");
        ("timeInForce", "timeInForce");
        ("cashMargin", "cashMargin") ];
  c_get :=
      [ ("getStopPx", "stopPx");
        ("getMinQty", "minQty");
        ("getMaxPriceLevels", "maxPriceLevels");
        ("getTimeInForce", "timeInForce");
        ("getCashMargin", "cashMargin") ];
  c_set :=
      [ ("setStopPx", "stopPx");
        ("setMinQty", "minQty");
        ("setMaxPriceLevels", "maxPriceLevels");
        ("setTimeInForce", "timeInForce");
        ("setCashMargin", "cashMargin") ] |}.

(* szse-bin/src/main/java/com/finproto/szse/bin/messages/Extend200115.java:8-50  class Extend200115; fields 9-9; encode 20-22; decode 25-27; hashCode 30-32; equals 35-44; toString 47-49; the rest: getters and setters *)
Definition szse_Extend200115 : class_def := {|
  c_name := "szse.Extend200115";
  c_fields :=
      [ ("cashMargin", TStr) ];
  c_enc :=
      [ EFix "cashMargin" 1 32 false ];
  c_dec :=
      [ DFix "cashMargin" 1 32 false ];
  c_eq :=
      [ "cashMargin" ];
  c_hash := 
      HashFields [ "cashMargin" ];
  c_tag := "Extend200115";
  c_str :=
      [ ("cashMargin", "cashMargin") ];
  c_get :=
      [ ("getCashMargin", "cashMargin") ];
  c_set :=
      [ ("setCashMargin", "cashMargin") ] |}.

(* szse-bin/src/main/java/com/finproto/szse/bin/messages/Extend200202.java:8-95  class Extend200202; fields 9-12; encode 47-52; decode 55-60; hashCode 63-65; equals 68-80; toString 83-94; the rest: getters and setters *)
Definition szse_Extend200202 : class_def := {|
  c_name := "szse.Extend200202";
  c_fields :=
      [ ("stopPx", TLong);
        ("minQty", TLong);
        ("maxPriceLevels", TShort);
        ("timeInForce", TStr) ];
  c_enc :=
      [ EWrite 8 BE "stopPx";
        EWrite 8 BE "minQty";
        EWrite 2 BE "maxPriceLevels";
        EFix "timeInForce" 1 32 false ];
  c_dec :=
      [ DRead 8 BE "stopPx";
        DRead 8 BE "minQty";
        DRead 2 BE "maxPriceLevels";
        DFix "timeInForce" 1 32 false ];
  c_eq :=
      [ "stopPx";
        "minQty";
        "maxPriceLevels";
        "timeInForce" ];
  c_hash := 
      HashFields [ "stopPx";
        "minQty";
        "maxPriceLevels";
        "timeInForce" ];
  c_tag := "Extend200202";
  c_str :=
      [ ("stopPx", "stopPx");
        ("minQty", "minQty");
        ("maxPriceLevels", "maxPriceLevels");
        ("timeInForce", "timeInForce") ];
  c_get :=
      [ ("getStopPx", "stopPx");
        ("getMinQty", "minQty");
        ("getMaxPriceLevels", "maxPriceLevels");
        ("getTimeInForce", "timeInForce") ];
  c_set :=
      [ ("setStopPx", "stopPx");
        ("setMinQty", "minQty");
        ("setMaxPriceLevels", "maxPriceLevels");
        ("setTimeInForce", "timeInForce") ] |}.

(* szse-bin/src/main/java/com/finproto/szse/bin/messages/Extend200215.java:8-50  class Extend200215; fields 9-9; encode 20-22; decode 25-27; hashCode 30-32; equals 35-44; toString 47-49; the rest: getters and setters *)
Definition szse_Extend200215 : class_def := {|
  c_name := "szse.Extend200215";
  c_fields :=
      [ ("maturityDate", TInt) ];
  c_enc :=
      [ EWrite 4 BE "maturityDate" ];
  c_dec :=
      [ DRead 4 BE "maturityDate" ];
  c_eq :=
      [ "maturityDate" ];
  c_hash := 
      HashFields [ "maturityDate" ];
  c_tag := "Extend200215";
  c_str :=
      [ ("maturityDate", "maturityDate") ];
  c_get :=
      [ ("getMaturityDate", "maturityDate") ];
  c_set :=
      [ ("setMaturityDate", "maturityDate") ] |}.

(* szse-bin/src/main/java/com/finproto/szse/bin/messages/Extend200302.java:8-95  class Extend200302; fields 9-12; encode 47-52; decode 55-60; hashCode 63-65; equals 68-80; toString 83-94; the rest: getters and setters *)
Definition szse_Extend200302 : class_def := {|
  c_name := "szse.Extend200302";
  c_fields :=
      [ ("stopPx", TLong);
        ("minQty", TLong);
        ("maxPriceLevels", TShort);
        ("timeInForce", TStr) ];
  c_enc :=
      [ EWrite 8 BE "stopPx";
        EWrite 8 BE "minQty";
        EWrite 2 BE "maxPriceLevels";
        EFix "timeInForce" 1 32 false ];
  c_dec :=
      [ DRead 8 BE "stopPx";
        DRead 8 BE "minQty";
        DRead 2 BE "maxPriceLevels";
        DFix "timeInForce" 1 32 false ];
  c_eq :=
      [ "stopPx";
        "minQty";
        "maxPriceLevels";
        "timeInForce" ];
  c_hash := 
      HashFields [ "stopPx";
        "minQty";
        "maxPriceLevels";
        "timeInForce" ];
  c_tag := "Extend200302";
  c_str :=
      [ ("stopPx", "stopPx");
        ("minQty", "minQty");
        ("maxPriceLevels", "maxPriceLevels");
        ("timeInForce", "timeInForce") ];
  c_get :=
      [ ("getStopPx", "stopPx");
        ("getMinQty", "minQty");
        ("getMaxPriceLevels", "maxPriceLevels");
        ("getTimeInForce", "timeInForce") ];
  c_set :=
      [ ("setStopPx", "stopPx");
        ("setMinQty", "minQty");
        ("setMaxPriceLevels", "maxPriceLevels");
        ("setTimeInForce", "timeInForce") ] |}.

(* szse-bin/src/main/java/com/finproto/szse/bin/messages/Extend200315.java:8-50  class Extend200315; fields 9-9; encode 20-22; decode 25-27; hashCode 30-32; equals 35-44; toString 47-49; the rest: getters and setters *)
Definition szse_Extend200315 : class_def := {|
  c_name := "szse.Extend200315";
  c_fields :=
      [ ("maturityDate", TInt) ];
  c_enc :=
      [ EWrite 4 BE "maturityDate" ];
  c_dec :=
      [ DRead 4 BE "maturityDate" ];
  c_eq :=
      [ "maturityDate" ];
  c_hash := 
      HashFields [ "maturityDate" ];
  c_tag := "Extend200315";
  c_str :=
      [ ("maturityDate", "maturityDate") ];
  c_get :=
      [ ("getMaturityDate", "maturityDate") ];
  c_set :=
      [ ("setMaturityDate", "maturityDate") ] |}.

(* szse-bin/src/main/java/com/finproto/szse/bin/messages/Extend200402.java:8-159  class Extend200402; fields 9-16; encode 83-92; decode 95-104; hashCode 107-117; equals 120-136; toString 139-158; the rest: getters and setters *)
Definition szse_Extend200402 : class_def := {|
  c_name := "szse.Extend200402";
  c_fields :=
      [ ("stopPx", TLong);
        ("minQty", TLong);
        ("maxPriceLevels", TShort);
        ("timeInForce", TStr);
        ("positionEffect", TStr);
        ("coveredOrUncovered", TByte);
        ("contractAccountCode", TStr);
        ("secondaryOrderId", TStr) ];
  c_enc :=
      [ EWrite 8 BE "stopPx";
        EWrite 8 BE "minQty";
        EWrite 2 BE "maxPriceLevels";
        EFix "timeInForce" 1 32 false;
        EFix "positionEffect" 1 32 false;
        EWrite 1 BE "coveredOrUncovered";
        EFix "contractAccountCode" 6 32 false;
        EFix "secondaryOrderId" 16 32 false ];
  c_dec :=
      [ DRead 8 BE "stopPx";
        DRead 8 BE "minQty";
        DRead 2 BE "maxPriceLevels";
        DFix "timeInForce" 1 32 false;
        DFix "positionEffect" 1 32 false;
        DRead 1 BE "coveredOrUncovered";
        DFix "contractAccountCode" 6 32 false;
        DFix "secondaryOrderId" 16 32 false ];
  c_eq :=
      [ "stopPx";
        "minQty";
        "maxPriceLevels";
        "timeInForce";
        "positionEffect";
        "coveredOrUncovered";
        "contractAccountCode";
        "secondaryOrderId" ];
  c_hash := 
      HashFields [ "stopPx";
        "minQty";
        "maxPriceLevels";
        "timeInForce";
        "positionEffect";
        "coveredOrUncovered";
        "contractAccountCode";
        "secondaryOrderId" ];
  c_tag := "Extend200402";
  c_str :=
      [ ("stopPx", "stopPx");
        ("minQty", "minQty");
        ("maxPriceLevels", "maxPriceLevels");
        ("timeInForce", "timeInForce");
        ("positionEffect", "positionEffect");
        ("coveredOrUncovered", "coveredOrUncovered");
        ("contractAccountCode", "contractAccountCode");
        ("secondaryOrderId", "secondaryOrderId") ];
  c_get :=
      [ ("getStopPx", "stopPx");
        ("getMinQty", "minQty");
        ("getMaxPriceLevels", "maxPriceLevels");
        ("getTimeInForce", "timeInForce");
        ("getPositionEffect", "positionEffect");
        ("getCoveredOrUncovered", "coveredOrUncovered");
        ("getContractAccountCode", "contractAccountCode");
        ("getSecondaryOrderId", "secondaryOrderId") ];
  c_set :=
      [ ("setStopPx", "stopPx");
        ("setMinQty", "minQty");
        ("setMaxPriceLevels", "maxPriceLevels");
        ("setTimeInForce", "timeInForce");
        ("setPositionEffect", "positionEffect");
        ("setCoveredOrUncovered", "coveredOrUncovered");
        ("setContractAccountCode", "contractAccountCode");
        ("setSecondaryOrderId", "secondaryOrderId") ] |}.

(* szse-bin/src/main/java/com/finproto/szse/bin/messages/Extend200415.java:8-95  class Extend200415; fields 9-12; encode 47-52; decode 55-60; hashCode 63-65; equals 68-80; toString 83-94; the rest: getters and setters *)
Definition szse_Extend200415 : class_def := {|
  c_name := "szse.Extend200415";
  c_fields :=
      [ ("positionEffect", TStr);
        ("coveredOrUncovered", TByte);
        ("contractAccountCode", TStr);
        ("secondaryOrderId", TStr) ];
  c_enc :=
      [ EFix "positionEffect" 1 32 false;
        EWrite 1 BE "coveredOrUncovered";
        EFix "contractAccountCode" 6 32 false;
        EFix "secondaryOrderId" 16 32 false ];
  c_dec :=
      [ DFix "positionEffect" 1 32 false;
        DRead 1 BE "coveredOrUncovered";
        DFix "contractAccountCode" 6 32 false;
        DFix "secondaryOrderId" 16 32 false ];
  c_eq :=
      [ "positionEffect";
        "coveredOrUncovered";
        "contractAccountCode";
        "secondaryOrderId" ];
  c_hash := 
      HashFields [ "positionEffect";
        "coveredOrUncovered";
        "contractAccountCode";
        "secondaryOrderId" ];
  c_tag := "Extend200415";
  c_str :=
      [ ("positionEffect", "positionEffect");
        ("coveredOrUncovered", "coveredOrUncovered");
        ("contractAccountCode", "contractAccountCode");
        ("secondaryOrderId", "secondaryOrderId") ];
  c_get :=
      [ ("getPositionEffect", "positionEffect");
        ("getCoveredOrUncovered", "coveredOrUncovered");
        ("getContractAccountCode", "contractAccountCode");
        ("getSecondaryOrderId", "secondaryOrderId") ];
  c_set :=
      [ ("setPositionEffect", "positionEffect");
        ("setCoveredOrUncovered", "coveredOrUncovered");
        ("setContractAccountCode", "contractAccountCode");
        ("setSecondaryOrderId", "secondaryOrderId") ] |}.

(* szse-bin/src/main/java/com/finproto/szse/bin/messages/Extend200502.java:8-67  class Extend200502; fields 9-10; encode 29-32; decode 35-38; hashCode 41-43; equals 46-56; toString 59-66; the rest: getters and setters *)
Definition szse_Extend200502 : class_def := {|
  c_name := "szse.Extend200502";
  c_fields :=
      [ ("confirmId", TStr);
        ("cashMargin", TStr) ];
  c_enc :=
      [ EFix "confirmId" 8 32 false;
        EFix "cashMargin" 1 32 false ];
  c_dec :=
      [ DFix "confirmId" 8 32 false;
        DFix "cashMargin" 1 32 false ];
  c_eq :=
      [ "confirmId";
        "cashMargin" ];
  c_hash := 
      HashFields [ "confirmId";
        "cashMargin" ];
  c_tag := "Extend200502";
  c_str :=
      [ ("confirmId", "confirmId");
        ("cashMargin", "cashMargin") ];
  c_get :=
      [ ("getConfirmId", "confirmId");
        ("getCashMargin", "cashMargin") ];
  c_set :=
      [ ("setConfirmId", "confirmId");
        ("setCashMargin", "cashMargin") ] |}.

(* szse-bin/src/main/java/com/finproto/szse/bin/messages/Extend200515.java:8-67  class Extend200515; fields 9-10; encode 29-32; decode 35-38; hashCode 41-43; equals 46-56; toString 59-66; the rest: getters and setters *)
Definition szse_Extend200515 : class_def := {|
  c_name := "szse.Extend200515";
  c_fields :=
      [ ("confirmId", TStr);
        ("cashMargin", TStr) ];
  c_enc :=
      [ EFix "confirmId" 8 32 false;
        EFix "cashMargin" 1 32 false ];
  c_dec :=
      [ DFix "confirmId" 8 32 false;
        DFix "cashMargin" 1 32 false ];
  c_eq :=
      [ "confirmId";
        "cashMargin" ];
  c_hash := 
      HashFields [ "confirmId";
        "cashMargin" ];
  c_tag := "Extend200515";
  c_str :=
      [ ("confirmId", "confirmId");
        ("cashMargin", "cashMargin") ];
  c_get :=
      [ ("getConfirmId", "confirmId");
        ("getCashMargin", "cashMargin") ];
  c_set :=
      [ ("setConfirmId", "confirmId");
        ("setCashMargin", "cashMargin") ] |}.

(* szse-bin/src/main/java/com/finproto/szse/bin/messages/Extend200602.java:8-50  class Extend200602; fields 9-9; encode 20-22; decode 25-27; hashCode 30-32; equals 35-44; toString 47-49; the rest: getters and setters *)
Definition szse_Extend200602 : class_def := {|
  c_name := "szse.Extend200602";
  c_fields :=
      [ ("cashMargin", TStr) ];
  c_enc :=
      [ EFix "cashMargin" 1 32 false ];
  c_dec :=
      [ DFix "cashMargin" 1 32 false ];
  c_eq :=
      [ "cashMargin" ];
  c_hash := 
      HashFields [ "cashMargin" ];
  c_tag := "Extend200602";
  c_str :=
      [ ("cashMargin", "cashMargin") ];
  c_get :=
      [ ("getCashMargin", "cashMargin") ];
  c_set :=
      [ ("setCashMargin", "cashMargin") ] |}.

(* szse-bin/src/main/java/com/finproto/szse/bin/messages/Extend200615.java:8-50  class Extend200615; fields 9-9; encode 20-22; decode 25-27; hashCode 30-32; equals 35-44; toString 47-49; the rest: getters and setters *)
Definition szse_Extend200615 : class_def := {|
  c_name := "szse.Extend200615";
  c_fields :=
      [ ("cashMargin", TStr) ];
  c_enc :=
      [ EFix "cashMargin" 1 32 false ];
  c_dec :=
      [ DFix "cashMargin" 1 32 false ];
  c_eq :=
      [ "cashMargin" ];
  c_hash := 
      HashFields [ "cashMargin" ];
  c_tag := "Extend200615";
  c_str :=
      [ ("cashMargin", "cashMargin") ];
  c_get :=
      [ ("getCashMargin", "cashMargin") ];
  c_set :=
      [ ("setCashMargin", "cashMargin") ] |}.

(* szse-bin/src/main/java/com/finproto/szse/bin/messages/Extend200702.java:8-81  class Extend200702; fields 9-11; encode 38-42; decode 45-49; hashCode 52-54; equals 57-68; toString 71-80; the rest: getters and setters *)
Definition szse_Extend200702 : class_def := {|
  c_name := "szse.Extend200702";
  c_fields :=
      [ ("expirationDays", TShort);
        ("expirationType", TByte);
        ("shareProperty", TStr) ];
  c_enc :=
      [ EWrite 2 BE "expirationDays";
        EWrite 1 BE "expirationType";
        EFix "shareProperty" 2 32 false ];
  c_dec :=
      [ DRead 2 BE "expirationDays";
        DRead 1 BE "expirationType";
        DFix "shareProperty" 2 32 false ];
  c_eq :=
      [ "expirationDays";
        "expirationType";
        "shareProperty" ];
  c_hash := 
      HashFields [ "expirationDays";
        "expirationType";
        "shareProperty" ];
  c_tag := "Extend200702";
  c_str :=
      [ ("expirationDays", "expirationDays");
        ("expirationType", "expirationType");
        ("shareProperty", "shareProperty") ];
  c_get :=
      [ ("getExpirationDays", "expirationDays");
        ("getExpirationType", "expirationType");
        ("getShareProperty", "shareProperty") ];
  c_set :=
      [ ("setExpirationDays", "expirationDays");
        ("setExpirationType", "expirationType");
        ("setShareProperty", "shareProperty") ] |}.

(* szse-bin/src/main/java/com/finproto/szse/bin/messages/Extend200715.java:8-95  class Extend200715; fields 9-12; encode 47-52; decode 55-60; hashCode 63-65; equals 68-80; toString 83-94; the rest: getters and setters *)
Definition szse_Extend200715 : class_def := {|
  c_name := "szse.Extend200715";
  c_fields :=
      [ ("expirationDays", TShort);
        ("expirationType", TByte);
        ("maturityDate", TInt);
        ("shareProperty", TStr) ];
  c_enc :=
      [ EWrite 2 BE "expirationDays";
        EWrite 1 BE "expirationType";
        EWrite 4 BE "maturityDate";
        EFix "shareProperty" 2 32 false ];
  c_dec :=
      [ DRead 2 BE "expirationDays";
        DRead 1 BE "expirationType";
        DRead 4 BE "maturityDate";
        DFix "shareProperty" 2 32 false ];
  c_eq :=
      [ "expirationDays";
        "expirationType";
        "maturityDate";
        "shareProperty" ];
  c_hash := 
      HashFields [ "expirationDays";
        "expirationType";
        "maturityDate";
        "shareProperty" ];
  c_tag := "Extend200715";
  c_str :=
      [ ("expirationDays", "expirationDays");
        ("expirationType", "expirationType");
        ("maturityDate", "maturityDate");
        ("shareProperty", "shareProperty") ];
  c_get :=
      [ ("getExpirationDays", "expirationDays");
        ("getExpirationType", "expirationType");
        ("getMaturityDate", "maturityDate");
        ("getShareProperty", "shareProperty") ];
  c_set :=
      [ ("setExpirationDays", "expirationDays");
        ("setExpirationType", "expirationType");
        ("setMaturityDate", "maturityDate");
        ("setShareProperty", "shareProperty") ] |}.

(* szse-bin/src/main/java/com/finproto/szse/bin/messages/Extend201202.java:8-129  class Extend201202; fields 9-14; encode 65-72; decode 75-82; hashCode 85-93; equals 96-110; toString 113-128; the rest: getters and setters *)
Definition szse_Extend201202 : class_def := {|
  c_name := "szse.Extend201202";
  c_fields :=
      [ ("insufficientSecurityId", TStr);
        ("noSecurity", TInt);
        ("underlyingSecurityId", TStr);
        ("underlyingSecurityIdsource", TStr);
        ("deliveryQty", TLong);
        ("substCash", TLong) ];
  c_enc :=
      [ EFix "insufficientSecurityId" 8 32 false;
        EWrite 4 BE "noSecurity";
        EFix "underlyingSecurityId" 8 32 false;
        EFix "underlyingSecurityIdsource" 4 32 false;
        EWrite 8 BE "deliveryQty";
        EWrite 8 BE "substCash" ];
  c_dec :=
      [ DFix "insufficientSecurityId" 8 32 false;
        DRead 4 BE "noSecurity";
        DFix "underlyingSecurityId" 8 32 false;
        DFix "underlyingSecurityIdsource" 4 32 false;
        DRead 8 BE "deliveryQty";
        DRead 8 BE "substCash" ];
  c_eq :=
      [ "insufficientSecurityId";
        "noSecurity";
        "underlyingSecurityId";
        "underlyingSecurityIdsource";
        "deliveryQty";
        "substCash" ];
  c_hash := 
      HashFields [ "insufficientSecurityId";
        "noSecurity";
        "underlyingSecurityId";
        "underlyingSecurityIdsource";
        "deliveryQty";
        "substCash" ];
  c_tag := "Extend201202";
  c_str :=
      [ ("insufficientSecurityId", "insufficientSecurityId");
        ("noSecurity", "noSecurity");
        ("underlyingSecurityId", "underlyingSecurityId");
        ("underlyingSecurityIdsource", "underlyingSecurityIdsource");
        ("deliveryQty", "deliveryQty");
        ("substCash", "substCash") ];
  c_get :=
      [ ("getInsufficientSecurityId", "insufficientSecurityId");
        ("getNoSecurity", "noSecurity");
        ("getUnderlyingSecurityId", "underlyingSecurityId");
        ("getUnderlyingSecurityIdsource", "underlyingSecurityIdsource");
        ("getDeliveryQty", "deliveryQty");
        ("getSubstCash", "substCash") ];
  c_set :=
      [ ("setInsufficientSecurityId", "insufficientSecurityId");
        ("setNoSecurity", "noSecurity");
        ("setUnderlyingSecurityId", "underlyingSecurityId");
        ("setUnderlyingSecurityIdsource", "underlyingSecurityIdsource");
        ("setDeliveryQty", "deliveryQty");
        ("setSubstCash", "substCash") ] |}.

(* szse-bin/src/main/java/com/finproto/szse/bin/messages/Extend201502.java:8-50  class Extend201502; fields 9-9; encode 20-22; decode 25-27; hashCode 30-32; equals 35-44; toString 47-49; the rest: getters and setters *)
Definition szse_Extend201502 : class_def := {|
  c_name := "szse.Extend201502";
  c_fields :=
      [ ("shareProperty", TStr) ];
  c_enc :=
      [ EFix "shareProperty" 2 32 false ];
  c_dec :=
      [ DFix "shareProperty" 2 32 false ];
  c_eq :=
      [ "shareProperty" ];
  c_hash := 
      HashFields [ "shareProperty" ];
  c_tag := "Extend201502";
  c_str :=
      [ ("shareProperty", "shareProperty") ];
  c_get :=
      [ ("getShareProperty", "shareProperty") ];
  c_set :=
      [ ("setShareProperty", "shareProperty") ] |}.

(* szse-bin/src/main/java/com/finproto/szse/bin/messages/Extend201602.java:8-50  class Extend201602; fields 9-9; encode 20-22; decode 25-27; hashCode 30-32; equals 35-44; toString 47-49; the rest: getters and setters *)
Definition szse_Extend201602 : class_def := {|
  c_name := "szse.Extend201602";
  c_fields :=
      [ ("contractAccountCode", TStr) ];
  c_enc :=
      [ EFix "contractAccountCode" 6 32 false ];
  c_dec :=
      [ DFix "contractAccountCode" 6 32 false ];
  c_eq :=
      [ "contractAccountCode" ];
  c_hash := 
      HashFields [ "contractAccountCode" ];
  c_tag := "Extend201602";
  c_str :=
      [ ("contractAccountCode", "contractAccountCode") ];
  c_get :=
      [ ("getContractAccountCode", "contractAccountCode") ];
  c_set :=
      [ ("setContractAccountCode", "contractAccountCode") ] |}.

(* szse-bin/src/main/java/com/finproto/szse/bin/messages/Extend201702.java:8-50  class Extend201702; fields 9-9; encode 20-22; decode 25-27; hashCode 30-32; equals 35-44; toString 47-49; the rest: getters and setters *)
Definition szse_Extend201702 : class_def := {|
  c_name := "szse.Extend201702";
  c_fields :=
      [ ("cashOrderQty", TLong) ];
  c_enc :=
      [ EWrite 8 BE "cashOrderQty" ];
  c_dec :=
      [ DRead 8 BE "cashOrderQty" ];
  c_eq :=
      [ "cashOrderQty" ];
  c_hash := 
      HashFields [ "cashOrderQty" ];
  c_tag := "Extend201702";
  c_str :=
      [ ("cashOrderQty", "cashOrderQty") ];
  c_get :=
      [ ("getCashOrderQty", "cashOrderQty") ];
  c_set :=
      [ ("setCashOrderQty", "cashOrderQty") ] |}.

(* szse-bin/src/main/java/com/finproto/szse/bin/messages/Extend201802.java:8-50  class Extend201802; fields 9-9; encode 20-22; decode 25-27; hashCode 30-32; equals 35-44; toString 47-49; the rest: getters and setters *)
Definition szse_Extend201802 : class_def := {|
  c_name := "szse.Extend201802";
  c_fields :=
      [ ("tenderer", TStr) ];
  c_enc :=
      [ EFix "tenderer" 6 32 false ];
  c_dec :=
      [ DFix "tenderer" 6 32 false ];
  c_eq :=
      [ "tenderer" ];
  c_hash := 
      HashFields [ "tenderer" ];
  c_tag := "Extend201802";
  c_str :=
      [ ("tenderer", "tenderer") ];
  c_get :=
      [ ("getTenderer", "tenderer") ];
  c_set :=
      [ ("setTenderer", "tenderer") ] |}.

(* szse-bin/src/main/java/com/finproto/szse/bin/messages/Extend202702.java:8-67  class Extend202702; fields 9-10; encode 29-32; decode 35-38; hashCode 41-43; equals 46-56; toString 59-66; the rest: getters and setters *)
Definition szse_Extend202702 : class_def := {|
  c_name := "szse.Extend202702";
  c_fields :=
      [ ("disposalPbu", TStr);
        ("disposalAccountId", TStr) ];
  c_enc :=
      [ EFix "disposalPbu" 6 32 false;
        EFix "disposalAccountId" 12 32 false ];
  c_dec :=
      [ DFix "disposalPbu" 6 32 false;
        DFix "disposalAccountId" 12 32 false ];
  c_eq :=
      [ "disposalPbu";
        "disposalAccountId" ];
  c_hash := 
      HashFields [ "disposalPbu";
        "disposalAccountId" ];
  c_tag := "Extend202702";
  c_str :=
      [ ("disposalPbu", "disposalPbu");
        ("disposalAccountId", "disposalAccountId") ];
  c_get :=
      [ ("getDisposalPbu", "disposalPbu");
        ("getDisposalAccountId", "disposalAccountId") ];
  c_set :=
      [ ("setDisposalPbu", "disposalPbu");
        ("setDisposalAccountId", "disposalAccountId") ] |}.

(* szse-bin/src/main/java/com/finproto/szse/bin/messages/Extend202802.java:8-67  class Extend202802; fields 9-10; encode 29-32; decode 35-38; hashCode 41-43; equals 46-56; toString 59-66; the rest: getters and setters *)
Definition szse_Extend202802 : class_def := {|
  c_name := "szse.Extend202802";
  c_fields :=
      [ ("lenderPbu", TStr);
        ("lenderAccountId", TStr) ];
  c_enc :=
      [ EFix "lenderPbu" 6 32 false;
        EFix "lenderAccountId" 12 32 false ];
  c_dec :=
      [ DFix "lenderPbu" 6 32 false;
        DFix "lenderAccountId" 12 32 false ];
  c_eq :=
      [ "lenderPbu";
        "lenderAccountId" ];
  c_hash := 
      HashFields [ "lenderPbu";
        "lenderAccountId" ];
  c_tag := "Extend202802";
  c_str :=
      [ ("lenderPbu", "lenderPbu");
        ("lenderAccountId", "lenderAccountId") ];
  c_get :=
      [ ("getLenderPbu", "lenderPbu");
        ("getLenderAccountId", "lenderAccountId") ];
  c_set :=
      [ ("setLenderPbu", "lenderPbu");
        ("setLenderAccountId", "lenderAccountId") ] |}.

(* szse-bin/src/main/java/com/finproto/szse/bin/messages/Extend202902.java:8-67  class Extend202902; fields 9-10; encode 29-32; decode 35-38; hashCode 41-43; equals 46-56; toString 59-66; the rest: getters and setters *)
Definition szse_Extend202902 : class_def := {|
  c_name := "szse.Extend202902";
  c_fields :=
      [ ("deductionPbu", TStr);
        ("deductionAccountId", TStr) ];
  c_enc :=
      [ EFix "deductionPbu" 6 32 false;
        EFix "deductionAccountId" 12 32 false ];
  c_dec :=
      [ DFix "deductionPbu" 6 32 false;
        DFix "deductionAccountId" 12 32 false ];
  c_eq :=
      [ "deductionPbu";
        "deductionAccountId" ];
  c_hash := 
      HashFields [ "deductionPbu";
        "deductionAccountId" ];
  c_tag := "Extend202902";
  c_str :=
      [ ("deductionPbu", "deductionPbu");
        ("deductionAccountId", "deductionAccountId") ];
  c_get :=
      [ ("getDeductionPbu", "deductionPbu");
        ("getDeductionAccountId", "deductionAccountId") ];
  c_set :=
      [ ("setDeductionPbu", "deductionPbu");
        ("setDeductionAccountId", "deductionAccountId") ] |}.

(* szse-bin/src/main/java/com/finproto/szse/bin/messages/Extend203102.java:8-114  class Extend203102; fields 9-13; encode 56-62; decode 65-71; hashCode 74-81; equals 84-97; toString 100-113; the rest: getters and setters *)
Definition szse_Extend203102 : class_def := {|
  c_name := "szse.Extend203102";
  c_fields :=
      [ ("insufficientSecurityId", TStr);
        ("noSecurity", TInt);
        ("underlyingSecurityId", TStr);
        ("underlyingSecurityIdsource", TStr);
        ("deliveryQty", TLong) ];
  c_enc :=
      [ EFix "insufficientSecurityId" 8 32 false;
        EWrite 4 BE "noSecurity";
        EFix "underlyingSecurityId" 8 32 false;
        EFix "underlyingSecurityIdsource" 4 32 false;
        EWrite 8 BE "deliveryQty" ];
  c_dec :=
      [ DFix "insufficientSecurityId" 8 32 false;
        DRead 4 BE "noSecurity";
        DFix "underlyingSecurityId" 8 32 false;
        DFix "underlyingSecurityIdsource" 4 32 false;
        DRead 8 BE "deliveryQty" ];
  c_eq :=
      [ "insufficientSecurityId";
        "noSecurity";
        "underlyingSecurityId";
        "underlyingSecurityIdsource";
        "deliveryQty" ];
  c_hash := 
      HashFields [ "insufficientSecurityId";
        "noSecurity";
        "underlyingSecurityId";
        "underlyingSecurityIdsource";
        "deliveryQty" ];
  c_tag := "Extend203102";
  c_str :=
      [ ("insufficientSecurityId", "insufficientSecurityId");
        ("noSecurity", "noSecurity");
        ("underlyingSecurityId", "underlyingSecurityId");
        ("underlyingSecurityIdsource", "underlyingSecurityIdsource");
        ("deliveryQty", "deliveryQty") ];
  c_get :=
      [ ("getInsufficientSecurityId", "insufficientSecurityId");
        ("getNoSecurity", "noSecurity");
        ("getUnderlyingSecurityId", "underlyingSecurityId");
        ("getUnderlyingSecurityIdsource", "underlyingSecurityIdsource");
        ("getDeliveryQty", "deliveryQty") ];
  c_set :=
      [ ("setInsufficientSecurityId", "insufficientSecurityId");
        ("setNoSecurity", "noSecurity");
        ("setUnderlyingSecurityId", "underlyingSecurityId");
        ("setUnderlyingSecurityIdsource", "underlyingSecurityIdsource");
        ("setDeliveryQty", "deliveryQty") ] |}.

(* szse-bin/src/main/java/com/finproto/szse/bin/messages/Extend203502.java:8-50  class Extend203502; fields 9-9; encode 20-22; decode 25-27; hashCode 30-32; equals 35-44; toString 47-49; the rest: getters and setters *)
Definition szse_Extend203502 : class_def := {|
  c_name := "szse.Extend203502";
  c_fields :=
      [ ("contractAccountCode", TStr) ];
  c_enc :=
      [ EFix "contractAccountCode" 6 32 false ];
  c_dec :=
      [ DFix "contractAccountCode" 6 32 false ];
  c_eq :=
      [ "contractAccountCode" ];
  c_hash := 
      HashFields [ "contractAccountCode" ];
  c_tag := "Extend203502";
  c_str :=
      [ ("contractAccountCode", "contractAccountCode") ];
  c_get :=
      [ ("getContractAccountCode", "contractAccountCode") ];
  c_set :=
      [ ("setContractAccountCode", "contractAccountCode") ] |}.

(* szse-bin/src/main/java/com/finproto/szse/bin/messages/Extend203702.java:8-50  class Extend203702; fields 9-9; encode 20-22; decode 25-27; hashCode 30-32; equals 35-44; toString 47-49; the rest: getters and setters *)
Definition szse_Extend203702 : class_def := {|
  c_name := "szse.Extend203702";
  c_fields :=
      [ ("cashMargin", TStr) ];
  c_enc :=
      [ EFix "cashMargin" 1 32 false ];
  c_dec :=
      [ DFix "cashMargin" 1 32 false ];
  c_eq :=
      [ "cashMargin" ];
  c_hash := 
      HashFields [ "cashMargin" ];
  c_tag := "Extend203702";
  c_str :=
      [ ("cashMargin", "cashMargin") ];
  c_get :=
      [ ("getCashMargin", "cashMargin") ];
  c_set :=
      [ ("setCashMargin", "cashMargin") ] |}.

(* szse-bin/src/main/java/com/finproto/szse/bin/messages/Extend203715.java:8-50  class Extend203715; fields 9-9; encode 20-22; decode 25-27; hashCode 30-32; equals 35-44; toString 47-49; the rest: getters and setters *)
Definition szse_Extend203715 : class_def := {|
  c_name := "szse.Extend203715";
  c_fields :=
      [ ("cashMargin", TStr) ];
  c_enc :=
      [ EFix "cashMargin" 1 32 false ];
  c_dec :=
      [ DFix "cashMargin" 1 32 false ];
  c_eq :=
      [ "cashMargin" ];
  c_hash := 
      HashFields [ "cashMargin" ];
  c_tag := "Extend203715";
  c_str :=
      [ ("cashMargin", "cashMargin") ];
  c_get :=
      [ ("getCashMargin", "cashMargin") ];
  c_set :=
      [ ("setCashMargin", "cashMargin") ] |}.

(* szse-bin/src/main/java/com/finproto/szse/bin/messages/Extend204102.java:8-109  class Extend204102; fields 9-13; encode 56-62; decode 65-71; hashCode 74-76; equals 79-92; toString 95-108; the rest: getters and setters *)
Definition szse_Extend204102 : class_def := {|
  c_name := "szse.Extend204102";
  c_fields :=
      [ ("stopPx", TLong);
        ("minQty", TLong);
        ("maxPriceLevels", TShort);
        ("timeInForce", TStr);
        ("cashMargin", TStr) ];
  c_enc :=
      [ EWrite 8 BE "stopPx";
        EWrite 8 BE "minQty";
        EWrite 2 BE "maxPriceLevels";
        EFix "timeInForce" 1 32 false;
        EFix "cashMargin" 1 32 false ];
  c_dec :=
      [ DRead 8 BE "stopPx";
        DRead 8 BE "minQty";
        DRead 2 BE "maxPriceLevels";
        DFix "timeInForce" 1 32 false;
        DFix "cashMargin" 1 32 false ];
  c_eq :=
      [ "stopPx";
        "minQty";
        "maxPriceLevels";
        "timeInForce";
        "cashMargin" ];
  c_hash := 
      HashFields [ "stopPx";
        "minQty";
        "maxPriceLevels";
        "timeInForce";
        "cashMargin" ];
  c_tag := "Extend204102";
  c_str :=
      [ ("stopPx", "stopPx");
        ("minQty", "minQty");
        ("maxPriceLevels", "maxPriceLevels");
        ("timeInForce", "timeInForce");
        ("cashMargin", "cashMargin") ];
  c_get :=
      [ ("getStopPx", "stopPx");
        ("getMinQty", "minQty");
        ("getMaxPriceLevels", "maxPriceLevels");
        ("getTimeInForce", "timeInForce");
        ("getCashMargin", "cashMargin") ];
  c_set :=
      [ ("setStopPx", "stopPx");
        ("setMinQty", "minQty");
        ("setMaxPriceLevels", "maxPriceLevels");
        ("setTimeInForce", "timeInForce");
        ("setCashMargin", "cashMargin") ] |}.

(* szse-bin/src/main/java/com/finproto/szse/bin/messages/Extend204115.java:8-159  class Extend204115; fields 9-16; encode 83-92; decode 95-104; hashCode 107-117; equals 120-136; toString 139-158; the rest: getters and setters *)
Definition szse_Extend204115 : class_def := {|
  c_name := "szse.Extend204115";
  c_fields :=
      [ ("cashMargin", TStr);
        ("settlType", TShort);
        ("settlPeriod", TByte);
        ("counterpartyMemberId", TStr);
        ("counterpartyInvestorType", TStr);
        ("counterpartyInvestorId", TStr);
        ("counterpartyInvestorName", TStr);
        ("counterpartyTraderCode", TStr) ];
  c_enc :=
      [ EFix "cashMargin" 1 32 false;
        EWrite 2 BE "settlType";
        EWrite 1 BE "settlPeriod";
        EFix "counterpartyMemberId" 6 32 false;
        EFix "counterpartyInvestorType" 2 32 false;
        EFix "counterpartyInvestorId" 10 32 false;
        EFix "counterpartyInvestorName" 120 32 false;
        EFix "counterpartyTraderCode" 8 32 false ];
  c_dec :=
      [ DFix "cashMargin" 1 32 false;
        DRead 2 BE "settlType";
        DRead 1 BE "settlPeriod";
        DFix "counterpartyMemberId" 6 32 false;
        DFix "counterpartyInvestorType" 2 32 false;
        DFix "counterpartyInvestorId" 10 32 false;
        DFix "counterpartyInvestorName" 120 32 false;
        DFix "counterpartyTraderCode" 8 32 false ];
  c_eq :=
      [ "cashMargin";
        "settlType";
        "settlPeriod";
        "counterpartyMemberId";
        "counterpartyInvestorType";
        "counterpartyInvestorId";
        "counterpartyInvestorName";
        "counterpartyTraderCode" ];
  c_hash := 
      HashFields [ "cashMargin";
        "settlType";
        "settlPeriod";
        "counterpartyMemberId";
        "counterpartyInvestorType";
        "counterpartyInvestorId";
        "counterpartyInvestorName";
        "counterpartyTraderCode" ];
  c_tag := "Extend204115";
  c_str :=
      [ ("cashMargin", "cashMargin");
        ("settlType", "settlType");
        ("settlPeriod", "settlPeriod");
        ("counterpartyMemberId", "counterpartyMemberId");
        ("counterpartyInvestorType", "counterpartyInvestorType");
        ("counterpartyInvestorId", "counterpartyInvestorId");
        ("counterpartyInvestorName", "counterpartyInvestorName");
        ("counterpartyTraderCode", "counterpartyTraderCode") ];
  c_get :=
      [ ("getCashMargin", "cashMargin");
        ("getSettlType", "settlType");
        ("getSettlPeriod", "settlPeriod");
        ("getCounterpartyMemberId", "counterpartyMemberId");
        ("getCounterpartyInvestorType", "counterpartyInvestorType");
        ("getCounterpartyInvestorId", "counterpartyInvestorId");
        ("getCounterpartyInvestorName", "counterpartyInvestorName");
        ("getCounterpartyTraderCode", "counterpartyTraderCode") ];
  c_set :=
      [ ("setCashMargin", "cashMargin");
        ("setSettlType", "settlType");
        ("setSettlPeriod", "settlPeriod");
        ("setCounterpartyMemberId", "counterpartyMemberId");
        ("setCounterpartyInvestorType", "counterpartyInvestorType");
        ("setCounterpartyInvestorId", "counterpartyInvestorId");
        ("setCounterpartyInvestorName", "counterpartyInvestorName");
        ("setCounterpartyTraderCode", "counterpartyTraderCode") ] |}.

(* szse-bin/src/main/java/com/finproto/szse/bin/messages/Extend204129.java:8-294  class Extend204129; fields 9-25; encode 164-182; decode 185-203; hashCode 206-225; equals 228-253; toString 256-293; the rest: getters and setters *)
Definition szse_Extend204129 : class_def := {|
  c_name := "szse.Extend204129";
  c_fields :=
      [ ("memberId", TStr);
        ("investorType", TStr);
        ("investorId", TStr);
        ("investorName", TStr);
        ("traderCode", TStr);
        ("secondaryOrderId", TStr);
        ("bidTransType", TShort);
        ("bidExecInstType", TShort);
        ("lowLimitPrice", TLong);
        ("highLimitPrice", TLong);
        ("minQty", TLong);
        ("tradeDate", TInt);
        ("settlType", TShort);
        ("settlPeriod", TByte);
        ("preTradeAnonymity", TByte);
        ("cashMargin", TStr);
        ("memo", TStr) ];
  c_enc :=
      [ EFix "memberId" 6 32 false;
        EFix "investorType" 2 32 false;
        EFix "investorId" 10 32 false;
        EFix "investorName" 120 32 false;
        EFix "traderCode" 8 32 false;
        EFix "secondaryOrderId" 16 32 false;
        EWrite 2 BE "bidTransType";
        EWrite 2 BE "bidExecInstType";
        EWrite 8 BE "lowLimitPrice";
        EWrite 8 BE "highLimitPrice";
        EWrite 8 BE "minQty";
        EWrite 4 BE "tradeDate";
        EWrite 2 BE "settlType";
        EWrite 1 BE "settlPeriod";
        EWrite 1 BE "preTradeAnonymity";
        EFix "cashMargin" 1 32 false;
        EFix "memo" 160 32 false ];
  c_dec :=
      [ DFix "memberId" 6 32 false;
        DFix "investorType" 2 32 false;
        DFix "investorId" 10 32 false;
        DFix "investorName" 120 32 false;
        DFix "traderCode" 8 32 false;
        DFix "secondaryOrderId" 16 32 false;
        DRead 2 BE "bidTransType";
        DRead 2 BE "bidExecInstType";
        DRead 8 BE "lowLimitPrice";
        DRead 8 BE "highLimitPrice";
        DRead 8 BE "minQty";
        DRead 4 BE "tradeDate";
        DRead 2 BE "settlType";
        DRead 1 BE "settlPeriod";
        DRead 1 BE "preTradeAnonymity";
        DFix "cashMargin" 1 32 false;
        DFix "memo" 160 32 false ];
  c_eq :=
      [ "memberId";
        "investorType";
        "investorId";
        "investorName";
        "traderCode";
        "secondaryOrderId";
        "bidTransType";
        "bidExecInstType";
        "lowLimitPrice";
        "highLimitPrice";
        "minQty";
        "tradeDate";
        "settlType";
        "settlPeriod";
        "preTradeAnonymity";
        "cashMargin";
        "memo" ];
  c_hash := 
      HashFields [ "memberId";
        "investorType";
        "investorId";
        "investorName";
        "traderCode";
        "secondaryOrderId";
        "bidTransType";
        "bidExecInstType";
        "lowLimitPrice";
        "highLimitPrice";
        "minQty";
        "tradeDate";
        "settlType";
        "settlPeriod";
        "preTradeAnonymity";
        "cashMargin";
        "memo" ];
  c_tag := "Extend204129";
  c_str :=
      [ ("memberId", "memberId");
        ("investorType", "investorType");
        ("investorId", "investorId");
        ("investorName", "investorName");
        ("traderCode", "traderCode");
        ("secondaryOrderId", "secondaryOrderId");
        ("bidTransType", "bidTransType");
        ("bidExecInstType", "bidExecInstType");
        ("lowLimitPrice", "lowLimitPrice");
        ("highLimitPrice", "highLimitPrice");
        ("minQty", "minQty");
        ("tradeDate", "tradeDate");
        ("settlType", "settlType");
        ("settlPeriod", "settlPeriod");
        ("preTradeAnonymity", "preTradeAnonymity");
        ("cashMargin", "cashMargin");
        ("memo", "memo") ];
  c_get :=
      [ ("getMemberId", "memberId");
        ("getInvestorType", "investorType");
        ("getInvestorId", "investorId");
        ("getInvestorName", "investorName");
        ("getTraderCode", "traderCode");
        ("getSecondaryOrderId", "secondaryOrderId");
        ("getBidTransType", "bidTransType");
        ("getBidExecInstType", "bidExecInstType");
        ("getLowLimitPrice", "lowLimitPrice");
        ("getHighLimitPrice", "highLimitPrice");
        ("getMinQty", "minQty");
        ("getTradeDate", "tradeDate");
        ("getSettlType", "settlType");
        ("getSettlPeriod", "settlPeriod");
        ("getPreTradeAnonymity", "preTradeAnonymity");
        ("getCashMargin", "cashMargin");
        ("getMemo", "memo") ];
  c_set :=
      [ ("setMemberId", "memberId");
        ("setInvestorType", "investorType");
        ("setInvestorId", "investorId");
        ("setInvestorName", "investorName");
        ("setTraderCode", "traderCode");
        ("setSecondaryOrderId", "secondaryOrderId");
        ("setBidTransType", "bidTransType");
        ("setBidExecInstType", "bidExecInstType");
        ("setLowLimitPrice", "lowLimitPrice");
        ("setHighLimitPrice", "highLimitPrice");
        ("setMinQty", "minQty");
        ("setTradeDate", "tradeDate");
        ("setSettlType", "settlType");
        ("setSettlPeriod", "settlPeriod");
        ("setPreTradeAnonymity", "preTradeAnonymity");
        ("setCashMargin", "cashMargin");
        ("setMemo", "memo") ] |}.

(* szse-bin/src/main/java/com/finproto/szse/bin/messages/Extend204130.java:8-294  class Extend204130; fields 9-25; encode 164-182; decode 185-203; hashCode 206-225; equals 228-253; toString 256-293; the rest: getters and setters *)
Definition szse_Extend204130 : class_def := {|
  c_name := "szse.Extend204130";
  c_fields :=
      [ ("memberId", TStr);
        ("investorType", TStr);
        ("investorId", TStr);
        ("investorName", TStr);
        ("traderCode", TStr);
        ("counterpartyMemberId", TStr);
        ("counterpartyInvestorType", TStr);
        ("counterpartyInvestorId", TStr);
        ("counterpartyInvestorName", TStr);
        ("counterpartyTraderCode", TStr);
        ("secondaryOrderId", TStr);
        ("bidTransType", TShort);
        ("bidExecInstType", TShort);
        ("settlType", TShort);
        ("settlPeriod", TByte);
        ("cashMargin", TStr);
        ("memo", TStr) ];
  c_enc :=
      [ EFix "memberId" 6 32 false;
        EFix "investorType" 2 32 false;
        EFix "investorId" 10 32 false;
        EFix "investorName" 120 32 false;
        EFix "traderCode" 8 32 false;
        EFix "counterpartyMemberId" 6 32 false;
        EFix "counterpartyInvestorType" 2 32 false;
        EFix "counterpartyInvestorId" 10 32 false;
        EFix "counterpartyInvestorName" 120 32 false;
        EFix "counterpartyTraderCode" 8 32 false;
        EFix "secondaryOrderId" 16 32 false;
        EWrite 2 BE "bidTransType";
        EWrite 2 BE "bidExecInstType";
        EWrite 2 BE "settlType";
        EWrite 1 BE "settlPeriod";
        EFix "cashMargin" 1 32 false;
        EFix "memo" 160 32 false ];
  c_dec :=
      [ DFix "memberId" 6 32 false;
        DFix "investorType" 2 32 false;
        DFix "investorId" 10 32 false;
        DFix "investorName" 120 32 false;
        DFix "traderCode" 8 32 false;
        DFix "counterpartyMemberId" 6 32 false;
        DFix "counterpartyInvestorType" 2 32 false;
        DFix "counterpartyInvestorId" 10 32 false;
        DFix "counterpartyInvestorName" 120 32 false;
        DFix "counterpartyTraderCode" 8 32 false;
        DFix "secondaryOrderId" 16 32 false;
        DRead 2 BE "bidTransType";
        DRead 2 BE "bidExecInstType";
        DRead 2 BE "settlType";
        DRead 1 BE "settlPeriod";
        DFix "cashMargin" 1 32 false;
        DFix "memo" 160 32 false ];
  c_eq :=
      [ "memberId";
        "investorType";
        "investorId";
        "investorName";
        "traderCode";
        "counterpartyMemberId";
        "counterpartyInvestorType";
        "counterpartyInvestorId";
        "counterpartyInvestorName";
        "counterpartyTraderCode";
        "secondaryOrderId";
        "bidTransType";
        "bidExecInstType";
        "settlType";
        "settlPeriod";
        "cashMargin";
        "memo" ];
  c_hash := 
      HashFields [ "memberId";
        "investorType";
        "investorId";
        "investorName";
        "traderCode";
        "counterpartyMemberId";
        "counterpartyInvestorType";
        "counterpartyInvestorId";
        "counterpartyInvestorName";
        "counterpartyTraderCode";
        "secondaryOrderId";
        "bidTransType";
        "bidExecInstType";
        "settlType";
        "settlPeriod";
        "cashMargin";
        "memo" ];
  c_tag := "Extend204130";
  c_str :=
      [ ("memberId", "memberId");
        ("investorType", "investorType");
        ("investorId", "investorId");
        ("investorName", "investorName");
        ("traderCode", "traderCode");
        ("counterpartyMemberId", "counterpartyMemberId");
        ("counterpartyInvestorType", "counterpartyInvestorType");
        ("counterpartyInvestorId", "counterpartyInvestorId");
        ("counterpartyInvestorName", "counterpartyInvestorName");
        ("counterpartyTraderCode", "counterpartyTraderCode");
        ("secondaryOrderId", "secondaryOrderId");
        ("bidTransType", "bidTransType");
        ("bidExecInstType", "bidExecInstType");
        ("settlType", "settlType");
        ("settlPeriod", "settlPeriod");
        ("cashMargin", "cashMargin");
        ("memo", "memo") ];
  c_get :=
      [ ("getMemberId", "memberId");
        ("getInvestorType", "investorType");
        ("getInvestorId", "investorId");
        ("getInvestorName", "investorName");
        ("getTraderCode", "traderCode");
        ("getCounterpartyMemberId", "counterpartyMemberId");
        ("getCounterpartyInvestorType", "counterpartyInvestorType");
        ("getCounterpartyInvestorId", "counterpartyInvestorId");
        ("getCounterpartyInvestorName", "counterpartyInvestorName");
        ("getCounterpartyTraderCode", "counterpartyTraderCode");
        ("getSecondaryOrderId", "secondaryOrderId");
        ("getBidTransType", "bidTransType");
        ("getBidExecInstType", "bidExecInstType");
        ("getSettlType", "settlType");
        ("getSettlPeriod", "settlPeriod");
        ("getCashMargin", "cashMargin");
        ("getMemo", "memo") ];
  c_set :=
      [ ("setMemberId", "memberId");
        ("setInvestorType", "investorType");
        ("setInvestorId", "investorId");
        ("setInvestorName", "investorName");
        ("setTraderCode", "traderCode");
        ("setCounterpartyMemberId", "counterpartyMemberId");
        ("setCounterpartyInvestorType", "counterpartyInvestorType");
        ("setCounterpartyInvestorId", "counterpartyInvestorId");
        ("setCounterpartyInvestorName", "counterpartyInvestorName");
        ("setCounterpartyTraderCode", "counterpartyTraderCode");
        ("setSecondaryOrderId", "secondaryOrderId");
        ("setBidTransType", "bidTransType");
        ("setBidExecInstType", "bidExecInstType");
        ("setSettlType", "settlType");
        ("setSettlPeriod", "settlPeriod");
        ("setCashMargin", "cashMargin");
        ("setMemo", "memo") ] |}.

(* szse-bin/src/main/java/com/finproto/szse/bin/messages/Extend204702.java:8-50  class Extend204702; fields 9-9; encode 20-22; decode 25-27; hashCode 30-32; equals 35-44; toString 47-49; the rest: getters and setters *)
Definition szse_Extend204702 : class_def := {|
  c_name := "szse.Extend204702";
  c_fields :=
      [ ("secondaryOrderId", TStr) ];
  c_enc :=
      [ EFix "secondaryOrderId" 16 32 false ];
  c_dec :=
      [ DFix "secondaryOrderId" 16 32 false ];
  c_eq :=
      [ "secondaryOrderId" ];
  c_hash := 
      HashFields [ "secondaryOrderId" ];
  c_tag := "Extend204702";
  c_str :=
      [ ("secondaryOrderId", "secondaryOrderId") ];
  c_get :=
      [ ("getSecondaryOrderId", "secondaryOrderId") ];
  c_set :=
      [ ("setSecondaryOrderId", "secondaryOrderId") ] |}.

(* szse-bin/src/main/java/com/finproto/szse/bin/messages/Extend204715.java:8-95  class Extend204715; fields 9-12; encode 47-52; decode 55-60; hashCode 63-65; equals 68-80; toString 83-94; the rest: getters and setters *)
Definition szse_Extend204715 : class_def := {|
  c_name := "szse.Extend204715";
  c_fields :=
      [ ("expirationDays", TShort);
        ("expirationType", TByte);
        ("maturityDate", TInt);
        ("shareProperty", TStr) ];
  c_enc :=
      [ EWrite 2 BE "expirationDays";
        EWrite 1 BE "expirationType";
        EWrite 4 BE "maturityDate";
        EFix "shareProperty" 2 32 false ];
  c_dec :=
      [ DRead 2 BE "expirationDays";
        DRead 1 BE "expirationType";
        DRead 4 BE "maturityDate";
        DFix "shareProperty" 2 32 false ];
  c_eq :=
      [ "expirationDays";
        "expirationType";
        "maturityDate";
        "shareProperty" ];
  c_hash := 
      HashFields [ "expirationDays";
        "expirationType";
        "maturityDate";
        "shareProperty" ];
  c_tag := "Extend204715";
  c_str :=
      [ ("expirationDays", "expirationDays");
        ("expirationType", "expirationType");
        ("maturityDate", "maturityDate");
        ("shareProperty", "shareProperty") ];
  c_get :=
      [ ("getExpirationDays", "expirationDays");
        ("getExpirationType", "expirationType");
        ("getMaturityDate", "maturityDate");
        ("getShareProperty", "shareProperty") ];
  c_set :=
      [ ("setExpirationDays", "expirationDays");
        ("setExpirationType", "expirationType");
        ("setMaturityDate", "maturityDate");
        ("setShareProperty", "shareProperty") ] |}.

(* szse-bin/src/main/java/com/finproto/szse/bin/messages/Extend206302.java:10-171  class Extend206302; fields 11-18; encode 85-100; decode 103-116; hashCode 119-129; equals 132-148; toString 151-170; the rest: getters and setters *)
Definition szse_Extend206302 : class_def := {|
  c_name := "szse.Extend206302";
  c_fields :=
      [ ("rejectText", TStr);
        ("stopPx", TLong);
        ("minQty", TLong);
        ("maxPriceLevels", TShort);
        ("timeInForce", TStr);
        ("lotType", TStr);
        ("imcrejectTextLen", TInt);
        ("imcrejectText", TStr) ];
  c_enc :=
      [ EFix "rejectText" 16 32 false;
        EWrite 8 BE "stopPx";
        EWrite 8 BE "minQty";
        EWrite 2 BE "maxPriceLevels";
        EFix "timeInForce" 1 32 false;
        EFix "lotType" 1 32 false;
        EWrite 4 BE "imcrejectTextLen";
        EDyn "imcrejectText" 4 BE 4 BE ];
  c_dec :=
      [ DFix "rejectText" 16 32 false;
        DRead 8 BE "stopPx";
        DRead 8 BE "minQty";
        DRead 2 BE "maxPriceLevels";
        DFix "timeInForce" 1 32 false;
        DFix "lotType" 1 32 false;
        DRead 4 BE "imcrejectTextLen";
        DDyn "imcrejectText" 4 BE ];
  c_eq :=
      [ "rejectText";
        "stopPx";
        "minQty";
        "maxPriceLevels";
        "timeInForce";
        "lotType";
        "imcrejectTextLen";
        "imcrejectText" ];
  c_hash := 
      HashFields [ "rejectText";
        "stopPx";
        "minQty";
        "maxPriceLevels";
        "timeInForce";
        "lotType";
        "imcrejectTextLen";
        "imcrejectText" ];
  c_tag := "Extend206302";
  c_str :=
      [ ("rejectText", "rejectText");
        ("stopPx", "stopPx");
        ("minQty", "minQty");
        ("maxPriceLevels", "maxPriceLevels");
        ("timeInForce", "timeInForce");
        ("lotType", "lotType");
        ("imcrejectTextLen", "imcrejectTextLen");
        ("imcrejectText", "imcrejectText") ];
  c_get :=
      [ ("getRejectText", "rejectText");
        ("getStopPx", "stopPx");
        ("getMinQty", "minQty");
        ("getMaxPriceLevels", "maxPriceLevels");
        ("getTimeInForce", "timeInForce");
        ("getLotType", "lotType");
        ("getImcrejectTextLen", "imcrejectTextLen");
        ("getImcrejectText", "imcrejectText") ];
  c_set :=
      [ ("setRejectText", "rejectText");
        ("setStopPx", "stopPx");
        ("setMinQty", "minQty");
        ("setMaxPriceLevels", "maxPriceLevels");
        ("setTimeInForce", "timeInForce");
        ("setLotType", "lotType");
        ("setImcrejectTextLen", "imcrejectTextLen");
        ("setImcrejectText", "imcrejectText") ] |}.

(* szse-bin/src/main/java/com/finproto/szse/bin/messages/Extend206315.java:8-50  class Extend206315; fields 9-9; encode 20-22; decode 25-27; hashCode 30-32; equals 35-44; toString 47-49; the rest: getters and setters *)
Definition szse_Extend206315 : class_def := {|
  c_name := "szse.Extend206315";
  c_fields :=
      [ ("cashMargin", TStr) ];
  c_enc :=
      [ EFix "cashMargin" 1 32 false ];
  c_dec :=
      [ DFix "cashMargin" 1 32 false ];
  c_eq :=
      [ "cashMargin" ];
  c_hash := 
      HashFields [ "cashMargin" ];
  c_tag := "Extend206315";
  c_str :=
      [ ("cashMargin", "cashMargin") ];
  c_get :=
      [ ("getCashMargin", "cashMargin") ];
  c_set :=
      [ ("setCashMargin", "cashMargin") ] |}.

(* szse-bin/src/main/java/com/finproto/szse/bin/messages/Heartbeat.java:7-35  class Heartbeat; fields none; encode 10-10; decode 13-13; hashCode 16-18; equals 21-29; toString 32-34; the rest: getters and setters *)
Definition szse_Heartbeat : class_def := {|
  c_name := "szse.Heartbeat";
  c_fields :=
      [];
  c_enc :=
      [];
  c_dec :=
      [];
  c_eq :=
      [];
  c_hash := HashSelf;
  c_tag := "Heartbeat";
  c_str :=
      [];
  c_get :=
      [];
  c_set :=
      [] |}.

(* szse-bin/src/main/java/com/finproto/szse/bin/messages/Logon.java:8-109  class Logon; fields 9-13; encode 56-62; decode 65-71; hashCode 74-76; equals 79-92; toString 95-108; the rest: getters and setters *)
Definition szse_Logon : class_def := {|
  c_name := "szse.Logon";
  c_fields :=
      [ ("senderCompId", TStr);
        ("targetCompId", TStr);
        ("heartBtint", TInt);
        ("password", TStr);
        ("defaultApplVerId", TStr) ];
  c_enc :=
      [ EFix "senderCompId" 20 32 false;
        EFix "targetCompId" 20 32 false;
        EWrite 4 BE "heartBtint";
        EFix "password" 16 32 false;
        EFix "defaultApplVerId" 32 32 false ];
  c_dec :=
      [ DFix "senderCompId" 20 32 false;
        DFix "targetCompId" 20 32 false;
        DRead 4 BE "heartBtint";
        DFix "password" 16 32 false;
        DFix "defaultApplVerId" 32 32 false ];
  c_eq :=
      [ "senderCompId";
        "targetCompId";
        "heartBtint";
        "password";
        "defaultApplVerId" ];
  c_hash := 
      HashFields [ "senderCompId";
        "targetCompId";
        "heartBtint";
        "password";
        "defaultApplVerId" ];
  c_tag := "Logon";
  c_str :=
      [ ("senderCompId", "senderCompId");
        ("targetCompId", "targetCompId");
        ("heartBtint", "heartBtint");
        ("password", "password");
        ("defaultApplVerId", "defaultApplVerId") ];
  c_get :=
      [ ("getSenderCompId", "senderCompId");
        ("getTargetCompId", "targetCompId");
        ("getHeartBtint", "heartBtint");
        ("getPassword", "password");
        ("getDefaultApplVerId", "defaultApplVerId") ];
  c_set :=
      [ ("setSenderCompId", "senderCompId");
        ("setTargetCompId", "targetCompId");
        ("setHeartBtint", "heartBtint");
        ("setPassword", "password");
        ("setDefaultApplVerId", "defaultApplVerId") ] |}.

(* szse-bin/src/main/java/com/finproto/szse/bin/messages/Logout.java:8-62  class Logout; fields 9-10; encode 29-32; decode 35-38; hashCode 41-43; equals 46-56; toString 59-61; the rest: getters and setters *)
Definition szse_Logout : class_def := {|
  c_name := "szse.Logout";
  c_fields :=
      [ ("sessionStatus", TInt);
        ("text", TStr) ];
  c_enc :=
      [ EWrite 4 BE "sessionStatus";
        EFix "text" 200 32 false ];
  c_dec :=
      [ DRead 4 BE "sessionStatus";
        DFix "text" 200 32 false ];
  c_eq :=
      [ "sessionStatus";
        "text" ];
  c_hash := 
      HashFields [ "sessionStatus";
        "text" ];
  c_tag := "Logout";
  c_str :=
      [ ("sessionStatus", "sessionStatus");
        ("text", "text") ];
  c_get :=
      [ ("getSessionStatus", "sessionStatus");
        ("getText", "text") ];
  c_set :=
      [ ("setSessionStatus", "sessionStatus");
        ("setText", "text") ] |}.

(* szse-bin/src/main/java/com/finproto/szse/bin/messages/NewOrder.java:11-356  class NewOrder; fields 12-28; encode 167-187; decode 190-209; hashCode 212-231; equals 234-259; toString 262-299; the rest: getters and setters *)
Definition szse_NewOrder : class_def := {|
  c_name := "szse.NewOrder";
  c_fields :=
      [ ("applId", TStr);
        ("submittingPbuid", TStr);
        ("securityId", TStr);
        ("securityIdsource", TStr);
        ("ownerType", TShort);
        ("clearingFirm", TStr);
        ("transactTime", TLong);
        ("userInfo", TStr);
        ("clOrdId", TStr);
        ("accountId", TStr);
        ("branchId", TStr);
        ("orderRestrictions", TStr);
        ("side", TStr);
        ("ordType", TStr);
        ("orderQty", TLong);
        ("price", TLong);
        ("applExtend", TCodec) ];
  c_enc :=
      [ EFix "applId" 3 32 false;
        EFix "submittingPbuid" 6 32 false;
        EFix "securityId" 8 32 false;
        EFix "securityIdsource" 4 32 false;
        EWrite 2 BE "ownerType";
        EFix "clearingFirm" 2 32 false;
        EWrite 8 BE "transactTime";
        EFix "userInfo" 8 32 false;
        EFix "clOrdId" 10 32 false;
        EFix "accountId" 12 32 false;
        EFix "branchId" 4 32 false;
        EFix "orderRestrictions" 4 32 false;
        EFix "side" 1 32 false;
        EFix "ordType" 1 32 false;
        EWrite 8 BE "orderQty";
        EWrite 8 BE "price";
        EObjOpt "applExtend" ];
  c_dec :=
      [ DFix "applId" 3 32 false;
        DFix "submittingPbuid" 6 32 false;
        DFix "securityId" 8 32 false;
        DFix "securityIdsource" 4 32 false;
        DRead 2 BE "ownerType";
        DFix "clearingFirm" 2 32 false;
        DRead 8 BE "transactTime";
        DFix "userInfo" 8 32 false;
        DFix "clOrdId" 10 32 false;
        DFix "accountId" 12 32 false;
        DFix "branchId" 4 32 false;
        DFix "orderRestrictions" 4 32 false;
        DFix "side" 1 32 false;
        DFix "ordType" 1 32 false;
        DRead 8 BE "orderQty";
        DRead 8 BE "price";
        DCreate "applExtend" "applId";
        DObj "applExtend" ];
  c_eq :=
      [ "applId";
        "submittingPbuid";
        "securityId";
        "securityIdsource";
        "ownerType";
        "clearingFirm";
        "transactTime";
        "userInfo";
        "clOrdId";
        "accountId";
        "branchId";
        "orderRestrictions";
        "side";
        "ordType";
        "orderQty";
        "price";
        "applExtend" ];
  c_hash := 
      HashFields [ "applId";
        "submittingPbuid";
        "securityId";
        "securityIdsource";
        "ownerType";
        "clearingFirm";
        "transactTime";
        "userInfo";
        "clOrdId";
        "accountId";
        "branchId";
        "orderRestrictions";
        "side";
        "ordType";
        "orderQty";
        "price";
        "applExtend" ];
  c_tag := "NewOrder";
  c_str :=
      [ ("applId", "applId");
        ("submittingPbuid", "submittingPbuid");
        ("securityId", "securityId");
        ("securityIdsource", "securityIdsource");
        ("ownerType", "ownerType");
        ("clearingFirm", "clearingFirm");
        ("transactTime", "transactTime");
        ("userInfo", "userInfo");
        ("clOrdId", "clOrdId");
        ("accountId", "accountId");
        ("branchId", "branchId");
        ("orderRestrictions", "orderRestrictions");
        ("side", "side");
        ("ordType", "ordType");
        ("orderQty", "orderQty");
        ("price", "price");
        ("applExtend", "applExtend") ];
  c_get :=
      [ ("getApplId", "applId");
        ("getSubmittingPbuid", "submittingPbuid");
        ("getSecurityId", "securityId");
        ("getSecurityIdsource", "securityIdsource");
        ("getOwnerType", "ownerType");
        ("getClearingFirm", "clearingFirm");
        ("getTransactTime", "transactTime");
        ("getUserInfo", "userInfo");
        ("getClOrdId", "clOrdId");
        ("getAccountId", "accountId");
        ("getBranchId", "branchId");
        ("getOrderRestrictions", "orderRestrictions");
        ("getSide", "side");
        ("getOrdType", "ordType");
        ("getOrderQty", "orderQty");
        ("getPrice", "price");
        ("getApplExtend", "applExtend") ];
  c_set :=
      [ ("setApplId", "applId");
        ("setSubmittingPbuid", "submittingPbuid");
        ("setSecurityId", "securityId");
        ("setSecurityIdsource", "securityIdsource");
        ("setOwnerType", "ownerType");
        ("setClearingFirm", "clearingFirm");
        ("setTransactTime", "transactTime");
        ("setUserInfo", "userInfo");
        ("setClOrdId", "clOrdId");
        ("setAccountId", "accountId");
        ("setBranchId", "branchId");
        ("setOrderRestrictions", "orderRestrictions");
        ("setSide", "side");
        ("setOrdType", "ordType");
        ("setOrderQty", "orderQty");
        ("setPrice", "price");
        ("setApplExtend", "applExtend") ] |}.

(* szse-bin/src/main/java/com/finproto/szse/bin/messages/OrderCancelRequest.java:8-234  class OrderCancelRequest; fields 9-21; encode 128-142; decode 145-159; hashCode 162-177; equals 180-201; toString 204-233; the rest: getters and setters *)
Definition szse_OrderCancelRequest : class_def := {|
  c_name := "szse.OrderCancelRequest";
  c_fields :=
      [ ("applId", TStr);
        ("submittingPbuid", TStr);
        ("securityId", TStr);
        ("securityIdsource", TStr);
        ("ownerType", TShort);
        ("clearingFirm", TStr);
        ("transactTime", TLong);
        ("userInfo", TStr);
        ("clOrdId", TStr);
        ("origClOrdId", TStr);
        ("side", TStr);
        ("orderId", TStr);
        ("orderQty", TLong) ];
  c_enc :=
      [ EFix "applId" 3 32 false;
        EFix "submittingPbuid" 6 32 false;
        EFix "securityId" 8 32 false;
        EFix "securityIdsource" 4 32 false;
        EWrite 2 BE "ownerType";
        EFix "clearingFirm" 2 32 false;
        EWrite 8 BE "transactTime";
        EFix "userInfo" 8 32 false;
        EFix "clOrdId" 10 32 false;
        EFix "origClOrdId" 10 32 false;
        EFix "side" 1 32 false;
        EFix "orderId" 16 32 false;
        EWrite 8 BE "orderQty" ];
  c_dec :=
      [ DFix "applId" 3 32 false;
        DFix "submittingPbuid" 6 32 false;
        DFix "securityId" 8 32 false;
        DFix "securityIdsource" 4 32 false;
        DRead 2 BE "ownerType";
        DFix "clearingFirm" 2 32 false;
        DRead 8 BE "transactTime";
        DFix "userInfo" 8 32 false;
        DFix "clOrdId" 10 32 false;
        DFix "origClOrdId" 10 32 false;
        DFix "side" 1 32 false;
        DFix "orderId" 16 32 false;
        DRead 8 BE "orderQty" ];
  c_eq :=
      [ "applId";
        "submittingPbuid";
        "securityId";
        "securityIdsource";
        "ownerType";
        "clearingFirm";
        "transactTime";
        "userInfo";
        "clOrdId";
        "origClOrdId";
        "side";
        "orderId";
        "orderQty" ];
  c_hash := 
      HashFields [ "applId";
        "submittingPbuid";
        "securityId";
        "securityIdsource";
        "ownerType";
        "clearingFirm";
        "transactTime";
        "userInfo";
        "clOrdId";
        "origClOrdId";
        "side";
        "orderId";
        "orderQty" ];
  c_tag := "OrderCancelRequest";
  c_str :=
      [ ("applId", "applId");
        ("submittingPbuid", "submittingPbuid");
        ("securityId", "securityId");
        ("securityIdsource", "securityIdsource");
        ("ownerType", "ownerType");
        ("clearingFirm", "clearingFirm");
        ("transactTime", "transactTime");
        ("userInfo", "userInfo");
        ("clOrdId", "clOrdId");
        ("origClOrdId", "origClOrdId");
        ("side", "side");
        ("orderId", "orderId");
        ("orderQty", "orderQty") ];
  c_get :=
      [ ("getApplId", "applId");
        ("getSubmittingPbuid", "submittingPbuid");
        ("getSecurityId", "securityId");
        ("getSecurityIdsource", "securityIdsource");
        ("getOwnerType", "ownerType");
        ("getClearingFirm", "clearingFirm");
        ("getTransactTime", "transactTime");
        ("getUserInfo", "userInfo");
        ("getClOrdId", "clOrdId");
        ("getOrigClOrdId", "origClOrdId");
        ("getSide", "side");
        ("getOrderId", "orderId");
        ("getOrderQty", "orderQty") ];
  c_set :=
      [ ("setApplId", "applId");
        ("setSubmittingPbuid", "submittingPbuid");
        ("setSecurityId", "securityId");
        ("setSecurityIdsource", "securityIdsource");
        ("setOwnerType", "ownerType");
        ("setClearingFirm", "clearingFirm");
        ("setTransactTime", "transactTime");
        ("setUserInfo", "userInfo");
        ("setClOrdId", "clOrdId");
        ("setOrigClOrdId", "origClOrdId");
        ("setSide", "side");
        ("setOrderId", "orderId");
        ("setOrderQty", "orderQty") ] |}.

(* szse-bin/src/main/java/com/finproto/szse/bin/messages/PartitionReport.java:8-67  class PartitionReport; fields 9-10; encode 29-32; decode 35-38; hashCode 41-43; equals 46-56; toString 59-66; the rest: getters and setters *)
Definition szse_PartitionReport : class_def := {|
  c_name := "szse.PartitionReport";
  c_fields :=
      [ ("partitionNo", TInt);
        ("reportIndex", TLong) ];
  c_enc :=
      [ EWrite 4 BE "partitionNo";
        EWrite 8 BE "reportIndex" ];
  c_dec :=
      [ DRead 4 BE "partitionNo";
        DRead 8 BE "reportIndex" ];
  c_eq :=
      [ "partitionNo";
        "reportIndex" ];
  c_hash := 
      HashFields [ "partitionNo";
        "reportIndex" ];
  c_tag := "PartitionReport";
  c_str :=
      [ ("partitionNo", "partitionNo");
        ("reportIndex", "reportIndex") ];
  c_get :=
      [ ("getPartitionNo", "partitionNo");
        ("getReportIndex", "reportIndex") ];
  c_set :=
      [ ("setPartitionNo", "partitionNo");
        ("setReportIndex", "reportIndex") ] |}.

(* szse-bin/src/main/java/com/finproto/szse/bin/messages/PlatformInfo.java:10-84  class PlatformInfo; fields 11-12; encode 31-41; decode 44-55; hashCode 58-60; equals 63-73; toString 76-83; the rest: getters and setters *)
Definition szse_PlatformInfo : class_def := {|
  c_name := "szse.PlatformInfo";
  c_fields :=
      [ ("platformId", TShort);
        ("platformPartition", (TList (TObj "szse.PlatformPartition"))) ];
  c_enc :=
      [ EWrite 2 BE "platformId";
        EList "platformPartition" 4 BE 32 4 BE XObj ];
  c_dec :=
      [ DRead 2 BE "platformId";
        DList "platformPartition" 4 BE (YObj "szse.PlatformPartition") ];
  c_eq :=
      [ "platformId";
        "platformPartition" ];
  c_hash := 
      HashFields [ "platformId";
        "platformPartition" ];
  c_tag := "PlatformInfo";
  c_str :=
      [ ("platformId", "platformId");
        ("platformPartition", "platformPartition") ];
  c_get :=
      [ ("getPlatformId", "platformId");
        ("getPlatformPartition", "platformPartition") ];
  c_set :=
      [ ("setPlatformId", "platformId");
        ("setPlatformPartition", "platformPartition") ] |}.

(* szse-bin/src/main/java/com/finproto/szse/bin/messages/PlatformPartition.java:8-50  class PlatformPartition; fields 9-9; encode 20-22; decode 25-27; hashCode 30-32; equals 35-44; toString 47-49; the rest: getters and setters *)
Definition szse_PlatformPartition : class_def := {|
  c_name := "szse.PlatformPartition";
  c_fields :=
      [ ("partitionNo", TInt) ];
  c_enc :=
      [ EWrite 4 BE "partitionNo" ];
  c_dec :=
      [ DRead 4 BE "partitionNo" ];
  c_eq :=
      [ "partitionNo" ];
  c_hash := 
      HashFields [ "partitionNo" ];
  c_tag := "PlatformPartition";
  c_str :=
      [ ("partitionNo", "partitionNo") ];
  c_get :=
      [ ("getPartitionNo", "partitionNo") ];
  c_set :=
      [ ("setPartitionNo", "partitionNo") ] |}.

(* szse-bin/src/main/java/com/finproto/szse/bin/messages/PlatformStateInfo.java:8-67  class PlatformStateInfo; fields 9-10; encode 29-32; decode 35-38; hashCode 41-43; equals 46-56; toString 59-66; the rest: getters and setters *)
Definition szse_PlatformStateInfo : class_def := {|
  c_name := "szse.PlatformStateInfo";
  c_fields :=
      [ ("platformId", TShort);
        ("platformState", TShort) ];
  c_enc :=
      [ EWrite 2 BE "platformId";
        EWrite 2 BE "platformState" ];
  c_dec :=
      [ DRead 2 BE "platformId";
        DRead 2 BE "platformState" ];
  c_eq :=
      [ "platformId";
        "platformState" ];
  c_hash := 
      HashFields [ "platformId";
        "platformState" ];
  c_tag := "PlatformStateInfo";
  c_str :=
      [ ("platformId", "platformId");
        ("platformState", "platformState") ];
  c_get :=
      [ ("getPlatformId", "platformId");
        ("getPlatformState", "platformState") ];
  c_set :=
      [ ("setPlatformId", "platformId");
        ("setPlatformState", "platformState") ] |}.

(* szse-bin/src/main/java/com/finproto/szse/bin/messages/ReportFinished.java:8-81  class ReportFinished; fields 9-11; encode 38-42; decode 45-49; hashCode 52-54; equals 57-68; toString 71-80; the rest: getters and setters *)
Definition szse_ReportFinished : class_def := {|
  c_name := "szse.ReportFinished";
  c_fields :=
      [ ("partitionNo", TInt);
        ("reportIndex", TLong);
        ("platformId", TShort) ];
  c_enc :=
      [ EWrite 4 BE "partitionNo";
        EWrite 8 BE "reportIndex";
        EWrite 2 BE "platformId" ];
  c_dec :=
      [ DRead 4 BE "partitionNo";
        DRead 8 BE "reportIndex";
        DRead 2 BE "platformId" ];
  c_eq :=
      [ "partitionNo";
        "reportIndex";
        "platformId" ];
  c_hash := 
      HashFields [ "partitionNo";
        "reportIndex";
        "platformId" ];
  c_tag := "ReportFinished";
  c_str :=
      [ ("partitionNo", "partitionNo");
        ("reportIndex", "reportIndex");
        ("platformId", "platformId") ];
  c_get :=
      [ ("getPartitionNo", "partitionNo");
        ("getReportIndex", "reportIndex");
        ("getPlatformId", "platformId") ];
  c_set :=
      [ ("setPartitionNo", "partitionNo");
        ("setReportIndex", "reportIndex");
        ("setPlatformId", "platformId") ] |}.

(* szse-bin/src/main/java/com/finproto/szse/bin/messages/ReportSynchronization.java:10-67  class ReportSynchronization; fields 11-11; encode 22-31; decode 34-44; hashCode 47-49; equals 52-61; toString 64-66; the rest: getters and setters *)
Definition szse_ReportSynchronization : class_def := {|
  c_name := "szse.ReportSynchronization";
  c_fields :=
      [ ("partitionReport", (TList (TObj "szse.PartitionReport"))) ];
  c_enc :=
      [ EList "partitionReport" 4 BE 32 4 BE XObj ];
  c_dec :=
      [ DList "partitionReport" 4 BE (YObj "szse.PartitionReport") ];
  c_eq :=
      [ "partitionReport" ];
  c_hash := 
      HashFields [ "partitionReport" ];
  c_tag := "ReportSynchronization";
  c_str :=
      [ ("partitionReport", "partitionReport") ];
  c_get :=
      [ ("getPartitionReport", "partitionReport") ];
  c_set :=
      [ ("setPartitionReport", "partitionReport") ] |}.

(* szse-bin/src/main/java/com/finproto/szse/bin/messages/SzseBinary.java:13-219  class SzseBinary; fields 14-17; encode 52-70; decode 73-79; hashCode 82-84; equals 87-99; toString 102-113; the rest: getters and setters *)
Definition szse_SzseBinary : class_def := {|
  c_name := "szse.SzseBinary";
  c_fields :=
      [ ("msgType", TInt);
        ("bodyLength", TInt);
        ("body", TCodec);
        ("checksum", TInt) ];
  c_enc :=
      [ EWrite 4 BE "msgType";
        EMark "bodyLengthPos";
        EZero 4 BE;
        EMark "bodyStart";
        EObjOpt "body";
        EMark "bodyEnd";
        EDiff "bodyLength" "bodyEnd" "bodyStart";
        EPatch 4 BE "bodyLengthPos" "bodyLength";
        ESum "SZSE_BIN" "checksum";
        EWrite 4 BE "checksum" ];
  c_dec :=
      [ DRead 4 BE "msgType";
        DRead 4 BE "bodyLength";
        DCreate "body" "msgType";
        DObj "body";
        DRead 4 BE "checksum" ];
  c_eq :=
      [ "msgType";
        "bodyLength";
        "body";
        "checksum" ];
  c_hash := 
      HashFields [ "msgType";
        "bodyLength";
        "body";
        "checksum" ];
  c_tag := "SzseBinary";
  c_str :=
      [ ("msgType", "msgType");
        ("bodyLength", "bodyLength");
        ("body", "body");
        ("checksum", "checksum") ];
  c_get :=
      [ ("getMsgType", "msgType");
        ("getBodyLength", "bodyLength");
        ("getBody", "body");
        ("getChecksum", "checksum") ];
  c_set :=
      [ ("setMsgType", "msgType");
        ("setBodyLength", "bodyLength");
        ("setBody", "body");
        ("setChecksum", "checksum") ] |}.

(* szse-bin/src/main/java/com/finproto/szse/bin/messages/TradingSessionStatus.java:8-144  class TradingSessionStatus; fields 9-15; encode 74-82; decode 85-93; hashCode 96-105; equals 108-123; toString 126-143; the rest: getters and setters *)
Definition szse_TradingSessionStatus : class_def := {|
  c_name := "szse.TradingSessionStatus";
  c_fields :=
      [ ("marketId", TStr);
        ("marketSegmentId", TStr);
        ("tradingSessionId", TStr);
        ("tradingSessionSubId", TStr);
        ("tradSesStatus", TShort);
        ("tradSesStartTime", TLong);
        ("tradSesEndTime", TLong) ];
  c_enc :=
      [ EFix "marketId" 8 32 false;
        EFix "marketSegmentId" 8 32 false;
        EFix "tradingSessionId" 4 32 false;
        EFix "tradingSessionSubId" 4 32 false;
        EWrite 2 BE "tradSesStatus";
        EWrite 8 BE "tradSesStartTime";
        EWrite 8 BE "tradSesEndTime" ];
  c_dec :=
      [ DFix "marketId" 8 32 false;
        DFix "marketSegmentId" 8 32 false;
        DFix "tradingSessionId" 4 32 false;
        DFix "tradingSessionSubId" 4 32 false;
        DRead 2 BE "tradSesStatus";
        DRead 8 BE "tradSesStartTime";
        DRead 8 BE "tradSesEndTime" ];
  c_eq :=
      [ "marketId";
        "marketSegmentId";
        "tradingSessionId";
        "tradingSessionSubId";
        "tradSesStatus";
        "tradSesStartTime";
        "tradSesEndTime" ];
  c_hash := 
      HashFields [ "marketId";
        "marketSegmentId";
        "tradingSessionId";
        "tradingSessionSubId";
        "tradSesStatus";
        "tradSesStartTime";
        "tradSesEndTime" ];
  c_tag := "TradingSessionStatus";
  c_str :=
      [ ("marketId", "marketId");
        ("marketSegmentId", "marketSegmentId");
        ("tradingSessionId", "tradingSessionId");
        ("tradingSessionSubId", "tradingSessionSubId");
        ("tradSesStatus", "tradSesStatus");
        ("tradSesStartTime", "tradSesStartTime");
        ("tradSesEndTime", "tradSesEndTime") ];
  c_get :=
      [ ("getMarketId", "marketId");
        ("getMarketSegmentId", "marketSegmentId");
        ("getTradingSessionId", "tradingSessionId");
        ("getTradingSessionSubId", "tradingSessionSubId");
        ("getTradSesStatus", "tradSesStatus");
        ("getTradSesStartTime", "tradSesStartTime");
        ("getTradSesEndTime", "tradSesEndTime") ];
  c_set :=
      [ ("setMarketId", "marketId");
        ("setMarketSegmentId", "marketSegmentId");
        ("setTradingSessionId", "tradingSessionId");
        ("setTradingSessionSubId", "tradingSessionSubId");
        ("setTradSesStatus", "tradSesStatus");
        ("setTradSesStartTime", "tradSesStartTime");
        ("setTradSesEndTime", "tradSesEndTime") ] |}.

Definition szse_classes : list class_def :=
      [ szse_BusinessReject;
        szse_CancelReject;
        szse_ExecutionConfirm;
        szse_ExecutionReport;
        szse_Extend100101;
        szse_Extend100201;
        szse_Extend100301;
        szse_Extend100501;
        szse_Extend100601;
        szse_Extend100701;
        szse_Extend101401;
        szse_Extend101501;
        szse_Extend101601;
        szse_Extend101701;
        szse_Extend101801;
        szse_Extend102701;
        szse_Extend102801;
        szse_Extend102901;
        szse_Extend103501;
        szse_Extend103701;
        szse_Extend104101;
        szse_Extend104128;
        szse_Extend104701;
        szse_Extend106301;
        szse_Extend200102;
        szse_Extend200115;
        szse_Extend200202;
        szse_Extend200215;
        szse_Extend200302;
        szse_Extend200315;
        szse_Extend200402;
        szse_Extend200415;
        szse_Extend200502;
        szse_Extend200515;
        szse_Extend200602;
        szse_Extend200615;
        szse_Extend200702;
        szse_Extend200715;
        szse_Extend201202;
        szse_Extend201502;
        szse_Extend201602;
        szse_Extend201702;
        szse_Extend201802;
        szse_Extend202702;
        szse_Extend202802;
        szse_Extend202902;
        szse_Extend203102;
        szse_Extend203502;
        szse_Extend203702;
        szse_Extend203715;
        szse_Extend204102;
        szse_Extend204115;
        szse_Extend204129;
        szse_Extend204130;
        szse_Extend204702;
        szse_Extend204715;
        szse_Extend206302;
        szse_Extend206315;
        szse_Heartbeat;
        szse_Logon;
        szse_Logout;
        szse_NewOrder;
        szse_OrderCancelRequest;
        szse_PartitionReport;
        szse_PlatformInfo;
        szse_PlatformPartition;
        szse_PlatformStateInfo;
        szse_ReportFinished;
        szse_ReportSynchronization;
        szse_SzseBinary;
        szse_TradingSessionStatus ].

(* szse-bin/src/main/java/com/finproto/szse/bin/messages/ExecutionConfirm.java:481-535  factory of ExecutionConfirm (key type String): registrations of its static initialiser, in order *)
Definition szse_ExecutionConfirm_factory : list (key * string) :=
      [ (KStr (chars "010"), "szse.Extend200102");
        (KStr (chars "020"), "szse.Extend200202");
        (KStr (chars "030"), "szse.Extend200302");
        (KStr (chars "051"), "szse.Extend200502");
        (KStr (chars "052"), "szse.Extend200502");
        (KStr (chars "060"), "szse.Extend200602");
        (KStr (chars "061"), "szse.Extend200602");
        (KStr (chars "070"), "szse.Extend200702");
        (KStr (chars "150"), "szse.Extend201502");
        (KStr (chars "151"), "szse.Extend201502");
        (KStr (chars "152"), "szse.Extend201502");
        (KStr (chars "160"), "szse.Extend201602");
        (KStr (chars "170"), "szse.Extend201702");
        (KStr (chars "180"), "szse.Extend201802");
        (KStr (chars "181"), "szse.Extend201802");
        (KStr (chars "270"), "szse.Extend202702");
        (KStr (chars "271"), "szse.Extend202702");
        (KStr (chars "280"), "szse.Extend202802");
        (KStr (chars "281"), "szse.Extend202802");
        (KStr (chars "290"), "szse.Extend202902");
        (KStr (chars "291"), "szse.Extend202902");
        (KStr (chars "630"), "szse.Extend206302");
        (KStr (chars "350"), "szse.Extend203502");
        (KStr (chars "351"), "szse.Extend203502");
        (KStr (chars "370"), "szse.Extend203702");
        (KStr (chars "410"), "szse.Extend204102");
        (KStr (chars "417"), "szse.Extend204129");
        (KStr (chars "470"), "szse.Extend204702") ].

(* szse-bin/src/main/java/com/finproto/szse/bin/messages/ExecutionReport.java:421-466  factory of ExecutionReport (key type String): registrations of its static initialiser, in order *)
Definition szse_ExecutionReport_factory : list (key * string) :=
      [ (KStr (chars "010"), "szse.Extend200115");
        (KStr (chars "020"), "szse.Extend200215");
        (KStr (chars "030"), "szse.Extend200315");
        (KStr (chars "051"), "szse.Extend200515");
        (KStr (chars "052"), "szse.Extend200515");
        (KStr (chars "056"), "szse.Extend200515");
        (KStr (chars "057"), "szse.Extend200515");
        (KStr (chars "060"), "szse.Extend200615");
        (KStr (chars "061"), "szse.Extend200615");
        (KStr (chars "070"), "szse.Extend200715");
        (KStr (chars "630"), "szse.Extend206315");
        (KStr (chars "370"), "szse.Extend203715");
        (KStr (chars "410"), "szse.Extend204115");
        (KStr (chars "412"), "szse.Extend204115");
        (KStr (chars "413"), "szse.Extend204115");
        (KStr (chars "415"), "szse.Extend204115");
        (KStr (chars "416"), "szse.Extend204115");
        (KStr (chars "417"), "szse.Extend204130");
        (KStr (chars "470"), "szse.Extend204715") ].

(* szse-bin/src/main/java/com/finproto/szse/bin/messages/NewOrder.java:301-355  factory of NewOrder (key type String): registrations of its static initialiser, in order *)
Definition szse_NewOrder_factory : list (key * string) :=
      [ (KStr (chars "010"), "szse.Extend100101");
        (KStr (chars "020"), "szse.Extend100201");
        (KStr (chars "030"), "szse.Extend100301");
        (KStr (chars "051"), "szse.Extend100501");
        (KStr (chars "052"), "szse.Extend100501");
        (KStr (chars "060"), "szse.Extend100601");
        (KStr (chars "061"), "szse.Extend100601");
        (KStr (chars "070"), "szse.Extend100701");
        (KStr (chars "150"), "szse.Extend101501");
        (KStr (chars "151"), "szse.Extend101501");
        (KStr (chars "152"), "szse.Extend101501");
        (KStr (chars "160"), "szse.Extend101601");
        (KStr (chars "170"), "szse.Extend101701");
        (KStr (chars "180"), "szse.Extend101801");
        (KStr (chars "181"), "szse.Extend101801");
        (KStr (chars "270"), "szse.Extend102701");
        (KStr (chars "271"), "szse.Extend102701");
        (KStr (chars "280"), "szse.Extend102801");
        (KStr (chars "281"), "szse.Extend102801");
        (KStr (chars "290"), "szse.Extend102901");
        (KStr (chars "291"), "szse.Extend102901");
        (KStr (chars "630"), "szse.Extend106301");
        (KStr (chars "350"), "szse.Extend103501");
        (KStr (chars "351"), "szse.Extend103501");
        (KStr (chars "370"), "szse.Extend103701");
        (KStr (chars "410"), "szse.Extend104101");
        (KStr (chars "417"), "szse.Extend104128");
        (KStr (chars "470"), "szse.Extend104701") ].

(* szse-bin/src/main/java/com/finproto/szse/bin/messages/SzseBinary.java:115-218  factory of SzseBinary (key type Integer): registrations of its static initialiser, in order *)
Definition szse_SzseBinary_factory : list (key * string) :=
      [ (KInt 1, "szse.Logon");
        (KInt 2, "szse.Logout");
        (KInt 3, "szse.Heartbeat");
        (KInt 4, "szse.BusinessReject");
        (KInt 5, "szse.ReportSynchronization");
        (KInt 6, "szse.PlatformStateInfo");
        (KInt 7, "szse.ReportFinished");
        (KInt 9, "szse.PlatformPartition");
        (KInt 10, "szse.TradingSessionStatus");
        (KInt 100101, "szse.NewOrder");
        (KInt 100201, "szse.NewOrder");
        (KInt 100301, "szse.NewOrder");
        (KInt 100401, "szse.NewOrder");
        (KInt 100501, "szse.NewOrder");
        (KInt 100601, "szse.NewOrder");
        (KInt 100701, "szse.NewOrder");
        (KInt 101201, "szse.NewOrder");
        (KInt 101301, "szse.NewOrder");
        (KInt 101401, "szse.NewOrder");
        (KInt 101501, "szse.NewOrder");
        (KInt 101601, "szse.NewOrder");
        (KInt 101701, "szse.NewOrder");
        (KInt 101801, "szse.NewOrder");
        (KInt 101901, "szse.NewOrder");
        (KInt 102301, "szse.NewOrder");
        (KInt 102701, "szse.NewOrder");
        (KInt 102801, "szse.NewOrder");
        (KInt 102901, "szse.NewOrder");
        (KInt 103101, "szse.NewOrder");
        (KInt 106301, "szse.NewOrder");
        (KInt 103301, "szse.NewOrder");
        (KInt 103501, "szse.NewOrder");
        (KInt 103701, "szse.NewOrder");
        (KInt 104101, "szse.NewOrder");
        (KInt 104128, "szse.NewOrder");
        (KInt 104701, "szse.NewOrder");
        (KInt 200102, "szse.ExecutionConfirm");
        (KInt 200202, "szse.ExecutionConfirm");
        (KInt 200302, "szse.ExecutionConfirm");
        (KInt 200402, "szse.ExecutionConfirm");
        (KInt 200502, "szse.ExecutionConfirm");
        (KInt 200602, "szse.ExecutionConfirm");
        (KInt 200702, "szse.ExecutionConfirm");
        (KInt 201202, "szse.ExecutionConfirm");
        (KInt 201302, "szse.ExecutionConfirm");
        (KInt 201402, "szse.ExecutionConfirm");
        (KInt 201502, "szse.ExecutionConfirm");
        (KInt 201602, "szse.ExecutionConfirm");
        (KInt 201702, "szse.ExecutionConfirm");
        (KInt 201802, "szse.ExecutionConfirm");
        (KInt 201902, "szse.ExecutionConfirm");
        (KInt 202202, "szse.ExecutionConfirm");
        (KInt 202302, "szse.ExecutionConfirm");
        (KInt 202702, "szse.ExecutionConfirm");
        (KInt 202802, "szse.ExecutionConfirm");
        (KInt 202902, "szse.ExecutionConfirm");
        (KInt 203102, "szse.ExecutionConfirm");
        (KInt 206302, "szse.ExecutionConfirm");
        (KInt 203302, "szse.ExecutionConfirm");
        (KInt 203502, "szse.ExecutionConfirm");
        (KInt 203702, "szse.ExecutionConfirm");
        (KInt 204102, "szse.ExecutionConfirm");
        (KInt 204129, "szse.ExecutionConfirm");
        (KInt 204702, "szse.ExecutionConfirm");
        (KInt 200115, "szse.ExecutionReport");
        (KInt 200215, "szse.ExecutionReport");
        (KInt 200315, "szse.ExecutionReport");
        (KInt 200415, "szse.ExecutionReport");
        (KInt 200515, "szse.ExecutionReport");
        (KInt 200615, "szse.ExecutionReport");
        (KInt 200715, "szse.ExecutionReport");
        (KInt 206315, "szse.ExecutionReport");
        (KInt 203715, "szse.ExecutionReport");
        (KInt 204115, "szse.ExecutionReport");
        (KInt 204130, "szse.ExecutionReport");
        (KInt 190007, "szse.OrderCancelRequest");
        (KInt 290008, "szse.CancelReject") ].

Definition szse_factories : list (string * list (key * string)) :=
      [ ("szse.ExecutionConfirm", szse_ExecutionConfirm_factory);
        ("szse.ExecutionReport", szse_ExecutionReport_factory);
        ("szse.NewOrder", szse_NewOrder_factory);
        ("szse.SzseBinary", szse_SzseBinary_factory) ].
