(* GENERATED by tools/translate.py from /repo/bjse-bin/src/main/java: do not edit by hand.
   One definition per Java message class; each comment cites the file and the line ranges. *)
From Coq Require Import String ZArith List.
From Verif.Model Require Import JavaPrim Ast.
Import ListNotations.
Open Scope string_scope.

(* bjse-bin/src/main/java/com/finproto/bjse/trade/messages/AllegeQuote.java:11-494  class AllegeQuote; fields 12-39; encode 266-297; decode 300-330; hashCode 333-363; equals 366-402; toString 405-464; the rest: getters and setters *)
Definition bjse_AllegeQuote : class_def := {|
  c_name := "bjse.AllegeQuote";
  c_fields :=
      [ ("partitionNo", TInt);
        ("reportIndex", TLong);
        ("applId", TStr);
        ("reportingPbuid", TStr);
        ("submittingPbuid", TStr);
        ("securityId", TStr);
        ("securityIdsource", TStr);
        ("ownerType", TShort);
        ("clearingFirm", TStr);
        ("transactTime", TLong);
        ("userInfo", TStr);
        ("orderId", TStr);
        ("execId", TStr);
        ("clOrdId", TStr);
        ("accountId", TStr);
        ("quoteReqId", TStr);
        ("quoteId", TStr);
        ("quoteRespId", TStr);
        ("quoteType", TByte);
        ("bidPx", TLong);
        ("offerPx", TLong);
        ("bidSize", TLong);
        ("offerSize", TLong);
        ("privateQuote", TByte);
        ("validUntilTime", TLong);
        ("priceType", TByte);
        ("memo", TStr);
        ("applExtend", TCodec) ];
  c_enc :=
      [ EWrite 4 LE "partitionNo";
        EWrite 8 LE "reportIndex";
        EFix "applId" 3 32 false;
        EFix "reportingPbuid" 6 32 false;
        EFix "submittingPbuid" 6 32 false;
        EFix "securityId" 8 32 false;
        EFix "securityIdsource" 4 32 false;
        EWrite 2 LE "ownerType";
        EFix "clearingFirm" 2 32 false;
        EWrite 8 LE "transactTime";
        EFix "userInfo" 32 32 false;
        EFix "orderId" 16 32 false;
        EFix "execId" 16 32 false;
        EFix "clOrdId" 10 32 false;
        EFix "accountId" 10 32 false;
        EFix "quoteReqId" 10 32 false;
        EFix "quoteId" 10 32 false;
        EFix "quoteRespId" 10 32 false;
        EWrite 1 BE "quoteType";
        EWrite 8 LE "bidPx";
        EWrite 8 LE "offerPx";
        EWrite 8 LE "bidSize";
        EWrite 8 LE "offerSize";
        EWrite 1 BE "privateQuote";
        EWrite 8 LE "validUntilTime";
        EWrite 1 BE "priceType";
        EFix "memo" 120 32 false;
        EObjOpt "applExtend" ];
  c_dec :=
      [ DRead 4 LE "partitionNo";
        DRead 8 LE "reportIndex";
        DFix "applId" 3 32 false;
        DFix "reportingPbuid" 6 32 false;
        DFix "submittingPbuid" 6 32 false;
        DFix "securityId" 8 32 false;
        DFix "securityIdsource" 4 32 false;
        DRead 2 LE "ownerType";
        DFix "clearingFirm" 2 32 false;
        DRead 8 LE "transactTime";
        DFix "userInfo" 32 32 false;
        DFix "orderId" 16 32 false;
        DFix "execId" 16 32 false;
        DFix "clOrdId" 10 32 false;
        DFix "accountId" 10 32 false;
        DFix "quoteReqId" 10 32 false;
        DFix "quoteId" 10 32 false;
        DFix "quoteRespId" 10 32 false;
        DRead 1 BE "quoteType";
        DRead 8 LE "bidPx";
        DRead 8 LE "offerPx";
        DRead 8 LE "bidSize";
        DRead 8 LE "offerSize";
        DRead 1 BE "privateQuote";
        DRead 8 LE "validUntilTime";
        DRead 1 BE "priceType";
        DFix "memo" 120 32 false;
        DCreate "applExtend" "applId";
        DObj "applExtend" ];
  c_eq :=
      [ "partitionNo";
        "reportIndex";
        "applId";
        "reportingPbuid";
        "submittingPbuid";
        "securityId";
        "securityIdsource";
        "ownerType";
        "clearingFirm";
        "transactTime";
        "userInfo";
        "orderId";
        "execId";
        "clOrdId";
        "accountId";
        "quoteReqId";
        "quoteId";
        "quoteRespId";
        "quoteType";
        "bidPx";
        "offerPx";
        "bidSize";
        "offerSize";
        "privateQuote";
        "validUntilTime";
        "priceType";
        "memo";
        "applExtend" ];
  c_hash := 
      HashFields [ "partitionNo";
        "reportIndex";
        "applId";
        "reportingPbuid";
        "submittingPbuid";
        "securityId";
        "securityIdsource";
        "ownerType";
        "clearingFirm";
        "transactTime";
        "userInfo";
        "orderId";
        "execId";
        "clOrdId";
        "accountId";
        "quoteReqId";
        "quoteId";
        "quoteRespId";
        "quoteType";
        "bidPx";
        "offerPx";
        "bidSize";
        "offerSize";
        "privateQuote";
        "validUntilTime";
        "priceType";
        "memo";
        "applExtend" ];
  c_tag := "AllegeQuote";
  c_str :=
      [ ("partitionNo", "partitionNo");
        ("reportIndex", "reportIndex");
        ("applId", "applId");
        ("reportingPbuid", "reportingPbuid");
        ("submittingPbuid", "submittingPbuid");
        ("securityId", "securityId");
        ("securityIdsource", "securityIdsource");
        ("ownerType", "ownerType");
        ("clearingFirm", "clearingFirm");
        ("transactTime", "transactTime");
        ("userInfo", "userInfo");
        ("orderId", "orderId");
        ("execId", "execId");
        ("clOrdId", "clOrdId");
        ("accountId", "accountId");
        ("quoteReqId", "quoteReqId");
        ("quoteId", "quoteId");
        ("quoteRespId", "quoteRespId");
        ("quoteType", "quoteType");
        ("bidPx", "bidPx");
        ("offerPx", "offerPx");
        ("bidSize", "bidSize");
        ("offerSize", "offerSize");
        ("privateQuote", "privateQuote");
        ("validUntilTime", "validUntilTime");
        ("priceType", "priceType");
        ("memo", "memo");
        ("applExtend", "applExtend") ];
  c_get :=
      [ ("getPartitionNo", "partitionNo");
        ("getReportIndex", "reportIndex");
        ("getApplId", "applId");
        ("getReportingPbuid", "reportingPbuid");
        ("getSubmittingPbuid", "submittingPbuid");
        ("getSecurityId", "securityId");
        ("getSecurityIdsource", "securityIdsource");
        ("getOwnerType", "ownerType");
        ("getClearingFirm", "clearingFirm");
        ("getTransactTime", "transactTime");
        ("getUserInfo", "userInfo");
        ("getOrderId", "orderId");
        ("getExecId", "execId");
        ("getClOrdId", "clOrdId");
        ("getAccountId", "accountId");
        ("getQuoteReqId", "quoteReqId");
        ("getQuoteId", "quoteId");
        ("getQuoteRespId", "quoteRespId");
        ("getQuoteType", "quoteType");
        ("getBidPx", "bidPx");
        ("getOfferPx", "offerPx");
        ("getBidSize", "bidSize");
        ("getOfferSize", "offerSize");
        ("getPrivateQuote", "privateQuote");
        ("getValidUntilTime", "validUntilTime");
        ("getPriceType", "priceType");
        ("getMemo", "memo");
        ("getApplExtend", "applExtend") ];
  c_set :=
      [ ("setPartitionNo", "partitionNo");
        ("setReportIndex", "reportIndex");
        ("setApplId", "applId");
        ("setReportingPbuid", "reportingPbuid");
        ("setSubmittingPbuid", "submittingPbuid");
        ("setSecurityId", "securityId");
        ("setSecurityIdsource", "securityIdsource");
        ("setOwnerType", "ownerType");
        ("setClearingFirm", "clearingFirm");
        ("setTransactTime", "transactTime");
        ("setUserInfo", "userInfo");
        ("setOrderId", "orderId");
        ("setExecId", "execId");
        ("setClOrdId", "clOrdId");
        ("setAccountId", "accountId");
        ("setQuoteReqId", "quoteReqId");
        ("setQuoteId", "quoteId");
        ("setQuoteRespId", "quoteRespId");
        ("setQuoteType", "quoteType");
        ("setBidPx", "bidPx");
        ("setOfferPx", "offerPx");
        ("setBidSize", "bidSize");
        ("setOfferSize", "offerSize");
        ("setPrivateQuote", "privateQuote");
        ("setValidUntilTime", "validUntilTime");
        ("setPriceType", "priceType");
        ("setMemo", "memo");
        ("setApplExtend", "applExtend") ] |}.

(* bjse-bin/src/main/java/com/finproto/bjse/trade/messages/AllegeQuoteExtend070.java:8-67  class AllegeQuoteExtend070; fields 9-10; encode 29-32; decode 35-38; hashCode 41-43; equals 46-56; toString 59-66; the rest: getters and setters *)
Definition bjse_AllegeQuoteExtend070 : class_def := {|
  c_name := "bjse.AllegeQuoteExtend070";
  c_fields :=
      [ ("cashMargin", TStr);
        ("counterPartyPbuid", TStr) ];
  c_enc :=
      [ EFix "cashMargin" 1 32 false;
        EFix "counterPartyPbuid" 6 32 false ];
  c_dec :=
      [ DFix "cashMargin" 1 32 false;
        DFix "counterPartyPbuid" 6 32 false ];
  c_eq :=
      [ "cashMargin";
        "counterPartyPbuid" ];
  c_hash := 
      HashFields [ "cashMargin";
        "counterPartyPbuid" ];
  c_tag := "AllegeQuoteExtend070";
  c_str :=
      [ ("cashMargin", "cashMargin");
        ("counterPartyPbuid", "counterPartyPbuid") ];
  c_get :=
      [ ("getCashMargin", "cashMargin");
        ("getCounterPartyPbuid", "counterPartyPbuid") ];
  c_set :=
      [ ("setCashMargin", "cashMargin");
        ("setCounterPartyPbuid", "counterPartyPbuid") ] |}.

(* bjse-bin/src/main/java/com/finproto/bjse/trade/messages/AllegeQuoteResponse.java:8-399  class AllegeQuoteResponse; fields 9-32; encode 227-252; decode 255-280; hashCode 283-309; equals 312-344; toString 347-398; the rest: getters and setters *)
Definition bjse_AllegeQuoteResponse : class_def := {|
  c_name := "bjse.AllegeQuoteResponse";
  c_fields :=
      [ ("partitionNo", TInt);
        ("reportIndex", TLong);
        ("applId", TStr);
        ("reportingPbuid", TStr);
        ("submittingPbuid", TStr);
        ("securityId", TStr);
        ("securityIdsource", TStr);
        ("ownerType", TShort);
        ("clearingFirm", TStr);
        ("transactTime", TLong);
        ("userInfo", TStr);
        ("orderId", TStr);
        ("execId", TStr);
        ("clOrdId", TStr);
        ("accountId", TStr);
        ("quoteId", TStr);
        ("quoteRespId", TStr);
        ("quoteRespType", TByte);
        ("privateQuote", TByte);
        ("orderQty", TLong);
        ("price", TLong);
        ("validUntilTime", TLong);
        ("quoteType", TByte);
        ("priceType", TByte) ];
  c_enc :=
      [ EWrite 4 LE "partitionNo";
        EWrite 8 LE "reportIndex";
        EFix "applId" 3 32 false;
        EFix "reportingPbuid" 6 32 false;
        EFix "submittingPbuid" 6 32 false;
        EFix "securityId" 8 32 false;
        EFix "securityIdsource" 4 32 false;
        EWrite 2 LE "ownerType";
        EFix "clearingFirm" 2 32 false;
        EWrite 8 LE "transactTime";
        EFix "userInfo" 32 32 false;
        EFix "orderId" 16 32 false;
        EFix "execId" 16 32 false;
        EFix "clOrdId" 10 32 false;
        EFix "accountId" 10 32 false;
        EFix "quoteId" 10 32 false;
        EFix "quoteRespId" 10 32 false;
        EWrite 1 BE "quoteRespType";
        EWrite 1 BE "privateQuote";
        EWrite 8 LE "orderQty";
        EWrite 8 LE "price";
        EWrite 8 LE "validUntilTime";
        EWrite 1 BE "quoteType";
        EWrite 1 BE "priceType" ];
  c_dec :=
      [ DRead 4 LE "partitionNo";
        DRead 8 LE "reportIndex";
        DFix "applId" 3 32 false;
        DFix "reportingPbuid" 6 32 false;
        DFix "submittingPbuid" 6 32 false;
        DFix "securityId" 8 32 false;
        DFix "securityIdsource" 4 32 false;
        DRead 2 LE "ownerType";
        DFix "clearingFirm" 2 32 false;
        DRead 8 LE "transactTime";
        DFix "userInfo" 32 32 false;
        DFix "orderId" 16 32 false;
        DFix "execId" 16 32 false;
        DFix "clOrdId" 10 32 false;
        DFix "accountId" 10 32 false;
        DFix "quoteId" 10 32 false;
        DFix "quoteRespId" 10 32 false;
        DRead 1 BE "quoteRespType";
        DRead 1 BE "privateQuote";
        DRead 8 LE "orderQty";
        DRead 8 LE "price";
        DRead 8 LE "validUntilTime";
        DRead 1 BE "quoteType";
        DRead 1 BE "priceType" ];
  c_eq :=
      [ "partitionNo";
        "reportIndex";
        "applId";
        "reportingPbuid";
        "submittingPbuid";
        "securityId";
        "securityIdsource";
        "ownerType";
        "clearingFirm";
        "transactTime";
        "userInfo";
        "orderId";
        "execId";
        "clOrdId";
        "accountId";
        "quoteId";
        "quoteRespId";
        "quoteRespType";
        "privateQuote";
        "orderQty";
        "price";
        "validUntilTime";
        "quoteType";
        "priceType" ];
  c_hash := 
      HashFields [ "partitionNo";
        "reportIndex";
        "applId";
        "reportingPbuid";
        "submittingPbuid";
        "securityId";
        "securityIdsource";
        "ownerType";
        "clearingFirm";
        "transactTime";
        "userInfo";
        "orderId";
        "execId";
        "clOrdId";
        "accountId";
        "quoteId";
        "quoteRespId";
        "quoteRespType";
        "privateQuote";
        "orderQty";
        "price";
        "validUntilTime";
        "quoteType";
        "priceType" ];
  c_tag := "AllegeQuoteResponse";
  c_str :=
      [ ("partitionNo", "partitionNo");
        ("reportIndex", "reportIndex");
        ("applId", "applId");
        ("reportingPbuid", "reportingPbuid");
        ("submittingPbuid", "submittingPbuid");
        ("securityId", "securityId");
        ("securityIdsource", "securityIdsource");
        ("ownerType", "ownerType");
        ("clearingFirm", "clearingFirm");
        ("transactTime", "transactTime");
        ("userInfo", "userInfo");
        ("orderId", "orderId");
        ("execId", "execId");
        ("clOrdId", "clOrdId");
        ("accountId", "accountId");
        ("quoteId", "quoteId");
        ("quoteRespId", "quoteRespId");
        ("quoteRespType", "quoteRespType");
        ("privateQuote", "privateQuote");
        ("orderQty", "orderQty");
        ("price", "price");
        ("validUntilTime", "validUntilTime");
        ("quoteType", "quoteType");
        ("priceType", "priceType") ];
  c_get :=
      [ ("getPartitionNo", "partitionNo");
        ("getReportIndex", "reportIndex");
        ("getApplId", "applId");
        ("getReportingPbuid", "reportingPbuid");
        ("getSubmittingPbuid", "submittingPbuid");
        ("getSecurityId", "securityId");
        ("getSecurityIdsource", "securityIdsource");
        ("getOwnerType", "ownerType");
        ("getClearingFirm", "clearingFirm");
        ("getTransactTime", "transactTime");
        ("getUserInfo", "userInfo");
        ("getOrderId", "orderId");
        ("getExecId", "execId");
        ("getClOrdId", "clOrdId");
        ("getAccountId", "accountId");
        ("getQuoteId", "quoteId");
        ("getQuoteRespId", "quoteRespId");
        ("getQuoteRespType", "quoteRespType");
        ("getPrivateQuote", "privateQuote");
        ("getOrderQty", "orderQty");
        ("getPrice", "price");
        ("getValidUntilTime", "validUntilTime");
        ("getQuoteType", "quoteType");
        ("getPriceType", "priceType") ];
  c_set :=
      [ ("setPartitionNo", "partitionNo");
        ("setReportIndex", "reportIndex");
        ("setApplId", "applId");
        ("setReportingPbuid", "reportingPbuid");
        ("setSubmittingPbuid", "submittingPbuid");
        ("setSecurityId", "securityId");
        ("setSecurityIdsource", "securityIdsource");
        ("setOwnerType", "ownerType");
        ("setClearingFirm", "clearingFirm");
        ("setTransactTime", "transactTime");
        ("setUserInfo", "userInfo");
        ("setOrderId", "orderId");
        ("setExecId", "execId");
        ("setClOrdId", "clOrdId");
        ("setAccountId", "accountId");
        ("setQuoteId", "quoteId");
        ("setQuoteRespId", "quoteRespId");
        ("setQuoteRespType", "quoteRespType");
        ("setPrivateQuote", "privateQuote");
        ("setOrderQty", "orderQty");
        ("setPrice", "price");
        ("setValidUntilTime", "validUntilTime");
        ("setQuoteType", "quoteType");
        ("setPriceType", "priceType") ] |}.

(* bjse-bin/src/main/java/com/finproto/bjse/trade/messages/BjseBinary.java:11-140  class BjseBinary; fields 12-15; encode 50-57; decode 60-66; hashCode 69-71; equals 74-86; toString 89-100; the rest: getters and setters *)
Definition bjse_BjseBinary : class_def := {|
  c_name := "bjse.BjseBinary";
  c_fields :=
      [ ("msgType", TInt);
        ("bodyLength", TInt);
        ("body", TCodec);
        ("checksum", TInt) ];
  c_enc :=
      [ EWrite 4 LE "msgType";
        EWrite 4 LE "bodyLength";
        EObjOpt "body";
        EWrite 4 LE "checksum" ];
  c_dec :=
      [ DRead 4 LE "msgType";
        DRead 4 LE "bodyLength";
        DCreate "body" "msgType";
        DObj "body";
        DRead 4 LE "checksum" ];
  c_eq :=
      [ "msgType";
        "bodyLength";
        "body";
        "checksum" ];
  c_hash := 
      HashFields [ "msgType";
        "bodyLength";
        "body";
        "checksum" ];
  c_tag := "BjseBinary";
  c_str :=
      [ ("msgType", "msgType");
        ("bodyLength", "bodyLength");
        ("body", "body");
        ("checksum", "checksum") ];
  c_get :=
      [ ("getMsgType", "msgType");
        ("getBodyLength", "bodyLength");
        ("getBody", "body");
        ("getChecksum", "checksum") ];
  c_set :=
      [ ("setMsgType", "msgType");
        ("setBodyLength", "bodyLength");
        ("setBody", "body");
        ("setChecksum", "checksum") ] |}.

(* bjse-bin/src/main/java/com/finproto/bjse/trade/messages/BusinessReject.java:8-189  class BusinessReject; fields 9-18; encode 101-112; decode 115-126; hashCode 129-141; equals 144-162; toString 165-188; the rest: getters and setters *)
Definition bjse_BusinessReject : class_def := {|
  c_name := "bjse.BusinessReject";
  c_fields :=
      [ ("applId", TStr);
        ("transactTime", TLong);
        ("submittingPbuid", TStr);
        ("securityId", TStr);
        ("securityIdsource", TStr);
        ("refSeqNum", TLong);
        ("refMsgType", TInt);
        ("businessRejectRefId", TStr);
        ("businessRejectReason", TShort);
        ("businessRejectText", TStr) ];
  c_enc :=
      [ EFix "applId" 3 32 false;
        EWrite 8 LE "transactTime";
        EFix "submittingPbuid" 6 32 false;
        EFix "securityId" 8 32 false;
        EFix "securityIdsource" 4 32 false;
        EWrite 8 LE "refSeqNum";
        EWrite 4 LE "refMsgType";
        EFix "businessRejectRefId" 10 32 false;
        EWrite 2 LE "businessRejectReason";
        EFix "businessRejectText" 50 32 false ];
  c_dec :=
      [ DFix "applId" 3 32 false;
        DRead 8 LE "transactTime";
        DFix "submittingPbuid" 6 32 false;
        DFix "securityId" 8 32 false;
        DFix "securityIdsource" 4 32 false;
        DRead 8 LE "refSeqNum";
        DRead 4 LE "refMsgType";
        DFix "businessRejectRefId" 10 32 false;
        DRead 2 LE "businessRejectReason";
        DFix "businessRejectText" 50 32 false ];
  c_eq :=
      [ "applId";
        "transactTime";
        "submittingPbuid";
        "securityId";
        "securityIdsource";
        "refSeqNum";
        "refMsgType";
        "businessRejectRefId";
        "businessRejectReason";
        "businessRejectText" ];
  c_hash := 
      HashFields [ "applId";
        "transactTime";
        "submittingPbuid";
        "securityId";
        "securityIdsource";
        "refSeqNum";
        "refMsgType";
        "businessRejectRefId";
        "businessRejectReason";
        "businessRejectText" ];
  c_tag := "BusinessReject";
  c_str :=
      [ ("applId", "applId");
        ("transactTime", "transactTime");
        ("submittingPbuid", "submittingPbuid");
        ("securityId", "securityId");
        ("securityIdsource", "securityIdsource");
        ("refSeqNum", "refSeqNum");
        ("refMsgType", "refMsgType");
        ("businessRejectRefId", "businessRejectRefId");
        ("businessRejectReason", "businessRejectReason");
        ("businessRejectText", "businessRejectText") ];
  c_get :=
      [ ("getApplId", "applId");
        ("getTransactTime", "transactTime");
        ("getSubmittingPbuid", "submittingPbuid");
        ("getSecurityId", "securityId");
        ("getSecurityIdsource", "securityIdsource");
        ("getRefSeqNum", "refSeqNum");
        ("getRefMsgType", "refMsgType");
        ("getBusinessRejectRefId", "businessRejectRefId");
        ("getBusinessRejectReason", "businessRejectReason");
        ("getBusinessRejectText", "businessRejectText") ];
  c_set :=
      [ ("setApplId", "applId");
        ("setTransactTime", "transactTime");
        ("setSubmittingPbuid", "submittingPbuid");
        ("setSecurityId", "securityId");
        ("setSecurityIdsource", "securityIdsource");
        ("setRefSeqNum", "refSeqNum");
        ("setRefMsgType", "refMsgType");
        ("setBusinessRejectRefId", "businessRejectRefId");
        ("setBusinessRejectReason", "businessRejectReason");
        ("setBusinessRejectText", "businessRejectText") ] |}.

(* bjse-bin/src/main/java/com/finproto/bjse/trade/messages/CancelReject.java:8-324  class CancelReject; fields 9-27; encode 182-202; decode 205-225; hashCode 228-249; equals 252-279; toString 282-323; the rest: getters and setters *)
Definition bjse_CancelReject : class_def := {|
  c_name := "bjse.CancelReject";
  c_fields :=
      [ ("partitionNo", TInt);
        ("reportIndex", TLong);
        ("applId", TStr);
        ("reportingPbuid", TStr);
        ("submittingPbuid", TStr);
        ("securityId", TStr);
        ("securityIdsource", TStr);
        ("ownerType", TShort);
        ("clearingFirm", TStr);
        ("transactTime", TLong);
        ("userInfo", TStr);
        ("clOrdId", TStr);
        ("origClOrdId", TStr);
        ("accountId", TStr);
        ("branchId", TStr);
        ("ordStatus", TStr);
        ("cxlRejReason", TShort);
        ("rejectText", TStr);
        ("orderId", TStr) ];
  c_enc :=
      [ EWrite 4 LE "partitionNo";
        EWrite 8 LE "reportIndex";
        EFix "applId" 3 32 false;
        EFix "reportingPbuid" 6 32 false;
        EFix "submittingPbuid" 6 32 false;
        EFix "securityId" 8 32 false;
        EFix "securityIdsource" 4 32 false;
        EWrite 2 LE "ownerType";
        EFix "clearingFirm" 2 32 false;
        EWrite 8 LE "transactTime";
        EFix "userInfo" 32 32 false;
        EFix "clOrdId" 10 32 false;
        EFix "origClOrdId" 10 32 false;
        EFix "accountId" 10 32 false;
        EFix "branchId" 2 32 false;
        EFix "ordStatus" 1 32 false;
        EWrite 2 LE "cxlRejReason";
        EFix "rejectText" 16 32 false;
        EFix "orderId" 16 32 false ];
  c_dec :=
      [ DRead 4 LE "partitionNo";
        DRead 8 LE "reportIndex";
        DFix "applId" 3 32 false;
        DFix "reportingPbuid" 6 32 false;
        DFix "submittingPbuid" 6 32 false;
        DFix "securityId" 8 32 false;
        DFix "securityIdsource" 4 32 false;
        DRead 2 LE "ownerType";
        DFix "clearingFirm" 2 32 false;
        DRead 8 LE "transactTime";
        DFix "userInfo" 32 32 false;
        DFix "clOrdId" 10 32 false;
        DFix "origClOrdId" 10 32 false;
        DFix "accountId" 10 32 false;
        DFix "branchId" 2 32 false;
        DFix "ordStatus" 1 32 false;
        DRead 2 LE "cxlRejReason";
        DFix "rejectText" 16 32 false;
        DFix "orderId" 16 32 false ];
  c_eq :=
      [ "partitionNo";
        "reportIndex";
        "applId";
        "reportingPbuid";
        "submittingPbuid";
        "securityId";
        "securityIdsource";
        "ownerType";
        "clearingFirm";
        "transactTime";
        "userInfo";
        "clOrdId";
        "origClOrdId";
        "accountId";
        "branchId";
        "ordStatus";
        "cxlRejReason";
        "rejectText";
        "orderId" ];
  c_hash := 
      HashFields [ "partitionNo";
        "reportIndex";
        "applId";
        "reportingPbuid";
        "submittingPbuid";
        "securityId";
        "securityIdsource";
        "ownerType";
        "clearingFirm";
        "transactTime";
        "userInfo";
        "clOrdId";
        "origClOrdId";
        "accountId";
        "branchId";
        "ordStatus";
        "cxlRejReason";
        "rejectText";
        "orderId" ];
  c_tag := "CancelReject";
  c_str :=
      [ ("partitionNo", "partitionNo");
        ("reportIndex", "reportIndex");
        ("applId", "applId");
        ("reportingPbuid", "reportingPbuid");
        ("submittingPbuid", "submittingPbuid");
        ("securityId", "securityId");
        ("securityIdsource", "securityIdsource");
        ("ownerType", "ownerType");
        ("clearingFirm", "clearingFirm");
        ("transactTime", "transactTime");
        ("userInfo", "userInfo");
        ("clOrdId", "clOrdId");
        ("origClOrdId", "origClOrdId");
        ("accountId", "accountId");
        ("branchId", "branchId");
        ("ordStatus", "ordStatus");
        ("cxlRejReason", "cxlRejReason");
        ("rejectText", "rejectText");
        ("orderId", "orderId") ];
  c_get :=
      [ ("getPartitionNo", "partitionNo");
        ("getReportIndex", "reportIndex");
        ("getApplId", "applId");
        ("getReportingPbuid", "reportingPbuid");
        ("getSubmittingPbuid", "submittingPbuid");
        ("getSecurityId", "securityId");
        ("getSecurityIdsource", "securityIdsource");
        ("getOwnerType", "ownerType");
        ("getClearingFirm", "clearingFirm");
        ("getTransactTime", "transactTime");
        ("getUserInfo", "userInfo");
        ("getClOrdId", "clOrdId");
        ("getOrigClOrdId", "origClOrdId");
        ("getAccountId", "accountId");
        ("getBranchId", "branchId");
        ("getOrdStatus", "ordStatus");
        ("getCxlRejReason", "cxlRejReason");
        ("getRejectText", "rejectText");
        ("getOrderId", "orderId") ];
  c_set :=
      [ ("setPartitionNo", "partitionNo");
        ("setReportIndex", "reportIndex");
        ("setApplId", "applId");
        ("setReportingPbuid", "reportingPbuid");
        ("setSubmittingPbuid", "submittingPbuid");
        ("setSecurityId", "securityId");
        ("setSecurityIdsource", "securityIdsource");
        ("setOwnerType", "ownerType");
        ("setClearingFirm", "clearingFirm");
        ("setTransactTime", "transactTime");
        ("setUserInfo", "userInfo");
        ("setClOrdId", "clOrdId");
        ("setOrigClOrdId", "origClOrdId");
        ("setAccountId", "accountId");
        ("setBranchId", "branchId");
        ("setOrdStatus", "ordStatus");
        ("setCxlRejReason", "cxlRejReason");
        ("setRejectText", "rejectText");
        ("setOrderId", "orderId") ] |}.

(* bjse-bin/src/main/java/com/finproto/bjse/trade/messages/ConfirmExtend010.java:8-109  class ConfirmExtend010; fields 9-13; encode 56-62; decode 65-71; hashCode 74-76; equals 79-92; toString 95-108; the rest: getters and setters *)
Definition bjse_ConfirmExtend010 : class_def := {|
  c_name := "bjse.ConfirmExtend010";
  c_fields :=
      [ ("stopPx", TLong);
        ("minQty", TLong);
        ("maxPriceLevels", TShort);
        ("timeInForce", TStr);
        ("cashMargin", TStr) ];
  c_enc :=
      [ EWrite 8 LE "stopPx";
        EWrite 8 LE "minQty";
        EWrite 2 LE "maxPriceLevels";
        EFix "timeInForce" 1 32 false;
        EFix "cashMargin" 1 32 false ];
  c_dec :=
      [ DRead 8 LE "stopPx";
        DRead 8 LE "minQty";
        DRead 2 LE "maxPriceLevels";
        DFix "timeInForce" 1 32 false;
        DFix "cashMargin" 1 32 false ];
  c_eq :=
      [ "stopPx";
        "minQty";
        "maxPriceLevels";
        "timeInForce";
        "cashMargin" ];
  c_hash := 
      HashFields [ "stopPx";
        "minQty";
        "maxPriceLevels";
        "timeInForce";
        "cashMargin" ];
  c_tag := "ConfirmExtend010";
  c_str :=
      [ ("stopPx", "stopPx");
        ("minQty", "minQty");
        ("maxPriceLevels", "maxPriceLevels");
        ("timeInForce", "timeInForce");
        ("cashMargin", "cashMargin") ];
  c_get :=
      [ ("getStopPx", "stopPx");
        ("getMinQty", "minQty");
        ("getMaxPriceLevels", "maxPriceLevels");
        ("getTimeInForce", "timeInForce");
        ("getCashMargin", "cashMargin") ];
  c_set :=
      [ ("setStopPx", "stopPx");
        ("setMinQty", "minQty");
        ("setMaxPriceLevels", "maxPriceLevels");
        ("setTimeInForce", "timeInForce");
        ("setCashMargin", "cashMargin") ] |}.

(* bjse-bin/src/main/java/com/finproto/bjse/trade/messages/ConfirmExtend040.java:8-109  class ConfirmExtend040; fields 9-13; encode 56-62; decode 65-71; hashCode 74-76; equals 79-92; toString 95-108; the rest: getters and setters *)
Definition bjse_ConfirmExtend040 : class_def := {|
  c_name := "bjse.ConfirmExtend040";
  c_fields :=
      [ ("stopPx", TLong);
        ("minQty", TLong);
        ("maxPriceLevels", TShort);
        ("timeInForce", TStr);
        ("cashMargin", TStr) ];
  c_enc :=
      [ EWrite 8 LE "stopPx";
        EWrite 8 LE "minQty";
        EWrite 2 LE "maxPriceLevels";
        EFix "timeInForce" 1 32 false;
        EFix "cashMargin" 1 32 false ];
  c_dec :=
      [ DRead 8 LE "stopPx";
        DRead 8 LE "minQty";
        DRead 2 LE "maxPriceLevels";
        DFix "timeInForce" 1 32 false;
        DFix "cashMargin" 1 32 false ];
  c_eq :=
      [ "stopPx";
        "minQty";
        "maxPriceLevels";
        "timeInForce";
        "cashMargin" ];
  c_hash := 
      HashFields [ "stopPx";
        "minQty";
        "maxPriceLevels";
        "timeInForce";
        "cashMargin" ];
  c_tag := "ConfirmExtend040";
  c_str :=
      [ ("stopPx", "stopPx");
        ("minQty", "minQty");
        ("maxPriceLevels", "maxPriceLevels");
        ("timeInForce", "timeInForce");
        ("cashMargin", "cashMargin") ];
  c_get :=
      [ ("getStopPx", "stopPx");
        ("getMinQty", "minQty");
        ("getMaxPriceLevels", "maxPriceLevels");
        ("getTimeInForce", "timeInForce");
        ("getCashMargin", "cashMargin") ];
  c_set :=
      [ ("setStopPx", "stopPx");
        ("setMinQty", "minQty");
        ("setMaxPriceLevels", "maxPriceLevels");
        ("setTimeInForce", "timeInForce");
        ("setCashMargin", "cashMargin") ] |}.

(* bjse-bin/src/main/java/com/finproto/bjse/trade/messages/ConfirmExtend041.java:7-35  class ConfirmExtend041; fields none; encode 10-10; decode 13-13; hashCode 16-18; equals 21-29; toString 32-34; the rest: getters and setters *)
Definition bjse_ConfirmExtend041 : class_def := {|
  c_name := "bjse.ConfirmExtend041";
  c_fields :=
      [];
  c_enc :=
      [];
  c_dec :=
      [];
  c_eq :=
      [];
  c_hash := HashSelf;
  c_tag := "ConfirmExtend041";
  c_str :=
      [];
  c_get :=
      [];
  c_set :=
      [] |}.

(* bjse-bin/src/main/java/com/finproto/bjse/trade/messages/ConfirmExtend042.java:7-35  class ConfirmExtend042; fields none; encode 10-10; decode 13-13; hashCode 16-18; equals 21-29; toString 32-34; the rest: getters and setters *)
Definition bjse_ConfirmExtend042 : class_def := {|
  c_name := "bjse.ConfirmExtend042";
  c_fields :=
      [];
  c_enc :=
      [];
  c_dec :=
      [];
  c_eq :=
      [];
  c_hash := HashSelf;
  c_tag := "ConfirmExtend042";
  c_str :=
      [];
  c_get :=
      [];
  c_set :=
      [] |}.

(* bjse-bin/src/main/java/com/finproto/bjse/trade/messages/ConfirmExtend043.java:7-35  class ConfirmExtend043; fields none; encode 10-10; decode 13-13; hashCode 16-18; equals 21-29; toString 32-34; the rest: getters and setters *)
Definition bjse_ConfirmExtend043 : class_def := {|
  c_name := "bjse.ConfirmExtend043";
  c_fields :=
      [];
  c_enc :=
      [];
  c_dec :=
      [];
  c_eq :=
      [];
  c_hash := HashSelf;
  c_tag := "ConfirmExtend043";
  c_str :=
      [];
  c_get :=
      [];
  c_set :=
      [] |}.

(* bjse-bin/src/main/java/com/finproto/bjse/trade/messages/ConfirmExtend044.java:7-35  class ConfirmExtend044; fields none; encode 10-10; decode 13-13; hashCode 16-18; equals 21-29; toString 32-34; the rest: getters and setters *)
Definition bjse_ConfirmExtend044 : class_def := {|
  c_name := "bjse.ConfirmExtend044";
  c_fields :=
      [];
  c_enc :=
      [];
  c_dec :=
      [];
  c_eq :=
      [];
  c_hash := HashSelf;
  c_tag := "ConfirmExtend044";
  c_str :=
      [];
  c_get :=
      [];
  c_set :=
      [] |}.

(* bjse-bin/src/main/java/com/finproto/bjse/trade/messages/ConfirmExtend045.java:7-35  class ConfirmExtend045; fields none; encode 10-10; decode 13-13; hashCode 16-18; equals 21-29; toString 32-34; the rest: getters and setters *)
Definition bjse_ConfirmExtend045 : class_def := {|
  c_name := "bjse.ConfirmExtend045";
  c_fields :=
      [];
  c_enc :=
      [];
  c_dec :=
      [];
  c_eq :=
      [];
  c_hash := HashSelf;
  c_tag := "ConfirmExtend045";
  c_str :=
      [];
  c_get :=
      [];
  c_set :=
      [] |}.

(* bjse-bin/src/main/java/com/finproto/bjse/trade/messages/ConfirmExtend050.java:8-81  class ConfirmExtend050; fields 9-11; encode 38-42; decode 45-49; hashCode 52-54; equals 57-68; toString 71-80; the rest: getters and setters *)
Definition bjse_ConfirmExtend050 : class_def := {|
  c_name := "bjse.ConfirmExtend050";
  c_fields :=
      [ ("expirationDays", TShort);
        ("expirationType", TByte);
        ("shareProperty", TStr) ];
  c_enc :=
      [ EWrite 2 LE "expirationDays";
        EWrite 1 BE "expirationType";
        EFix "shareProperty" 2 32 false ];
  c_dec :=
      [ DRead 2 LE "expirationDays";
        DRead 1 BE "expirationType";
        DFix "shareProperty" 2 32 false ];
  c_eq :=
      [ "expirationDays";
        "expirationType";
        "shareProperty" ];
  c_hash := 
      HashFields [ "expirationDays";
        "expirationType";
        "shareProperty" ];
  c_tag := "ConfirmExtend050";
  c_str :=
      [ ("expirationDays", "expirationDays");
        ("expirationType", "expirationType");
        ("shareProperty", "shareProperty") ];
  c_get :=
      [ ("getExpirationDays", "expirationDays");
        ("getExpirationType", "expirationType");
        ("getShareProperty", "shareProperty") ];
  c_set :=
      [ ("setExpirationDays", "expirationDays");
        ("setExpirationType", "expirationType");
        ("setShareProperty", "shareProperty") ] |}.

(* bjse-bin/src/main/java/com/finproto/bjse/trade/messages/ExecutionConfirm.java:11-501  class ExecutionConfirm; fields 12-39; encode 266-297; decode 300-330; hashCode 333-363; equals 366-402; toString 405-464; the rest: getters and setters *)
Definition bjse_ExecutionConfirm : class_def := {|
  c_name := "bjse.ExecutionConfirm";
  c_fields :=
      [ ("partitionNo", TInt);
        ("reportIndex", TLong);
        ("applId", TStr);
        ("reportingPbuid", TStr);
        ("submittingPbuid", TStr);
        ("securityId", TStr);
        ("securityIdsource", TStr);
        ("ownerType", TShort);
        ("clearingFirm", TStr);
        ("transactTime", TLong);
        ("userInfo", TStr);
        ("orderId", TStr);
        ("clOrdId", TStr);
        ("origClOrdId", TStr);
        ("execId", TStr);
        ("execType", TStr);
        ("ordStatus", TStr);
        ("ordRejReason", TShort);
        ("leavesQty", TLong);
        ("cumQty", TLong);
        ("side", TStr);
        ("ordType", TStr);
        ("orderQty", TLong);
        ("price", TLong);
        ("accountId", TStr);
        ("branchId", TStr);
        ("orderRestrictions", TStr);
        ("applExtend", TCodec) ];
  c_enc :=
      [ EWrite 4 LE "partitionNo";
        EWrite 8 LE "reportIndex";
        EFix "applId" 3 32 false;
        EFix "reportingPbuid" 6 32 false;
        EFix "submittingPbuid" 6 32 false;
        EFix "securityId" 8 32 false;
        EFix "securityIdsource" 4 32 false;
        EWrite 2 LE "ownerType";
        EFix "clearingFirm" 2 32 false;
        EWrite 8 LE "transactTime";
        EFix "userInfo" 32 32 false;
        EFix "orderId" 16 32 false;
        EFix "clOrdId" 10 32 false;
        EFix "origClOrdId" 10 32 false;
        EFix "execId" 16 32 false;
        EFix "execType" 1 32 false;
        EFix "ordStatus" 1 32 false;
        EWrite 2 LE "ordRejReason";
        EWrite 8 LE "leavesQty";
        EWrite 8 LE "cumQty";
        EFix "side" 1 32 false;
        EFix "ordType" 1 32 false;
        EWrite 8 LE "orderQty";
        EWrite 8 LE "price";
        EFix "accountId" 10 32 false;
        EFix "branchId" 2 32 false;
        EFix "orderRestrictions" 4 32 false;
        EObjOpt "applExtend" ];
  c_dec :=
      [ DRead 4 LE "partitionNo";
        DRead 8 LE "reportIndex";
        DFix "applId" 3 32 false;
        DFix "reportingPbuid" 6 32 false;
        DFix "submittingPbuid" 6 32 false;
        DFix "securityId" 8 32 false;
        DFix "securityIdsource" 4 32 false;
        DRead 2 LE "ownerType";
        DFix "clearingFirm" 2 32 false;
        DRead 8 LE "transactTime";
        DFix "userInfo" 32 32 false;
        DFix "orderId" 16 32 false;
        DFix "clOrdId" 10 32 false;
        DFix "origClOrdId" 10 32 false;
        DFix "execId" 16 32 false;
        DFix "execType" 1 32 false;
        DFix "ordStatus" 1 32 false;
        DRead 2 LE "ordRejReason";
        DRead 8 LE "leavesQty";
        DRead 8 LE "cumQty";
        DFix "side" 1 32 false;
        DFix "ordType" 1 32 false;
        DRead 8 LE "orderQty";
        DRead 8 LE "price";
        DFix "accountId" 10 32 false;
        DFix "branchId" 2 32 false;
        DFix "orderRestrictions" 4 32 false;
        DCreate "applExtend" "applId";
        DObj "applExtend" ];
  c_eq :=
      [ "partitionNo";
        "reportIndex";
        "applId";
        "reportingPbuid";
        "submittingPbuid";
        "securityId";
        "securityIdsource";
        "ownerType";
        "clearingFirm";
        "transactTime";
        "userInfo";
        "orderId";
        "clOrdId";
        "origClOrdId";
        "execId";
        "execType";
        "ordStatus";
        "ordRejReason";
        "leavesQty";
        "cumQty";
        "side";
        "ordType";
        "orderQty";
        "price";
        "accountId";
        "branchId";
        "orderRestrictions";
        "applExtend" ];
  c_hash := 
      HashFields [ "partitionNo";
        "reportIndex";
        "applId";
        "reportingPbuid";
        "submittingPbuid";
        "securityId";
        "securityIdsource";
        "ownerType";
        "clearingFirm";
        "transactTime";
        "userInfo";
        "orderId";
        "clOrdId";
        "origClOrdId";
        "execId";
        "execType";
        "ordStatus";
        "ordRejReason";
        "leavesQty";
        "cumQty";
        "side";
        "ordType";
        "orderQty";
        "price";
        "accountId";
        "branchId";
        "orderRestrictions";
        "applExtend" ];
  c_tag := "ExecutionConfirm";
  c_str :=
      [ ("partitionNo", "partitionNo");
        ("reportIndex", "reportIndex");
        ("applId", "applId");
        ("reportingPbuid", "reportingPbuid");
        ("submittingPbuid", "submittingPbuid");
        ("securityId", "securityId");
        ("securityIdsource", "securityIdsource");
        ("ownerType", "ownerType");
        ("clearingFirm", "clearingFirm");
        ("transactTime", "transactTime");
        ("userInfo", "userInfo");
        ("orderId", "orderId");
        ("clOrdId", "clOrdId");
        ("origClOrdId", "origClOrdId");
        ("execId", "execId");
        ("execType", "execType");
        ("ordStatus", "ordStatus");
        ("ordRejReason", "ordRejReason");
        ("leavesQty", "leavesQty");
        ("cumQty", "cumQty");
        ("side", "side");
        ("ordType", "ordType");
        ("orderQty", "orderQty");
        ("price", "price");
        ("accountId", "accountId");
        ("branchId", "branchId");
        ("orderRestrictions", "orderRestrictions");
        ("applExtend", "applExtend") ];
  c_get :=
      [ ("getPartitionNo", "partitionNo");
        ("getReportIndex", "reportIndex");
        ("getApplId", "applId");
        ("getReportingPbuid", "reportingPbuid");
        ("getSubmittingPbuid", "submittingPbuid");
        ("getSecurityId", "securityId");
        ("getSecurityIdsource", "securityIdsource");
        ("getOwnerType", "ownerType");
        ("getClearingFirm", "clearingFirm");
        ("getTransactTime", "transactTime");
        ("getUserInfo", "userInfo");
        ("getOrderId", "orderId");
        ("getClOrdId", "clOrdId");
        ("getOrigClOrdId", "origClOrdId");
        ("getExecId", "execId");
        ("getExecType", "execType");
        ("getOrdStatus", "ordStatus");
        ("getOrdRejReason", "ordRejReason");
        ("getLeavesQty", "leavesQty");
        ("getCumQty", "cumQty");
        ("getSide", "side");
        ("getOrdType", "ordType");
        ("getOrderQty", "orderQty");
        ("getPrice", "price");
        ("getAccountId", "accountId");
        ("getBranchId", "branchId");
        ("getOrderRestrictions", "orderRestrictions");
        ("getApplExtend", "applExtend") ];
  c_set :=
      [ ("setPartitionNo", "partitionNo");
        ("setReportIndex", "reportIndex");
        ("setApplId", "applId");
        ("setReportingPbuid", "reportingPbuid");
        ("setSubmittingPbuid", "submittingPbuid");
        ("setSecurityId", "securityId");
        ("setSecurityIdsource", "securityIdsource");
        ("setOwnerType", "ownerType");
        ("setClearingFirm", "clearingFirm");
        ("setTransactTime", "transactTime");
        ("setUserInfo", "userInfo");
        ("setOrderId", "orderId");
        ("setClOrdId", "clOrdId");
        ("setOrigClOrdId", "origClOrdId");
        ("setExecId", "execId");
        ("setExecType", "execType");
        ("setOrdStatus", "ordStatus");
        ("setOrdRejReason", "ordRejReason");
        ("setLeavesQty", "leavesQty");
        ("setCumQty", "cumQty");
        ("setSide", "side");
        ("setOrdType", "ordType");
        ("setOrderQty", "orderQty");
        ("setPrice", "price");
        ("setAccountId", "accountId");
        ("setBranchId", "branchId");
        ("setOrderRestrictions", "orderRestrictions");
        ("setApplExtend", "applExtend") ] |}.

(* bjse-bin/src/main/java/com/finproto/bjse/trade/messages/ExecutionReport.java:11-436  class ExecutionReport; fields 12-35; encode 230-257; decode 260-286; hashCode 289-315; equals 318-350; toString 353-404; the rest: getters and setters *)
Definition bjse_ExecutionReport : class_def := {|
  c_name := "bjse.ExecutionReport";
  c_fields :=
      [ ("partitionNo", TInt);
        ("reportIndex", TLong);
        ("applId", TStr);
        ("reportingPbuid", TStr);
        ("submittingPbuid", TStr);
        ("securityId", TStr);
        ("securityIdsource", TStr);
        ("ownerType", TShort);
        ("clearingFirm", TStr);
        ("transactTime", TLong);
        ("userInfo", TStr);
        ("orderId", TStr);
        ("clOrdId", TStr);
        ("execId", TStr);
        ("execType", TStr);
        ("ordStatus", TStr);
        ("lastPx", TLong);
        ("lastQty", TLong);
        ("leavesQty", TLong);
        ("cumQty", TLong);
        ("side", TStr);
        ("accountId", TStr);
        ("branchId", TStr);
        ("applExtend", TCodec) ];
  c_enc :=
      [ EWrite 4 LE "partitionNo";
        EWrite 8 LE "reportIndex";
        EFix "applId" 3 32 false;
        EFix "reportingPbuid" 6 32 false;
        EFix "submittingPbuid" 6 32 false;
        EFix "securityId" 8 32 false;
        EFix "securityIdsource" 4 32 false;
        EWrite 2 LE "ownerType";
        EFix "clearingFirm" 2 32 false;
        EWrite 8 LE "transactTime";
        EFix "userInfo" 32 32 false;
        EFix "orderId" 16 32 false;
        EFix "clOrdId" 10 32 false;
        EFix "execId" 16 32 false;
        EFix "execType" 1 32 false;
        EFix "ordStatus" 1 32 false;
        EWrite 8 LE "lastPx";
        EWrite 8 LE "lastQty";
        EWrite 8 LE "leavesQty";
        EWrite 8 LE "cumQty";
        EFix "side" 1 32 false;
        EFix "accountId" 10 32 false;
        EFix "branchId" 2 32 false;
        EObjOpt "applExtend" ];
  c_dec :=
      [ DRead 4 LE "partitionNo";
        DRead 8 LE "reportIndex";
        DFix "applId" 3 32 false;
        DFix "reportingPbuid" 6 32 false;
        DFix "submittingPbuid" 6 32 false;
        DFix "securityId" 8 32 false;
        DFix "securityIdsource" 4 32 false;
        DRead 2 LE "ownerType";
        DFix "clearingFirm" 2 32 false;
        DRead 8 LE "transactTime";
        DFix "userInfo" 32 32 false;
        DFix "orderId" 16 32 false;
        DFix "clOrdId" 10 32 false;
        DFix "execId" 16 32 false;
        DFix "execType" 1 32 false;
        DFix "ordStatus" 1 32 false;
        DRead 8 LE "lastPx";
        DRead 8 LE "lastQty";
        DRead 8 LE "leavesQty";
        DRead 8 LE "cumQty";
        DFix "side" 1 32 false;
        DFix "accountId" 10 32 false;
        DFix "branchId" 2 32 false;
        DCreate "applExtend" "applId";
        DObj "applExtend" ];
  c_eq :=
      [ "partitionNo";
        "reportIndex";
        "applId";
        "reportingPbuid";
        "submittingPbuid";
        "securityId";
        "securityIdsource";
        "ownerType";
        "clearingFirm";
        "transactTime";
        "userInfo";
        "orderId";
        "clOrdId";
        "execId";
        "execType";
        "ordStatus";
        "lastPx";
        "lastQty";
        "leavesQty";
        "cumQty";
        "side";
        "accountId";
        "branchId";
        "applExtend" ];
  c_hash := 
      HashFields [ "partitionNo";
        "reportIndex";
        "applId";
        "reportingPbuid";
        "submittingPbuid";
        "securityId";
        "securityIdsource";
        "ownerType";
        "clearingFirm";
        "transactTime";
        "userInfo";
        "orderId";
        "clOrdId";
        "execId";
        "execType";
        "ordStatus";
        "lastPx";
        "lastQty";
        "leavesQty";
        "cumQty";
        "side";
        "accountId";
        "branchId";
        "applExtend" ];
  c_tag := "ExecutionReport";
  c_str :=
      [ ("partitionNo", "partitionNo");
        ("reportIndex", "reportIndex");
        ("applId", "applId");
        ("reportingPbuid", "reportingPbuid");
        ("submittingPbuid", "submittingPbuid");
        ("securityId", "securityId");
        ("securityIdsource", "securityIdsource");
        ("ownerType", "ownerType");
        ("clearingFirm", "clearingFirm");
        ("transactTime", "transactTime");
        ("userInfo", "userInfo");
        ("orderId", "orderId");
        ("clOrdId", "clOrdId");
        ("execId", "execId");
        ("execType", "execType");
        ("ordStatus", "ordStatus");
        ("lastPx", "lastPx");
        ("lastQty", "lastQty");
        ("leavesQty", "leavesQty");
        ("cumQty", "cumQty");
        ("side", "side");
        ("accountId", "accountId");
        ("branchId", "branchId");
        ("applExtend", "applExtend") ];
  c_get :=
      [ ("getPartitionNo", "partitionNo");
        ("getReportIndex", "reportIndex");
        ("getApplId", "applId");
        ("getReportingPbuid", "reportingPbuid");
        ("getSubmittingPbuid", "submittingPbuid");
        ("getSecurityId", "securityId");
        ("getSecurityIdsource", "securityIdsource");
        ("getOwnerType", "ownerType");
        ("getClearingFirm", "clearingFirm");
        ("getTransactTime", "transactTime");
        ("getUserInfo", "userInfo");
        ("getOrderId", "orderId");
        ("getClOrdId", "clOrdId");
        ("getExecId", "execId");
        ("getExecType", "execType");
        ("getOrdStatus", "ordStatus");
        ("getLastPx", "lastPx");
        ("getLastQty", "lastQty");
        ("getLeavesQty", "leavesQty");
        ("getCumQty", "cumQty");
        ("getSide", "side");
        ("getAccountId", "accountId");
        ("getBranchId", "branchId");
        ("getApplExtend", "applExtend") ];
  c_set :=
      [ ("setPartitionNo", "partitionNo");
        ("setReportIndex", "reportIndex");
        ("setApplId", "applId");
        ("setReportingPbuid", "reportingPbuid");
        ("setSubmittingPbuid", "submittingPbuid");
        ("setSecurityId", "securityId");
        ("setSecurityIdsource", "securityIdsource");
        ("setOwnerType", "ownerType");
        ("setClearingFirm", "clearingFirm");
        ("setTransactTime", "transactTime");
        ("setUserInfo", "userInfo");
        ("setOrderId", "orderId");
        ("setClOrdId", "clOrdId");
        ("setExecId", "execId");
        ("setExecType", "execType");
        ("setOrdStatus", "ordStatus");
        ("setLastPx", "lastPx");
        ("setLastQty", "lastQty");
        ("setLeavesQty", "leavesQty");
        ("setCumQty", "cumQty");
        ("setSide", "side");
        ("setAccountId", "accountId");
        ("setBranchId", "branchId");
        ("setApplExtend", "applExtend") ] |}.

(* bjse-bin/src/main/java/com/finproto/bjse/trade/messages/Extend010.java:8-138  class Extend010; fields 9-15; encode 74-82; decode 85-93; hashCode 96-99; equals 102-117; toString 120-137; the rest: getters and setters *)
Definition bjse_Extend010 : class_def := {|
  c_name := "bjse.Extend010";
  c_fields :=
      [ ("stopPx", TLong);
        ("minQty", TLong);
        ("maxPriceLevels", TShort);
        ("timeInForce", TByte);
        ("cashMargin", TByte);
        ("settlType", TByte);
        ("settlPeriod", TByte) ];
  c_enc :=
      [ EWrite 8 LE "stopPx";
        EWrite 8 LE "minQty";
        EWrite 2 LE "maxPriceLevels";
        EWrite 1 BE "timeInForce";
        EWrite 1 BE "cashMargin";
        EWrite 1 BE "settlType";
        EWrite 1 BE "settlPeriod" ];
  c_dec :=
      [ DRead 8 LE "stopPx";
        DRead 8 LE "minQty";
        DRead 2 LE "maxPriceLevels";
        DRead 1 BE "timeInForce";
        DRead 1 BE "cashMargin";
        DRead 1 BE "settlType";
        DRead 1 BE "settlPeriod" ];
  c_eq :=
      [ "stopPx";
        "minQty";
        "maxPriceLevels";
        "timeInForce";
        "cashMargin";
        "settlType";
        "settlPeriod" ];
  c_hash := 
      HashFields [ "stopPx";
        "minQty";
        "maxPriceLevels";
        "timeInForce";
        "cashMargin";
        "settlType";
        "settlPeriod" ];
  c_tag := "Extend010";
  c_str :=
      [ ("stopPx", "stopPx");
        ("minQty", "minQty");
        ("maxPriceLevels", "maxPriceLevels");
        ("timeInForce", "timeInForce");
        ("cashMargin", "cashMargin");
        ("settlType", "settlType");
        ("settlPeriod", "settlPeriod") ];
  c_get :=
      [ ("getStopPx", "stopPx");
        ("getMinQty", "minQty");
        ("getMaxPriceLevels", "maxPriceLevels");
        ("getTimeInForce", "timeInForce");
        ("getCashMargin", "cashMargin");
        ("getSettlType", "settlType");
        ("getSettlPeriod", "settlPeriod") ];
  c_set :=
      [ ("setStopPx", "stopPx");
        ("setMinQty", "minQty");
        ("setMaxPriceLevels", "maxPriceLevels");
        ("setTimeInForce", "timeInForce");
        ("setCashMargin", "cashMargin");
        ("setSettlType", "settlType");
        ("setSettlPeriod", "settlPeriod") ] |}.

(* bjse-bin/src/main/java/com/finproto/bjse/trade/messages/Extend040.java:8-109  class Extend040; fields 9-13; encode 56-62; decode 65-71; hashCode 74-76; equals 79-92; toString 95-108; the rest: getters and setters *)
Definition bjse_Extend040 : class_def := {|
  c_name := "bjse.Extend040";
  c_fields :=
      [ ("stopPx", TLong);
        ("minQty", TLong);
        ("maxPriceLevels", TShort);
        ("timeInForce", TByte);
        ("cashMargin", TByte) ];
  c_enc :=
      [ EWrite 8 LE "stopPx";
        EWrite 8 LE "minQty";
        EWrite 2 LE "maxPriceLevels";
        EWrite 1 BE "timeInForce";
        EWrite 1 BE "cashMargin" ];
  c_dec :=
      [ DRead 8 LE "stopPx";
        DRead 8 LE "minQty";
        DRead 2 LE "maxPriceLevels";
        DRead 1 BE "timeInForce";
        DRead 1 BE "cashMargin" ];
  c_eq :=
      [ "stopPx";
        "minQty";
        "maxPriceLevels";
        "timeInForce";
        "cashMargin" ];
  c_hash := 
      HashFields [ "stopPx";
        "minQty";
        "maxPriceLevels";
        "timeInForce";
        "cashMargin" ];
  c_tag := "Extend040";
  c_str :=
      [ ("stopPx", "stopPx");
        ("minQty", "minQty");
        ("maxPriceLevels", "maxPriceLevels");
        ("timeInForce", "timeInForce");
        ("cashMargin", "cashMargin") ];
  c_get :=
      [ ("getStopPx", "stopPx");
        ("getMinQty", "minQty");
        ("getMaxPriceLevels", "maxPriceLevels");
        ("getTimeInForce", "timeInForce");
        ("getCashMargin", "cashMargin") ];
  c_set :=
      [ ("setStopPx", "stopPx");
        ("setMinQty", "minQty");
        ("setMaxPriceLevels", "maxPriceLevels");
        ("setTimeInForce", "timeInForce");
        ("setCashMargin", "cashMargin") ] |}.

(* bjse-bin/src/main/java/com/finproto/bjse/trade/messages/Extend041.java:7-35  class Extend041; fields none; encode 10-10; decode 13-13; hashCode 16-18; equals 21-29; toString 32-34; the rest: getters and setters *)
Definition bjse_Extend041 : class_def := {|
  c_name := "bjse.Extend041";
  c_fields :=
      [];
  c_enc :=
      [];
  c_dec :=
      [];
  c_eq :=
      [];
  c_hash := HashSelf;
  c_tag := "Extend041";
  c_str :=
      [];
  c_get :=
      [];
  c_set :=
      [] |}.

(* bjse-bin/src/main/java/com/finproto/bjse/trade/messages/Extend042.java:7-35  class Extend042; fields none; encode 10-10; decode 13-13; hashCode 16-18; equals 21-29; toString 32-34; the rest: getters and setters *)
Definition bjse_Extend042 : class_def := {|
  c_name := "bjse.Extend042";
  c_fields :=
      [];
  c_enc :=
      [];
  c_dec :=
      [];
  c_eq :=
      [];
  c_hash := HashSelf;
  c_tag := "Extend042";
  c_str :=
      [];
  c_get :=
      [];
  c_set :=
      [] |}.

(* bjse-bin/src/main/java/com/finproto/bjse/trade/messages/Extend043.java:7-35  class Extend043; fields none; encode 10-10; decode 13-13; hashCode 16-18; equals 21-29; toString 32-34; the rest: getters and setters *)
Definition bjse_Extend043 : class_def := {|
  c_name := "bjse.Extend043";
  c_fields :=
      [];
  c_enc :=
      [];
  c_dec :=
      [];
  c_eq :=
      [];
  c_hash := HashSelf;
  c_tag := "Extend043";
  c_str :=
      [];
  c_get :=
      [];
  c_set :=
      [] |}.

(* bjse-bin/src/main/java/com/finproto/bjse/trade/messages/Extend044.java:7-35  class Extend044; fields none; encode 10-10; decode 13-13; hashCode 16-18; equals 21-29; toString 32-34; the rest: getters and setters *)
Definition bjse_Extend044 : class_def := {|
  c_name := "bjse.Extend044";
  c_fields :=
      [];
  c_enc :=
      [];
  c_dec :=
      [];
  c_eq :=
      [];
  c_hash := HashSelf;
  c_tag := "Extend044";
  c_str :=
      [];
  c_get :=
      [];
  c_set :=
      [] |}.

(* bjse-bin/src/main/java/com/finproto/bjse/trade/messages/Extend045.java:7-35  class Extend045; fields none; encode 10-10; decode 13-13; hashCode 16-18; equals 21-29; toString 32-34; the rest: getters and setters *)
Definition bjse_Extend045 : class_def := {|
  c_name := "bjse.Extend045";
  c_fields :=
      [];
  c_enc :=
      [];
  c_dec :=
      [];
  c_eq :=
      [];
  c_hash := HashSelf;
  c_tag := "Extend045";
  c_str :=
      [];
  c_get :=
      [];
  c_set :=
      [] |}.

(* bjse-bin/src/main/java/com/finproto/bjse/trade/messages/Extend050.java:8-81  class Extend050; fields 9-11; encode 38-42; decode 45-49; hashCode 52-54; equals 57-68; toString 71-80; the rest: getters and setters *)
Definition bjse_Extend050 : class_def := {|
  c_name := "bjse.Extend050";
  c_fields :=
      [ ("expirationDays", TShort);
        ("expirationType", TByte);
        ("shareProperty", TStr) ];
  c_enc :=
      [ EWrite 2 LE "expirationDays";
        EWrite 1 BE "expirationType";
        EFix "shareProperty" 2 32 false ];
  c_dec :=
      [ DRead 2 LE "expirationDays";
        DRead 1 BE "expirationType";
        DFix "shareProperty" 2 32 false ];
  c_eq :=
      [ "expirationDays";
        "expirationType";
        "shareProperty" ];
  c_hash := 
      HashFields [ "expirationDays";
        "expirationType";
        "shareProperty" ];
  c_tag := "Extend050";
  c_str :=
      [ ("expirationDays", "expirationDays");
        ("expirationType", "expirationType");
        ("shareProperty", "shareProperty") ];
  c_get :=
      [ ("getExpirationDays", "expirationDays");
        ("getExpirationType", "expirationType");
        ("getShareProperty", "shareProperty") ];
  c_set :=
      [ ("setExpirationDays", "expirationDays");
        ("setExpirationType", "expirationType");
        ("setShareProperty", "shareProperty") ] |}.

(* bjse-bin/src/main/java/com/finproto/bjse/trade/messages/ExtendNewOrder010.java:8-138  class ExtendNewOrder010; fields 9-15; encode 74-82; decode 85-93; hashCode 96-99; equals 102-117; toString 120-137; the rest: getters and setters *)
Definition bjse_ExtendNewOrder010 : class_def := {|
  c_name := "bjse.ExtendNewOrder010";
  c_fields :=
      [ ("stopPx", TLong);
        ("minQty", TLong);
        ("maxPriceLevels", TShort);
        ("timeInForce", TStr);
        ("cashMargin", TStr);
        ("settlType", TStr);
        ("settlPeriod", TStr) ];
  c_enc :=
      [ EWrite 8 LE "stopPx";
        EWrite 8 LE "minQty";
        EWrite 2 LE "maxPriceLevels";
        EFix "timeInForce" 1 32 false;
        EFix "cashMargin" 1 32 false;
        EFix "settlType" 1 32 false;
        EFix "settlPeriod" 1 32 false ];
  c_dec :=
      [ DRead 8 LE "stopPx";
        DRead 8 LE "minQty";
        DRead 2 LE "maxPriceLevels";
        DFix "timeInForce" 1 32 false;
        DFix "cashMargin" 1 32 false;
        DFix "settlType" 1 32 false;
        DFix "settlPeriod" 1 32 false ];
  c_eq :=
      [ "stopPx";
        "minQty";
        "maxPriceLevels";
        "timeInForce";
        "cashMargin";
        "settlType";
        "settlPeriod" ];
  c_hash := 
      HashFields [ "stopPx";
        "minQty";
        "maxPriceLevels";
        "timeInForce";
        "cashMargin";
        "settlType";
        "settlPeriod" ];
  c_tag := "ExtendNewOrder010";
  c_str :=
      [ ("stopPx", "stopPx");
        ("minQty", "minQty");
        ("maxPriceLevels", "maxPriceLevels");
        ("timeInForce", "timeInForce");
        ("cashMargin", "cashMargin");
        ("settlType", "settlType");
        ("settlPeriod", "settlPeriod") ];
  c_get :=
      [ ("getStopPx", "stopPx");
        ("getMinQty", "minQty");
        ("getMaxPriceLevels", "maxPriceLevels");
        ("getTimeInForce", "timeInForce");
        ("getCashMargin", "cashMargin");
        ("getSettlType", "settlType");
        ("getSettlPeriod", "settlPeriod") ];
  c_set :=
      [ ("setStopPx", "stopPx");
        ("setMinQty", "minQty");
        ("setMaxPriceLevels", "maxPriceLevels");
        ("setTimeInForce", "timeInForce");
        ("setCashMargin", "cashMargin");
        ("setSettlType", "settlType");
        ("setSettlPeriod", "settlPeriod") ] |}.

(* bjse-bin/src/main/java/com/finproto/bjse/trade/messages/ExtendNewOrder040.java:8-109  class ExtendNewOrder040; fields 9-13; encode 56-62; decode 65-71; hashCode 74-76; equals 79-92; toString 95-108; the rest: getters and setters *)
Definition bjse_ExtendNewOrder040 : class_def := {|
  c_name := "bjse.ExtendNewOrder040";
  c_fields :=
      [ ("stopPx", TLong);
        ("minQty", TLong);
        ("maxPriceLevels", TShort);
        ("timeInForce", TStr);
        ("cashMargin", TStr) ];
  c_enc :=
      [ EWrite 8 LE "stopPx";
        EWrite 8 LE "minQty";
        EWrite 2 LE "maxPriceLevels";
        EFix "timeInForce" 1 32 false;
        EFix "cashMargin" 1 32 false ];
  c_dec :=
      [ DRead 8 LE "stopPx";
        DRead 8 LE "minQty";
        DRead 2 LE "maxPriceLevels";
        DFix "timeInForce" 1 32 false;
        DFix "cashMargin" 1 32 false ];
  c_eq :=
      [ "stopPx";
        "minQty";
        "maxPriceLevels";
        "timeInForce";
        "cashMargin" ];
  c_hash := 
      HashFields [ "stopPx";
        "minQty";
        "maxPriceLevels";
        "timeInForce";
        "cashMargin" ];
  c_tag := "ExtendNewOrder040";
  c_str :=
      [ ("stopPx", "stopPx");
        ("minQty", "minQty");
        ("maxPriceLevels", "maxPriceLevels");
        ("timeInForce", "timeInForce");
        ("cashMargin", "cashMargin") ];
  c_get :=
      [ ("getStopPx", "stopPx");
        ("getMinQty", "minQty");
        ("getMaxPriceLevels", "maxPriceLevels");
        ("getTimeInForce", "timeInForce");
        ("getCashMargin", "cashMargin") ];
  c_set :=
      [ ("setStopPx", "stopPx");
        ("setMinQty", "minQty");
        ("setMaxPriceLevels", "maxPriceLevels");
        ("setTimeInForce", "timeInForce");
        ("setCashMargin", "cashMargin") ] |}.

(* bjse-bin/src/main/java/com/finproto/bjse/trade/messages/ExtendNewOrder041.java:7-35  class ExtendNewOrder041; fields none; encode 10-10; decode 13-13; hashCode 16-18; equals 21-29; toString 32-34; the rest: getters and setters *)
Definition bjse_ExtendNewOrder041 : class_def := {|
  c_name := "bjse.ExtendNewOrder041";
  c_fields :=
      [];
  c_enc :=
      [];
  c_dec :=
      [];
  c_eq :=
      [];
  c_hash := HashSelf;
  c_tag := "ExtendNewOrder041";
  c_str :=
      [];
  c_get :=
      [];
  c_set :=
      [] |}.

(* bjse-bin/src/main/java/com/finproto/bjse/trade/messages/ExtendNewOrder042.java:7-35  class ExtendNewOrder042; fields none; encode 10-10; decode 13-13; hashCode 16-18; equals 21-29; toString 32-34; the rest: getters and setters *)
Definition bjse_ExtendNewOrder042 : class_def := {|
  c_name := "bjse.ExtendNewOrder042";
  c_fields :=
      [];
  c_enc :=
      [];
  c_dec :=
      [];
  c_eq :=
      [];
  c_hash := HashSelf;
  c_tag := "ExtendNewOrder042";
  c_str :=
      [];
  c_get :=
      [];
  c_set :=
      [] |}.

(* bjse-bin/src/main/java/com/finproto/bjse/trade/messages/ExtendNewOrder043.java:7-35  class ExtendNewOrder043; fields none; encode 10-10; decode 13-13; hashCode 16-18; equals 21-29; toString 32-34; the rest: getters and setters *)
Definition bjse_ExtendNewOrder043 : class_def := {|
  c_name := "bjse.ExtendNewOrder043";
  c_fields :=
      [];
  c_enc :=
      [];
  c_dec :=
      [];
  c_eq :=
      [];
  c_hash := HashSelf;
  c_tag := "ExtendNewOrder043";
  c_str :=
      [];
  c_get :=
      [];
  c_set :=
      [] |}.

(* bjse-bin/src/main/java/com/finproto/bjse/trade/messages/ExtendNewOrder044.java:7-35  class ExtendNewOrder044; fields none; encode 10-10; decode 13-13; hashCode 16-18; equals 21-29; toString 32-34; the rest: getters and setters *)
Definition bjse_ExtendNewOrder044 : class_def := {|
  c_name := "bjse.ExtendNewOrder044";
  c_fields :=
      [];
  c_enc :=
      [];
  c_dec :=
      [];
  c_eq :=
      [];
  c_hash := HashSelf;
  c_tag := "ExtendNewOrder044";
  c_str :=
      [];
  c_get :=
      [];
  c_set :=
      [] |}.

(* bjse-bin/src/main/java/com/finproto/bjse/trade/messages/ExtendNewOrder045.java:7-35  class ExtendNewOrder045; fields none; encode 10-10; decode 13-13; hashCode 16-18; equals 21-29; toString 32-34; the rest: getters and setters *)
Definition bjse_ExtendNewOrder045 : class_def := {|
  c_name := "bjse.ExtendNewOrder045";
  c_fields :=
      [];
  c_enc :=
      [];
  c_dec :=
      [];
  c_eq :=
      [];
  c_hash := HashSelf;
  c_tag := "ExtendNewOrder045";
  c_str :=
      [];
  c_get :=
      [];
  c_set :=
      [] |}.

(* bjse-bin/src/main/java/com/finproto/bjse/trade/messages/ExtendNewOrder050.java:8-81  class ExtendNewOrder050; fields 9-11; encode 38-42; decode 45-49; hashCode 52-54; equals 57-68; toString 71-80; the rest: getters and setters *)
Definition bjse_ExtendNewOrder050 : class_def := {|
  c_name := "bjse.ExtendNewOrder050";
  c_fields :=
      [ ("expirationDays", TShort);
        ("expirationType", TByte);
        ("shareProperty", TStr) ];
  c_enc :=
      [ EWrite 2 LE "expirationDays";
        EWrite 1 BE "expirationType";
        EFix "shareProperty" 2 32 false ];
  c_dec :=
      [ DRead 2 LE "expirationDays";
        DRead 1 BE "expirationType";
        DFix "shareProperty" 2 32 false ];
  c_eq :=
      [ "expirationDays";
        "expirationType";
        "shareProperty" ];
  c_hash := 
      HashFields [ "expirationDays";
        "expirationType";
        "shareProperty" ];
  c_tag := "ExtendNewOrder050";
  c_str :=
      [ ("expirationDays", "expirationDays");
        ("expirationType", "expirationType");
        ("shareProperty", "shareProperty") ];
  c_get :=
      [ ("getExpirationDays", "expirationDays");
        ("getExpirationType", "expirationType");
        ("getShareProperty", "shareProperty") ];
  c_set :=
      [ ("setExpirationDays", "expirationDays");
        ("setExpirationType", "expirationType");
        ("setShareProperty", "shareProperty") ] |}.

(* bjse-bin/src/main/java/com/finproto/bjse/trade/messages/Heartbeat.java:7-35  class Heartbeat; fields none; encode 10-10; decode 13-13; hashCode 16-18; equals 21-29; toString 32-34; the rest: getters and setters *)
Definition bjse_Heartbeat : class_def := {|
  c_name := "bjse.Heartbeat";
  c_fields :=
      [];
  c_enc :=
      [];
  c_dec :=
      [];
  c_eq :=
      [];
  c_hash := HashSelf;
  c_tag := "Heartbeat";
  c_str :=
      [];
  c_get :=
      [];
  c_set :=
      [] |}.

(* bjse-bin/src/main/java/com/finproto/bjse/trade/messages/Logon.java:8-109  class Logon; fields 9-13; encode 56-62; decode 65-71; hashCode 74-76; equals 79-92; toString 95-108; the rest: getters and setters *)
Definition bjse_Logon : class_def := {|
  c_name := "bjse.Logon";
  c_fields :=
      [ ("senderCompId", TStr);
        ("targetCompId", TStr);
        ("heartBtInt", TInt);
        ("password", TStr);
        ("defaultApplVerId", TStr) ];
  c_enc :=
      [ EFix "senderCompId" 20 32 false;
        EFix "targetCompId" 20 32 false;
        EWrite 4 LE "heartBtInt";
        EFix "password" 16 32 false;
        EFix "defaultApplVerId" 32 32 false ];
  c_dec :=
      [ DFix "senderCompId" 20 32 false;
        DFix "targetCompId" 20 32 false;
        DRead 4 LE "heartBtInt";
        DFix "password" 16 32 false;
        DFix "defaultApplVerId" 32 32 false ];
  c_eq :=
      [ "senderCompId";
        "targetCompId";
        "heartBtInt";
        "password";
        "defaultApplVerId" ];
  c_hash := 
      HashFields [ "senderCompId";
        "targetCompId";
        "heartBtInt";
        "password";
        "defaultApplVerId" ];
  c_tag := "Logon";
  c_str :=
      [ ("senderCompId", "senderCompId");
        ("targetCompId", "targetCompId");
        ("heartBtInt", "heartBtInt");
        ("password", "password");
        ("defaultApplVerId", "defaultApplVerId") ];
  c_get :=
      [ ("getSenderCompId", "senderCompId");
        ("getTargetCompId", "targetCompId");
        ("getHeartBtInt", "heartBtInt");
        ("getPassword", "password");
        ("getDefaultApplVerId", "defaultApplVerId") ];
  c_set :=
      [ ("setSenderCompId", "senderCompId");
        ("setTargetCompId", "targetCompId");
        ("setHeartBtInt", "heartBtInt");
        ("setPassword", "password");
        ("setDefaultApplVerId", "defaultApplVerId") ] |}.

(* bjse-bin/src/main/java/com/finproto/bjse/trade/messages/Logout.java:8-62  class Logout; fields 9-10; encode 29-32; decode 35-38; hashCode 41-43; equals 46-56; toString 59-61; the rest: getters and setters *)
Definition bjse_Logout : class_def := {|
  c_name := "bjse.Logout";
  c_fields :=
      [ ("sessionStatus", TInt);
        ("text", TStr) ];
  c_enc :=
      [ EWrite 4 LE "sessionStatus";
        EFix "text" 200 32 false ];
  c_dec :=
      [ DRead 4 LE "sessionStatus";
        DFix "text" 200 32 false ];
  c_eq :=
      [ "sessionStatus";
        "text" ];
  c_hash := 
      HashFields [ "sessionStatus";
        "text" ];
  c_tag := "Logout";
  c_str :=
      [ ("sessionStatus", "sessionStatus");
        ("text", "text") ];
  c_get :=
      [ ("getSessionStatus", "sessionStatus");
        ("getText", "text") ];
  c_set :=
      [ ("setSessionStatus", "sessionStatus");
        ("setText", "text") ] |}.

(* bjse-bin/src/main/java/com/finproto/bjse/trade/messages/NewOrder.java:11-336  class NewOrder; fields 12-28; encode 167-187; decode 190-209; hashCode 212-231; equals 234-259; toString 262-299; the rest: getters and setters *)
Definition bjse_NewOrder : class_def := {|
  c_name := "bjse.NewOrder";
  c_fields :=
      [ ("applId", TStr);
        ("submittingPbuid", TStr);
        ("securityId", TStr);
        ("securityIdsource", TStr);
        ("ownerType", TShort);
        ("clearingFirm", TStr);
        ("transactTime", TLong);
        ("userInfo", TStr);
        ("clOrdId", TStr);
        ("accountId", TStr);
        ("branchId", TStr);
        ("orderRestrictions", TStr);
        ("side", TStr);
        ("ordType", TStr);
        ("orderQty", TLong);
        ("price", TLong);
        ("applExtend", TCodec) ];
  c_enc :=
      [ EFix "applId" 3 32 false;
        EFix "submittingPbuid" 6 32 false;
        EFix "securityId" 8 32 false;
        EFix "securityIdsource" 4 32 false;
        EWrite 2 LE "ownerType";
        EFix "clearingFirm" 2 32 false;
        EWrite 8 LE "transactTime";
        EFix "userInfo" 32 32 false;
        EFix "clOrdId" 10 32 false;
        EFix "accountId" 10 32 false;
        EFix "branchId" 2 32 false;
        EFix "orderRestrictions" 4 32 false;
        EFix "side" 1 32 false;
        EFix "ordType" 1 32 false;
        EWrite 8 LE "orderQty";
        EWrite 8 LE "price";
        EObjOpt "applExtend" ];
  c_dec :=
      [ DFix "applId" 3 32 false;
        DFix "submittingPbuid" 6 32 false;
        DFix "securityId" 8 32 false;
        DFix "securityIdsource" 4 32 false;
        DRead 2 LE "ownerType";
        DFix "clearingFirm" 2 32 false;
        DRead 8 LE "transactTime";
        DFix "userInfo" 32 32 false;
        DFix "clOrdId" 10 32 false;
        DFix "accountId" 10 32 false;
        DFix "branchId" 2 32 false;
        DFix "orderRestrictions" 4 32 false;
        DFix "side" 1 32 false;
        DFix "ordType" 1 32 false;
        DRead 8 LE "orderQty";
        DRead 8 LE "price";
        DCreate "applExtend" "applId";
        DObj "applExtend" ];
  c_eq :=
      [ "applId";
        "submittingPbuid";
        "securityId";
        "securityIdsource";
        "ownerType";
        "clearingFirm";
        "transactTime";
        "userInfo";
        "clOrdId";
        "accountId";
        "branchId";
        "orderRestrictions";
        "side";
        "ordType";
        "orderQty";
        "price";
        "applExtend" ];
  c_hash := 
      HashFields [ "applId";
        "submittingPbuid";
        "securityId";
        "securityIdsource";
        "ownerType";
        "clearingFirm";
        "transactTime";
        "userInfo";
        "clOrdId";
        "accountId";
        "branchId";
        "orderRestrictions";
        "side";
        "ordType";
        "orderQty";
        "price";
        "applExtend" ];
  c_tag := "NewOrder";
  c_str :=
      [ ("applId", "applId");
        ("submittingPbuid", "submittingPbuid");
        ("securityId", "securityId");
        ("securityIdsource", "securityIdsource");
        ("ownerType", "ownerType");
        ("clearingFirm", "clearingFirm");
        ("transactTime", "transactTime");
        ("userInfo", "userInfo");
        ("clOrdId", "clOrdId");
        ("accountId", "accountId");
        ("branchId", "branchId");
        ("orderRestrictions", "orderRestrictions");
        ("side", "side");
        ("ordType", "ordType");
        ("orderQty", "orderQty");
        ("price", "price");
        ("applExtend", "applExtend") ];
  c_get :=
      [ ("getApplId", "applId");
        ("getSubmittingPbuid", "submittingPbuid");
        ("getSecurityId", "securityId");
        ("getSecurityIdsource", "securityIdsource");
        ("getOwnerType", "ownerType");
        ("getClearingFirm", "clearingFirm");
        ("getTransactTime", "transactTime");
        ("getUserInfo", "userInfo");
        ("getClOrdId", "clOrdId");
        ("getAccountId", "accountId");
        ("getBranchId", "branchId");
        ("getOrderRestrictions", "orderRestrictions");
        ("getSide", "side");
        ("getOrdType", "ordType");
        ("getOrderQty", "orderQty");
        ("getPrice", "price");
        ("getApplExtend", "applExtend") ];
  c_set :=
      [ ("setApplId", "applId");
        ("setSubmittingPbuid", "submittingPbuid");
        ("setSecurityId", "securityId");
        ("setSecurityIdsource", "securityIdsource");
        ("setOwnerType", "ownerType");
        ("setClearingFirm", "clearingFirm");
        ("setTransactTime", "transactTime");
        ("setUserInfo", "userInfo");
        ("setClOrdId", "clOrdId");
        ("setAccountId", "accountId");
        ("setBranchId", "branchId");
        ("setOrderRestrictions", "orderRestrictions");
        ("setSide", "side");
        ("setOrdType", "ordType");
        ("setOrderQty", "orderQty");
        ("setPrice", "price");
        ("setApplExtend", "applExtend") ] |}.

(* bjse-bin/src/main/java/com/finproto/bjse/trade/messages/OrderCancelRequest.java:8-249  class OrderCancelRequest; fields 9-22; encode 137-152; decode 155-170; hashCode 173-189; equals 192-214; toString 217-248; the rest: getters and setters *)
Definition bjse_OrderCancelRequest : class_def := {|
  c_name := "bjse.OrderCancelRequest";
  c_fields :=
      [ ("applId", TStr);
        ("submittingPbuid", TStr);
        ("securityId", TStr);
        ("securityIdsource", TStr);
        ("ownerType", TShort);
        ("clearingFirm", TStr);
        ("transactTime", TLong);
        ("userInfo", TStr);
        ("clOrdId", TStr);
        ("origClOrdId", TStr);
        ("accountId", TStr);
        ("branchId", TStr);
        ("orderId", TStr);
        ("orderQty", TLong) ];
  c_enc :=
      [ EFix "applId" 3 32 false;
        EFix "submittingPbuid" 6 32 false;
        EFix "securityId" 8 32 false;
        EFix "securityIdsource" 4 32 false;
        EWrite 2 LE "ownerType";
        EFix "clearingFirm" 2 32 false;
        EWrite 8 LE "transactTime";
        EFix "userInfo" 32 32 false;
        EFix "clOrdId" 10 32 false;
        EFix "origClOrdId" 10 32 false;
        EFix "accountId" 10 32 false;
        EFix "branchId" 2 32 false;
        EFix "orderId" 16 32 false;
        EWrite 8 LE "orderQty" ];
  c_dec :=
      [ DFix "applId" 3 32 false;
        DFix "submittingPbuid" 6 32 false;
        DFix "securityId" 8 32 false;
        DFix "securityIdsource" 4 32 false;
        DRead 2 LE "ownerType";
        DFix "clearingFirm" 2 32 false;
        DRead 8 LE "transactTime";
        DFix "userInfo" 32 32 false;
        DFix "clOrdId" 10 32 false;
        DFix "origClOrdId" 10 32 false;
        DFix "accountId" 10 32 false;
        DFix "branchId" 2 32 false;
        DFix "orderId" 16 32 false;
        DRead 8 LE "orderQty" ];
  c_eq :=
      [ "applId";
        "submittingPbuid";
        "securityId";
        "securityIdsource";
        "ownerType";
        "clearingFirm";
        "transactTime";
        "userInfo";
        "clOrdId";
        "origClOrdId";
        "accountId";
        "branchId";
        "orderId";
        "orderQty" ];
  c_hash := 
      HashFields [ "applId";
        "submittingPbuid";
        "securityId";
        "securityIdsource";
        "ownerType";
        "clearingFirm";
        "transactTime";
        "userInfo";
        "clOrdId";
        "origClOrdId";
        "accountId";
        "branchId";
        "orderId";
        "orderQty" ];
  c_tag := "OrderCancelRequest";
  c_str :=
      [ ("applId", "applId");
        ("submittingPbuid", "submittingPbuid");
        ("securityId", "securityId");
        ("securityIdsource", "securityIdsource");
        ("ownerType", "ownerType");
        ("clearingFirm", "clearingFirm");
        ("transactTime", "transactTime");
        ("userInfo", "userInfo");
        ("clOrdId", "clOrdId");
        ("origClOrdId", "origClOrdId");
        ("accountId", "accountId");
        ("branchId", "branchId");
        ("orderId", "orderId");
        ("orderQty", "orderQty") ];
  c_get :=
      [ ("getApplId", "applId");
        ("getSubmittingPbuid", "submittingPbuid");
        ("getSecurityId", "securityId");
        ("getSecurityIdsource", "securityIdsource");
        ("getOwnerType", "ownerType");
        ("getClearingFirm", "clearingFirm");
        ("getTransactTime", "transactTime");
        ("getUserInfo", "userInfo");
        ("getClOrdId", "clOrdId");
        ("getOrigClOrdId", "origClOrdId");
        ("getAccountId", "accountId");
        ("getBranchId", "branchId");
        ("getOrderId", "orderId");
        ("getOrderQty", "orderQty") ];
  c_set :=
      [ ("setApplId", "applId");
        ("setSubmittingPbuid", "submittingPbuid");
        ("setSecurityId", "securityId");
        ("setSecurityIdsource", "securityIdsource");
        ("setOwnerType", "ownerType");
        ("setClearingFirm", "clearingFirm");
        ("setTransactTime", "transactTime");
        ("setUserInfo", "userInfo");
        ("setClOrdId", "clOrdId");
        ("setOrigClOrdId", "origClOrdId");
        ("setAccountId", "accountId");
        ("setBranchId", "branchId");
        ("setOrderId", "orderId");
        ("setOrderQty", "orderQty") ] |}.

(* bjse-bin/src/main/java/com/finproto/bjse/trade/messages/PlatformInfo.java:10-146  class PlatformInfo; fields 11-12; encode 31-41; decode 44-55; hashCode 58-60; equals 63-73; toString 76-83; the rest: getters and setters *)
Definition bjse_PlatformInfo : class_def := {|
  c_name := "bjse.PlatformInfo";
  c_fields :=
      [ ("platformId", TShort);
        ("noPartitions", (TList (TObj "bjse.PlatformInfo.NoPartitions"))) ];
  c_enc :=
      [ EWrite 2 LE "platformId";
        EList "noPartitions" 2 BE 16 2 LE XObj ];
  c_dec :=
      [ DRead 2 LE "platformId";
        DList "noPartitions" 2 LE (YObj "bjse.PlatformInfo.NoPartitions") ];
  c_eq :=
      [ "platformId";
        "noPartitions" ];
  c_hash := 
      HashFields [ "platformId";
        "noPartitions" ];
  c_tag := "PlatformInfo";
  c_str :=
      [ ("platformId", "platformId");
        ("noPartitions", "noPartitions") ];
  c_get :=
      [ ("getPlatformId", "platformId");
        ("getNoPartitions", "noPartitions") ];
  c_set :=
      [ ("setPlatformId", "platformId");
        ("setNoPartitions", "noPartitions") ] |}.

(* bjse-bin/src/main/java/com/finproto/bjse/trade/messages/PlatformInfo.java:86-145  class NoPartitions; fields 87-88; encode 107-110; decode 113-116; hashCode 119-121; equals 124-134; toString 137-144; the rest: getters and setters *)
Definition bjse_PlatformInfo_NoPartitions : class_def := {|
  c_name := "bjse.PlatformInfo.NoPartitions";
  c_fields :=
      [ ("partitionNo", TInt);
        ("partitionName", TStr) ];
  c_enc :=
      [ EWrite 4 LE "partitionNo";
        EFix "partitionName" 20 32 false ];
  c_dec :=
      [ DRead 4 LE "partitionNo";
        DFix "partitionName" 20 32 false ];
  c_eq :=
      [ "partitionNo";
        "partitionName" ];
  c_hash := 
      HashFields [ "partitionNo";
        "partitionName" ];
  c_tag := "NoPartitions";
  c_str :=
      [ ("partitionNo", "partitionNo");
        ("partitionName", "partitionName") ];
  c_get :=
      [ ("getPartitionNo", "partitionNo");
        ("getPartitionName", "partitionName") ];
  c_set :=
      [ ("setPartitionNo", "partitionNo");
        ("setPartitionName", "partitionName") ] |}.

(* bjse-bin/src/main/java/com/finproto/bjse/trade/messages/PlatformStateInfo.java:8-67  class PlatformStateInfo; fields 9-10; encode 29-32; decode 35-38; hashCode 41-43; equals 46-56; toString 59-66; the rest: getters and setters *)
Definition bjse_PlatformStateInfo : class_def := {|
  c_name := "bjse.PlatformStateInfo";
  c_fields :=
      [ ("platformId", TShort);
        ("platformState", TShort) ];
  c_enc :=
      [ EWrite 2 LE "platformId";
        EWrite 2 LE "platformState" ];
  c_dec :=
      [ DRead 2 LE "platformId";
        DRead 2 LE "platformState" ];
  c_eq :=
      [ "platformId";
        "platformState" ];
  c_hash := 
      HashFields [ "platformId";
        "platformState" ];
  c_tag := "PlatformStateInfo";
  c_str :=
      [ ("platformId", "platformId");
        ("platformState", "platformState") ];
  c_get :=
      [ ("getPlatformId", "platformId");
        ("getPlatformState", "platformState") ];
  c_set :=
      [ ("setPlatformId", "platformId");
        ("setPlatformState", "platformState") ] |}.

(* bjse-bin/src/main/java/com/finproto/bjse/trade/messages/Quote.java:11-330  class Quote; fields 12-28; encode 167-187; decode 190-209; hashCode 212-231; equals 234-259; toString 262-299; the rest: getters and setters *)
Definition bjse_Quote : class_def := {|
  c_name := "bjse.Quote";
  c_fields :=
      [ ("applId", TStr);
        ("submittingPbuid", TStr);
        ("securityId", TStr);
        ("securityIdsource", TStr);
        ("ownerType", TShort);
        ("clearingFirm", TStr);
        ("transactTime", TLong);
        ("userInfo", TStr);
        ("quoteMsgId", TStr);
        ("accountId", TStr);
        ("quoteReqId", TStr);
        ("quoteType", TByte);
        ("bidPx", TLong);
        ("offerPx", TLong);
        ("bidSize", TLong);
        ("offerSize", TLong);
        ("applExtend", TCodec) ];
  c_enc :=
      [ EFix "applId" 3 32 false;
        EFix "submittingPbuid" 6 32 false;
        EFix "securityId" 8 32 false;
        EFix "securityIdsource" 4 32 false;
        EWrite 2 LE "ownerType";
        EFix "clearingFirm" 2 32 false;
        EWrite 8 LE "transactTime";
        EFix "userInfo" 32 32 false;
        EFix "quoteMsgId" 10 32 false;
        EFix "accountId" 10 32 false;
        EFix "quoteReqId" 10 32 false;
        EWrite 1 BE "quoteType";
        EWrite 8 LE "bidPx";
        EWrite 8 LE "offerPx";
        EWrite 8 LE "bidSize";
        EWrite 8 LE "offerSize";
        EObjOpt "applExtend" ];
  c_dec :=
      [ DFix "applId" 3 32 false;
        DFix "submittingPbuid" 6 32 false;
        DFix "securityId" 8 32 false;
        DFix "securityIdsource" 4 32 false;
        DRead 2 LE "ownerType";
        DFix "clearingFirm" 2 32 false;
        DRead 8 LE "transactTime";
        DFix "userInfo" 32 32 false;
        DFix "quoteMsgId" 10 32 false;
        DFix "accountId" 10 32 false;
        DFix "quoteReqId" 10 32 false;
        DRead 1 BE "quoteType";
        DRead 8 LE "bidPx";
        DRead 8 LE "offerPx";
        DRead 8 LE "bidSize";
        DRead 8 LE "offerSize";
        DCreate "applExtend" "applId";
        DObj "applExtend" ];
  c_eq :=
      [ "applId";
        "submittingPbuid";
        "securityId";
        "securityIdsource";
        "ownerType";
        "clearingFirm";
        "transactTime";
        "userInfo";
        "quoteMsgId";
        "accountId";
        "quoteReqId";
        "quoteType";
        "bidPx";
        "offerPx";
        "bidSize";
        "offerSize";
        "applExtend" ];
  c_hash := 
      HashFields [ "applId";
        "submittingPbuid";
        "securityId";
        "securityIdsource";
        "ownerType";
        "clearingFirm";
        "transactTime";
        "userInfo";
        "quoteMsgId";
        "accountId";
        "quoteReqId";
        "quoteType";
        "bidPx";
        "offerPx";
        "bidSize";
        "offerSize";
        "applExtend" ];
  c_tag := "Quote";
  c_str :=
      [ ("applId", "applId");
        ("submittingPbuid", "submittingPbuid");
        ("securityId", "securityId");
        ("securityIdsource", "securityIdsource");
        ("ownerType", "ownerType");
        ("clearingFirm", "clearingFirm");
        ("transactTime", "transactTime");
        ("userInfo", "userInfo");
        ("quoteMsgId", "quoteMsgId");
        ("accountId", "accountId");
        ("quoteReqId", "quoteReqId");
        ("quoteType", "quoteType");
        ("bidPx", "bidPx");
        ("offerPx", "offerPx");
        ("bidSize", "bidSize");
        ("offerSize", "offerSize");
        ("applExtend", "applExtend") ];
  c_get :=
      [ ("getApplId", "applId");
        ("getSubmittingPbuid", "submittingPbuid");
        ("getSecurityId", "securityId");
        ("getSecurityIdsource", "securityIdsource");
        ("getOwnerType", "ownerType");
        ("getClearingFirm", "clearingFirm");
        ("getTransactTime", "transactTime");
        ("getUserInfo", "userInfo");
        ("getQuoteMsgId", "quoteMsgId");
        ("getAccountId", "accountId");
        ("getQuoteReqId", "quoteReqId");
        ("getQuoteType", "quoteType");
        ("getBidPx", "bidPx");
        ("getOfferPx", "offerPx");
        ("getBidSize", "bidSize");
        ("getOfferSize", "offerSize");
        ("getApplExtend", "applExtend") ];
  c_set :=
      [ ("setApplId", "applId");
        ("setSubmittingPbuid", "submittingPbuid");
        ("setSecurityId", "securityId");
        ("setSecurityIdsource", "securityIdsource");
        ("setOwnerType", "ownerType");
        ("setClearingFirm", "clearingFirm");
        ("setTransactTime", "transactTime");
        ("setUserInfo", "userInfo");
        ("setQuoteMsgId", "quoteMsgId");
        ("setAccountId", "accountId");
        ("setQuoteReqId", "quoteReqId");
        ("setQuoteType", "quoteType");
        ("setBidPx", "bidPx");
        ("setOfferPx", "offerPx");
        ("setBidSize", "bidSize");
        ("setOfferSize", "offerSize");
        ("setApplExtend", "applExtend") ] |}.

(* bjse-bin/src/main/java/com/finproto/bjse/trade/messages/QuoteExtend070.java:8-174  class QuoteExtend070; fields 9-17; encode 92-102; decode 105-115; hashCode 118-129; equals 132-149; toString 152-173; the rest: getters and setters *)
Definition bjse_QuoteExtend070 : class_def := {|
  c_name := "bjse.QuoteExtend070";
  c_fields :=
      [ ("branchId", TStr);
        ("quoteId", TStr);
        ("quoteRespId", TStr);
        ("privateQuote", TByte);
        ("validUntilTime", TLong);
        ("priceType", TByte);
        ("cashMargin", TStr);
        ("counterPartyPbuid", TStr);
        ("memo", TStr) ];
  c_enc :=
      [ EFix "branchId" 2 32 false;
        EFix "quoteId" 10 32 false;
        EFix "quoteRespId" 10 32 false;
        EWrite 1 BE "privateQuote";
        EWrite 8 LE "validUntilTime";
        EWrite 1 BE "priceType";
        EFix "cashMargin" 1 32 false;
        EFix "counterPartyPbuid" 6 32 false;
        EFix "memo" 120 32 false ];
  c_dec :=
      [ DFix "branchId" 2 32 false;
        DFix "quoteId" 10 32 false;
        DFix "quoteRespId" 10 32 false;
        DRead 1 BE "privateQuote";
        DRead 8 LE "validUntilTime";
        DRead 1 BE "priceType";
        DFix "cashMargin" 1 32 false;
        DFix "counterPartyPbuid" 6 32 false;
        DFix "memo" 120 32 false ];
  c_eq :=
      [ "branchId";
        "quoteId";
        "quoteRespId";
        "privateQuote";
        "validUntilTime";
        "priceType";
        "cashMargin";
        "counterPartyPbuid";
        "memo" ];
  c_hash := 
      HashFields [ "branchId";
        "quoteId";
        "quoteRespId";
        "privateQuote";
        "validUntilTime";
        "priceType";
        "cashMargin";
        "counterPartyPbuid";
        "memo" ];
  c_tag := "QuoteExtend070";
  c_str :=
      [ ("branchId", "branchId");
        ("quoteId", "quoteId");
        ("quoteRespId", "quoteRespId");
        ("privateQuote", "privateQuote");
        ("validUntilTime", "validUntilTime");
        ("priceType", "priceType");
        ("cashMargin", "cashMargin");
        ("counterPartyPbuid", "counterPartyPbuid");
        ("memo", "memo") ];
  c_get :=
      [ ("getBranchId", "branchId");
        ("getQuoteId", "quoteId");
        ("getQuoteRespId", "quoteRespId");
        ("getPrivateQuote", "privateQuote");
        ("getValidUntilTime", "validUntilTime");
        ("getPriceType", "priceType");
        ("getCashMargin", "cashMargin");
        ("getCounterPartyPbuid", "counterPartyPbuid");
        ("getMemo", "memo") ];
  c_set :=
      [ ("setBranchId", "branchId");
        ("setQuoteId", "quoteId");
        ("setQuoteRespId", "quoteRespId");
        ("setPrivateQuote", "privateQuote");
        ("setValidUntilTime", "validUntilTime");
        ("setPriceType", "priceType");
        ("setCashMargin", "cashMargin");
        ("setCounterPartyPbuid", "counterPartyPbuid");
        ("setMemo", "memo") ] |}.

(* bjse-bin/src/main/java/com/finproto/bjse/trade/messages/QuoteExtend071.java:7-35  class QuoteExtend071; fields none; encode 10-10; decode 13-13; hashCode 16-18; equals 21-29; toString 32-34; the rest: getters and setters *)
Definition bjse_QuoteExtend071 : class_def := {|
  c_name := "bjse.QuoteExtend071";
  c_fields :=
      [];
  c_enc :=
      [];
  c_dec :=
      [];
  c_eq :=
      [];
  c_hash := HashSelf;
  c_tag := "QuoteExtend071";
  c_str :=
      [];
  c_get :=
      [];
  c_set :=
      [] |}.

(* bjse-bin/src/main/java/com/finproto/bjse/trade/messages/QuoteResponse.java:13-467  class QuoteResponse; fields 14-33; encode 196-226; decode 229-259; hashCode 262-284; equals 287-315; toString 318-361; the rest: getters and setters *)
Definition bjse_QuoteResponse : class_def := {|
  c_name := "bjse.QuoteResponse";
  c_fields :=
      [ ("applId", TStr);
        ("reportingPbuid", TStr);
        ("submittingPbuid", TStr);
        ("securityId", TStr);
        ("securityIdsource", TStr);
        ("ownerType", TShort);
        ("clearingFirm", TStr);
        ("transactTime", TLong);
        ("userInfo", TStr);
        ("clOrdId", TStr);
        ("accountId", TStr);
        ("branchId", TStr);
        ("quoteRespId", TStr);
        ("quoteRespType", TByte);
        ("side", TStr);
        ("validUntilTime", TLong);
        ("quoteType", TByte);
        ("priceType", TByte);
        ("quote2", (TList (TObj "bjse.QuoteResponse.Quote2")));
        ("applExtend", TCodec) ];
  c_enc :=
      [ EFix "applId" 3 32 false;
        EFix "reportingPbuid" 6 32 false;
        EFix "submittingPbuid" 6 32 false;
        EFix "securityId" 8 32 false;
        EFix "securityIdsource" 4 32 false;
        EWrite 2 LE "ownerType";
        EFix "clearingFirm" 2 32 false;
        EWrite 8 LE "transactTime";
        EFix "userInfo" 32 32 false;
        EFix "clOrdId" 10 32 false;
        EFix "accountId" 10 32 false;
        EFix "branchId" 2 32 false;
        EFix "quoteRespId" 10 32 false;
        EWrite 1 BE "quoteRespType";
        EFix "side" 1 32 false;
        EWrite 8 LE "validUntilTime";
        EWrite 1 BE "quoteType";
        EWrite 1 BE "priceType";
        EList "quote2" 2 BE 16 2 LE XObj;
        EObjOpt "applExtend" ];
  c_dec :=
      [ DFix "applId" 3 32 false;
        DFix "reportingPbuid" 6 32 false;
        DFix "submittingPbuid" 6 32 false;
        DFix "securityId" 8 32 false;
        DFix "securityIdsource" 4 32 false;
        DRead 2 LE "ownerType";
        DFix "clearingFirm" 2 32 false;
        DRead 8 LE "transactTime";
        DFix "userInfo" 32 32 false;
        DFix "clOrdId" 10 32 false;
        DFix "accountId" 10 32 false;
        DFix "branchId" 2 32 false;
        DFix "quoteRespId" 10 32 false;
        DRead 1 BE "quoteRespType";
        DFix "side" 1 32 false;
        DRead 8 LE "validUntilTime";
        DRead 1 BE "quoteType";
        DRead 1 BE "priceType";
        DList "quote2" 2 LE (YObj "bjse.QuoteResponse.Quote2");
        DCreate "applExtend" "applId";
        DObj "applExtend" ];
  c_eq :=
      [ "applId";
        "reportingPbuid";
        "submittingPbuid";
        "securityId";
        "securityIdsource";
        "ownerType";
        "clearingFirm";
        "transactTime";
        "userInfo";
        "clOrdId";
        "accountId";
        "branchId";
        "quoteRespId";
        "quoteRespType";
        "side";
        "validUntilTime";
        "quoteType";
        "priceType";
        "quote2";
        "applExtend" ];
  c_hash := 
      HashFields [ "applId";
        "reportingPbuid";
        "submittingPbuid";
        "securityId";
        "securityIdsource";
        "ownerType";
        "clearingFirm";
        "transactTime";
        "userInfo";
        "clOrdId";
        "accountId";
        "branchId";
        "quoteRespId";
        "quoteRespType";
        "side";
        "validUntilTime";
        "quoteType";
        "priceType";
        "quote2";
        "applExtend" ];
  c_tag := "QuoteResponse";
  c_str :=
      [ ("applId", "applId");
        ("reportingPbuid", "reportingPbuid");
        ("submittingPbuid", "submittingPbuid");
        ("securityId", "securityId");
        ("securityIdsource", "securityIdsource");
        ("ownerType", "ownerType");
        ("clearingFirm", "clearingFirm");
        ("transactTime", "transactTime");
        ("userInfo", "userInfo");
        ("clOrdId", "clOrdId");
        ("accountId", "accountId");
        ("branchId", "branchId");
        ("quoteRespId", "quoteRespId");
        ("quoteRespType", "quoteRespType");
        ("side", "side");
        ("validUntilTime", "validUntilTime");
        ("quoteType", "quoteType");
        ("priceType", "priceType");
        ("quote2", "quote2");
        ("applExtend", "applExtend") ];
  c_get :=
      [ ("getApplId", "applId");
        ("getReportingPbuid", "reportingPbuid");
        ("getSubmittingPbuid", "submittingPbuid");
        ("getSecurityId", "securityId");
        ("getSecurityIdsource", "securityIdsource");
        ("getOwnerType", "ownerType");
        ("getClearingFirm", "clearingFirm");
        ("getTransactTime", "transactTime");
        ("getUserInfo", "userInfo");
        ("getClOrdId", "clOrdId");
        ("getAccountId", "accountId");
        ("getBranchId", "branchId");
        ("getQuoteRespId", "quoteRespId");
        ("getQuoteRespType", "quoteRespType");
        ("getSide", "side");
        ("getValidUntilTime", "validUntilTime");
        ("getQuoteType", "quoteType");
        ("getPriceType", "priceType");
        ("getQuote2", "quote2");
        ("getApplExtend", "applExtend") ];
  c_set :=
      [ ("setApplId", "applId");
        ("setReportingPbuid", "reportingPbuid");
        ("setSubmittingPbuid", "submittingPbuid");
        ("setSecurityId", "securityId");
        ("setSecurityIdsource", "securityIdsource");
        ("setOwnerType", "ownerType");
        ("setClearingFirm", "clearingFirm");
        ("setTransactTime", "transactTime");
        ("setUserInfo", "userInfo");
        ("setClOrdId", "clOrdId");
        ("setAccountId", "accountId");
        ("setBranchId", "branchId");
        ("setQuoteRespId", "quoteRespId");
        ("setQuoteRespType", "quoteRespType");
        ("setSide", "side");
        ("setValidUntilTime", "validUntilTime");
        ("setQuoteType", "quoteType");
        ("setPriceType", "priceType");
        ("setQuote2", "quote2");
        ("setApplExtend", "applExtend") ] |}.

(* bjse-bin/src/main/java/com/finproto/bjse/trade/messages/QuoteResponse.java:364-437  class Quote2; fields 365-367; encode 394-398; decode 401-405; hashCode 408-410; equals 413-424; toString 427-436; the rest: getters and setters *)
Definition bjse_QuoteResponse_Quote2 : class_def := {|
  c_name := "bjse.QuoteResponse.Quote2";
  c_fields :=
      [ ("quoteId", TStr);
        ("quotePrice", TLong);
        ("quoteQty", TLong) ];
  c_enc :=
      [ EFix "quoteId" 10 32 false;
        EWrite 8 LE "quotePrice";
        EWrite 8 LE "quoteQty" ];
  c_dec :=
      [ DFix "quoteId" 10 32 false;
        DRead 8 LE "quotePrice";
        DRead 8 LE "quoteQty" ];
  c_eq :=
      [ "quoteId";
        "quotePrice";
        "quoteQty" ];
  c_hash := 
      HashFields [ "quoteId";
        "quotePrice";
        "quoteQty" ];
  c_tag := "Quote2";
  c_str :=
      [ ("quoteId", "quoteId");
        ("quotePrice", "quotePrice");
        ("quoteQty", "quoteQty") ];
  c_get :=
      [ ("getQuoteId", "quoteId");
        ("getQuotePrice", "quotePrice");
        ("getQuoteQty", "quoteQty") ];
  c_set :=
      [ ("setQuoteId", "quoteId");
        ("setQuotePrice", "quotePrice");
        ("setQuoteQty", "quoteQty") ] |}.

(* bjse-bin/src/main/java/com/finproto/bjse/trade/messages/QuoteResponseExtend070.java:8-50  class QuoteResponseExtend070; fields 9-9; encode 20-22; decode 25-27; hashCode 30-32; equals 35-44; toString 47-49; the rest: getters and setters *)
Definition bjse_QuoteResponseExtend070 : class_def := {|
  c_name := "bjse.QuoteResponseExtend070";
  c_fields :=
      [ ("cashMargin", TStr) ];
  c_enc :=
      [ EFix "cashMargin" 1 32 false ];
  c_dec :=
      [ DFix "cashMargin" 1 32 false ];
  c_eq :=
      [ "cashMargin" ];
  c_hash := 
      HashFields [ "cashMargin" ];
  c_tag := "QuoteResponseExtend070";
  c_str :=
      [ ("cashMargin", "cashMargin") ];
  c_get :=
      [ ("getCashMargin", "cashMargin") ];
  c_set :=
      [ ("setCashMargin", "cashMargin") ] |}.

(* bjse-bin/src/main/java/com/finproto/bjse/trade/messages/QuoteStatusReport.java:11-389  class QuoteStatusReport; fields 12-32; encode 203-227; decode 230-253; hashCode 256-279; equals 282-311; toString 314-359; the rest: getters and setters *)
Definition bjse_QuoteStatusReport : class_def := {|
  c_name := "bjse.QuoteStatusReport";
  c_fields :=
      [ ("partitionNo", TInt);
        ("reportIndex", TLong);
        ("applId", TStr);
        ("reportingPbuid", TStr);
        ("submittingPbuid", TStr);
        ("securityId", TStr);
        ("securityIdsource", TStr);
        ("ownerType", TShort);
        ("clearingFirm", TStr);
        ("transactTime", TLong);
        ("userInfo", TStr);
        ("quoteMsgId", TStr);
        ("accountId", TStr);
        ("quoteReqId", TStr);
        ("quoteRjectReason", TLong);
        ("quoteType", TByte);
        ("bidPx", TLong);
        ("offerPx", TLong);
        ("bidSize", TLong);
        ("offerSize", TLong);
        ("applExtend", TCodec) ];
  c_enc :=
      [ EWrite 4 LE "partitionNo";
        EWrite 8 LE "reportIndex";
        EFix "applId" 3 32 false;
        EFix "reportingPbuid" 6 32 false;
        EFix "submittingPbuid" 6 32 false;
        EFix "securityId" 8 32 false;
        EFix "securityIdsource" 4 32 false;
        EWrite 2 LE "ownerType";
        EFix "clearingFirm" 2 32 false;
        EWrite 8 LE "transactTime";
        EFix "userInfo" 32 32 false;
        EFix "quoteMsgId" 10 32 false;
        EFix "accountId" 10 32 false;
        EFix "quoteReqId" 10 32 false;
        EWrite 8 LE "quoteRjectReason";
        EWrite 1 BE "quoteType";
        EWrite 8 LE "bidPx";
        EWrite 8 LE "offerPx";
        EWrite 8 LE "bidSize";
        EWrite 8 LE "offerSize";
        EObjOpt "applExtend" ];
  c_dec :=
      [ DRead 4 LE "partitionNo";
        DRead 8 LE "reportIndex";
        DFix "applId" 3 32 false;
        DFix "reportingPbuid" 6 32 false;
        DFix "submittingPbuid" 6 32 false;
        DFix "securityId" 8 32 false;
        DFix "securityIdsource" 4 32 false;
        DRead 2 LE "ownerType";
        DFix "clearingFirm" 2 32 false;
        DRead 8 LE "transactTime";
        DFix "userInfo" 32 32 false;
        DFix "quoteMsgId" 10 32 false;
        DFix "accountId" 10 32 false;
        DFix "quoteReqId" 10 32 false;
        DRead 8 LE "quoteRjectReason";
        DRead 1 BE "quoteType";
        DRead 8 LE "bidPx";
        DRead 8 LE "offerPx";
        DRead 8 LE "bidSize";
        DRead 8 LE "offerSize";
        DCreate "applExtend" "applId";
        DObj "applExtend" ];
  c_eq :=
      [ "partitionNo";
        "reportIndex";
        "applId";
        "reportingPbuid";
        "submittingPbuid";
        "securityId";
        "securityIdsource";
        "ownerType";
        "clearingFirm";
        "transactTime";
        "userInfo";
        "quoteMsgId";
        "accountId";
        "quoteReqId";
        "quoteRjectReason";
        "quoteType";
        "bidPx";
        "offerPx";
        "bidSize";
        "offerSize";
        "applExtend" ];
  c_hash := 
      HashFields [ "partitionNo";
        "reportIndex";
        "applId";
        "reportingPbuid";
        "submittingPbuid";
        "securityId";
        "securityIdsource";
        "ownerType";
        "clearingFirm";
        "transactTime";
        "userInfo";
        "quoteMsgId";
        "accountId";
        "quoteReqId";
        "quoteRjectReason";
        "quoteType";
        "bidPx";
        "offerPx";
        "bidSize";
        "offerSize";
        "applExtend" ];
  c_tag := "QuoteStatusReport";
  c_str :=
      [ ("partitionNo", "partitionNo");
        ("reportIndex", "reportIndex");
        ("applId", "applId");
        ("reportingPbuid", "reportingPbuid");
        ("submittingPbuid", "submittingPbuid");
        ("securityId", "securityId");
        ("securityIdsource", "securityIdsource");
        ("ownerType", "ownerType");
        ("clearingFirm", "clearingFirm");
        ("transactTime", "transactTime");
        ("userInfo", "userInfo");
        ("quoteMsgId", "quoteMsgId");
        ("accountId", "accountId");
        ("quoteReqId", "quoteReqId");
        ("quoteRjectReason", "quoteRjectReason");
        ("quoteType", "quoteType");
        ("bidPx", "bidPx");
        ("offerPx", "offerPx");
        ("bidSize", "bidSize");
        ("offerSize", "offerSize");
        ("applExtend", "applExtend") ];
  c_get :=
      [ ("getPartitionNo", "partitionNo");
        ("getReportIndex", "reportIndex");
        ("getApplId", "applId");
        ("getReportingPbuid", "reportingPbuid");
        ("getSubmittingPbuid", "submittingPbuid");
        ("getSecurityId", "securityId");
        ("getSecurityIdsource", "securityIdsource");
        ("getOwnerType", "ownerType");
        ("getClearingFirm", "clearingFirm");
        ("getTransactTime", "transactTime");
        ("getUserInfo", "userInfo");
        ("getQuoteMsgId", "quoteMsgId");
        ("getAccountId", "accountId");
        ("getQuoteReqId", "quoteReqId");
        ("getQuoteRjectReason", "quoteRjectReason");
        ("getQuoteType", "quoteType");
        ("getBidPx", "bidPx");
        ("getOfferPx", "offerPx");
        ("getBidSize", "bidSize");
        ("getOfferSize", "offerSize");
        ("getApplExtend", "applExtend") ];
  c_set :=
      [ ("setPartitionNo", "partitionNo");
        ("setReportIndex", "reportIndex");
        ("setApplId", "applId");
        ("setReportingPbuid", "reportingPbuid");
        ("setSubmittingPbuid", "submittingPbuid");
        ("setSecurityId", "securityId");
        ("setSecurityIdsource", "securityIdsource");
        ("setOwnerType", "ownerType");
        ("setClearingFirm", "clearingFirm");
        ("setTransactTime", "transactTime");
        ("setUserInfo", "userInfo");
        ("setQuoteMsgId", "quoteMsgId");
        ("setAccountId", "accountId");
        ("setQuoteReqId", "quoteReqId");
        ("setQuoteRjectReason", "quoteRjectReason");
        ("setQuoteType", "quoteType");
        ("setBidPx", "bidPx");
        ("setOfferPx", "offerPx");
        ("setBidSize", "bidSize");
        ("setOfferSize", "offerSize");
        ("setApplExtend", "applExtend") ] |}.

(* bjse-bin/src/main/java/com/finproto/bjse/trade/messages/QuoteStatusReportExtend070.java:10-312  class QuoteStatusReportExtend070; fields 11-22; encode 121-141; decode 144-165; hashCode 168-182; equals 185-205; toString 208-235; the rest: getters and setters *)
Definition bjse_QuoteStatusReportExtend070 : class_def := {|
  c_name := "bjse.QuoteStatusReportExtend070";
  c_fields :=
      [ ("branchId", TStr);
        ("orderId", TStr);
        ("execId", TStr);
        ("quoteRespId", TStr);
        ("privateQuote", TByte);
        ("side", TStr);
        ("priceType", TByte);
        ("validUntilTime", TLong);
        ("cashMargin", TStr);
        ("counterPartyPbuid", TStr);
        ("memo", TStr);
        ("quote1", (TList (TObj "bjse.QuoteStatusReportExtend070.Quote1"))) ];
  c_enc :=
      [ EFix "branchId" 2 32 false;
        EFix "orderId" 16 32 false;
        EFix "execId" 16 32 false;
        EFix "quoteRespId" 10 32 false;
        EWrite 1 BE "privateQuote";
        EFix "side" 1 32 false;
        EWrite 1 BE "priceType";
        EWrite 8 LE "validUntilTime";
        EFix "cashMargin" 1 32 false;
        EFix "counterPartyPbuid" 6 32 false;
        EFix "memo" 120 32 false;
        EList "quote1" 2 BE 16 2 LE XObj ];
  c_dec :=
      [ DFix "branchId" 2 32 false;
        DFix "orderId" 16 32 false;
        DFix "execId" 16 32 false;
        DFix "quoteRespId" 10 32 false;
        DRead 1 BE "privateQuote";
        DFix "side" 1 32 false;
        DRead 1 BE "priceType";
        DRead 8 LE "validUntilTime";
        DFix "cashMargin" 1 32 false;
        DFix "counterPartyPbuid" 6 32 false;
        DFix "memo" 120 32 false;
        DList "quote1" 2 LE (YObj "bjse.QuoteStatusReportExtend070.Quote1") ];
  c_eq :=
      [ "branchId";
        "orderId";
        "execId";
        "quoteRespId";
        "privateQuote";
        "side";
        "priceType";
        "validUntilTime";
        "cashMargin";
        "counterPartyPbuid";
        "memo";
        "quote1" ];
  c_hash := 
      HashFields [ "branchId";
        "orderId";
        "execId";
        "quoteRespId";
        "privateQuote";
        "side";
        "priceType";
        "validUntilTime";
        "cashMargin";
        "counterPartyPbuid";
        "memo";
        "quote1" ];
  c_tag := "QuoteStatusReportExtend070";
  c_str :=
      [ ("branchId", "branchId");
        ("orderId", "orderId");
        ("execId", "execId");
        ("quoteRespId", "quoteRespId");
        ("privateQuote", "privateQuote");
        ("side", "side");
        ("priceType", "priceType");
        ("validUntilTime", "validUntilTime");
        ("cashMargin", "cashMargin");
        ("counterPartyPbuid", "counterPartyPbuid");
        ("memo", "memo");
        ("quote1", "quote1") ];
  c_get :=
      [ ("getBranchId", "branchId");
        ("getOrderId", "orderId");
        ("getExecId", "execId");
        ("getQuoteRespId", "quoteRespId");
        ("getPrivateQuote", "privateQuote");
        ("getSide", "side");
        ("getPriceType", "priceType");
        ("getValidUntilTime", "validUntilTime");
        ("getCashMargin", "cashMargin");
        ("getCounterPartyPbuid", "counterPartyPbuid");
        ("getMemo", "memo");
        ("getQuote1", "quote1") ];
  c_set :=
      [ ("setBranchId", "branchId");
        ("setOrderId", "orderId");
        ("setExecId", "execId");
        ("setQuoteRespId", "quoteRespId");
        ("setPrivateQuote", "privateQuote");
        ("setSide", "side");
        ("setPriceType", "priceType");
        ("setValidUntilTime", "validUntilTime");
        ("setCashMargin", "cashMargin");
        ("setCounterPartyPbuid", "counterPartyPbuid");
        ("setMemo", "memo");
        ("setQuote1", "quote1") ] |}.

(* bjse-bin/src/main/java/com/finproto/bjse/trade/messages/QuoteStatusReportExtend070.java:238-311  class Quote1; fields 239-241; encode 268-272; decode 275-279; hashCode 282-284; equals 287-298; toString 301-310; the rest: getters and setters *)
Definition bjse_QuoteStatusReportExtend070_Quote1 : class_def := {|
  c_name := "bjse.QuoteStatusReportExtend070.Quote1";
  c_fields :=
      [ ("quoteId", TStr);
        ("quotePrice", TLong);
        ("quoteQty", TLong) ];
  c_enc :=
      [ EFix "quoteId" 10 32 false;
        EWrite 8 LE "quotePrice";
        EWrite 8 LE "quoteQty" ];
  c_dec :=
      [ DFix "quoteId" 10 32 false;
        DRead 8 LE "quotePrice";
        DRead 8 LE "quoteQty" ];
  c_eq :=
      [ "quoteId";
        "quotePrice";
        "quoteQty" ];
  c_hash := 
      HashFields [ "quoteId";
        "quotePrice";
        "quoteQty" ];
  c_tag := "Quote1";
  c_str :=
      [ ("quoteId", "quoteId");
        ("quotePrice", "quotePrice");
        ("quoteQty", "quoteQty") ];
  c_get :=
      [ ("getQuoteId", "quoteId");
        ("getQuotePrice", "quotePrice");
        ("getQuoteQty", "quoteQty") ];
  c_set :=
      [ ("setQuoteId", "quoteId");
        ("setQuotePrice", "quotePrice");
        ("setQuoteQty", "quoteQty") ] |}.

(* bjse-bin/src/main/java/com/finproto/bjse/trade/messages/ReportExtend010.java:8-81  class ReportExtend010; fields 9-11; encode 38-42; decode 45-49; hashCode 52-54; equals 57-68; toString 71-80; the rest: getters and setters *)
Definition bjse_ReportExtend010 : class_def := {|
  c_name := "bjse.ReportExtend010";
  c_fields :=
      [ ("cashMargin", TStr);
        ("settlType", TStr);
        ("settlPeriod", TStr) ];
  c_enc :=
      [ EFix "cashMargin" 1 32 false;
        EFix "settlType" 1 32 false;
        EFix "settlPeriod" 1 32 false ];
  c_dec :=
      [ DFix "cashMargin" 1 32 false;
        DFix "settlType" 1 32 false;
        DFix "settlPeriod" 1 32 false ];
  c_eq :=
      [ "cashMargin";
        "settlType";
        "settlPeriod" ];
  c_hash := 
      HashFields [ "cashMargin";
        "settlType";
        "settlPeriod" ];
  c_tag := "ReportExtend010";
  c_str :=
      [ ("cashMargin", "cashMargin");
        ("settlType", "settlType");
        ("settlPeriod", "settlPeriod") ];
  c_get :=
      [ ("getCashMargin", "cashMargin");
        ("getSettlType", "settlType");
        ("getSettlPeriod", "settlPeriod") ];
  c_set :=
      [ ("setCashMargin", "cashMargin");
        ("setSettlType", "settlType");
        ("setSettlPeriod", "settlPeriod") ] |}.

(* bjse-bin/src/main/java/com/finproto/bjse/trade/messages/ReportExtend040.java:8-50  class ReportExtend040; fields 9-9; encode 20-22; decode 25-27; hashCode 30-32; equals 35-44; toString 47-49; the rest: getters and setters *)
Definition bjse_ReportExtend040 : class_def := {|
  c_name := "bjse.ReportExtend040";
  c_fields :=
      [ ("cashMargin", TStr) ];
  c_enc :=
      [ EFix "cashMargin" 1 32 false ];
  c_dec :=
      [ DFix "cashMargin" 1 32 false ];
  c_eq :=
      [ "cashMargin" ];
  c_hash := 
      HashFields [ "cashMargin" ];
  c_tag := "ReportExtend040";
  c_str :=
      [ ("cashMargin", "cashMargin") ];
  c_get :=
      [ ("getCashMargin", "cashMargin") ];
  c_set :=
      [ ("setCashMargin", "cashMargin") ] |}.

(* bjse-bin/src/main/java/com/finproto/bjse/trade/messages/ReportExtend050.java:8-95  class ReportExtend050; fields 9-12; encode 47-52; decode 55-60; hashCode 63-65; equals 68-80; toString 83-94; the rest: getters and setters *)
Definition bjse_ReportExtend050 : class_def := {|
  c_name := "bjse.ReportExtend050";
  c_fields :=
      [ ("expirationDays", TShort);
        ("expirationType", TByte);
        ("maturityDate", TInt);
        ("shareProperty", TStr) ];
  c_enc :=
      [ EWrite 2 LE "expirationDays";
        EWrite 1 BE "expirationType";
        EWrite 4 LE "maturityDate";
        EFix "shareProperty" 2 32 false ];
  c_dec :=
      [ DRead 2 LE "expirationDays";
        DRead 1 BE "expirationType";
        DRead 4 LE "maturityDate";
        DFix "shareProperty" 2 32 false ];
  c_eq :=
      [ "expirationDays";
        "expirationType";
        "maturityDate";
        "shareProperty" ];
  c_hash := 
      HashFields [ "expirationDays";
        "expirationType";
        "maturityDate";
        "shareProperty" ];
  c_tag := "ReportExtend050";
  c_str :=
      [ ("expirationDays", "expirationDays");
        ("expirationType", "expirationType");
        ("maturityDate", "maturityDate");
        ("shareProperty", "shareProperty") ];
  c_get :=
      [ ("getExpirationDays", "expirationDays");
        ("getExpirationType", "expirationType");
        ("getMaturityDate", "maturityDate");
        ("getShareProperty", "shareProperty") ];
  c_set :=
      [ ("setExpirationDays", "expirationDays");
        ("setExpirationType", "expirationType");
        ("setMaturityDate", "maturityDate");
        ("setShareProperty", "shareProperty") ] |}.

(* bjse-bin/src/main/java/com/finproto/bjse/trade/messages/ReportFinished.java:8-81  class ReportFinished; fields 9-11; encode 38-42; decode 45-49; hashCode 52-54; equals 57-68; toString 71-80; the rest: getters and setters *)
Definition bjse_ReportFinished : class_def := {|
  c_name := "bjse.ReportFinished";
  c_fields :=
      [ ("partitionNo", TInt);
        ("reportIndex", TLong);
        ("platformId", TShort) ];
  c_enc :=
      [ EWrite 4 LE "partitionNo";
        EWrite 8 LE "reportIndex";
        EWrite 2 LE "platformId" ];
  c_dec :=
      [ DRead 4 LE "partitionNo";
        DRead 8 LE "reportIndex";
        DRead 2 LE "platformId" ];
  c_eq :=
      [ "partitionNo";
        "reportIndex";
        "platformId" ];
  c_hash := 
      HashFields [ "partitionNo";
        "reportIndex";
        "platformId" ];
  c_tag := "ReportFinished";
  c_str :=
      [ ("partitionNo", "partitionNo");
        ("reportIndex", "reportIndex");
        ("platformId", "platformId") ];
  c_get :=
      [ ("getPartitionNo", "partitionNo");
        ("getReportIndex", "reportIndex");
        ("getPlatformId", "platformId") ];
  c_set :=
      [ ("setPartitionNo", "partitionNo");
        ("setReportIndex", "reportIndex");
        ("setPlatformId", "platformId") ] |}.

(* bjse-bin/src/main/java/com/finproto/bjse/trade/messages/ReportSynchronization.java:10-129  class ReportSynchronization; fields 11-11; encode 22-31; decode 34-44; hashCode 47-49; equals 52-61; toString 64-66; the rest: getters and setters *)
Definition bjse_ReportSynchronization : class_def := {|
  c_name := "bjse.ReportSynchronization";
  c_fields :=
      [ ("reportPartitionSync", (TList (TObj "bjse.ReportSynchronization.ReportPartitionSync"))) ];
  c_enc :=
      [ EList "reportPartitionSync" 2 BE 16 2 LE XObj ];
  c_dec :=
      [ DList "reportPartitionSync" 2 LE (YObj "bjse.ReportSynchronization.ReportPartitionSync") ];
  c_eq :=
      [ "reportPartitionSync" ];
  c_hash := 
      HashFields [ "reportPartitionSync" ];
  c_tag := "ReportSynchronization";
  c_str :=
      [ ("reportPartitionSync", "reportPartitionSync") ];
  c_get :=
      [ ("getReportPartitionSync", "reportPartitionSync") ];
  c_set :=
      [ ("setReportPartitionSync", "reportPartitionSync") ] |}.

(* bjse-bin/src/main/java/com/finproto/bjse/trade/messages/ReportSynchronization.java:69-128  class ReportPartitionSync; fields 70-71; encode 90-93; decode 96-99; hashCode 102-104; equals 107-117; toString 120-127; the rest: getters and setters *)
Definition bjse_ReportSynchronization_ReportPartitionSync : class_def := {|
  c_name := "bjse.ReportSynchronization.ReportPartitionSync";
  c_fields :=
      [ ("partitionNo", TInt);
        ("reportIndex", TLong) ];
  c_enc :=
      [ EWrite 4 LE "partitionNo";
        EWrite 8 LE "reportIndex" ];
  c_dec :=
      [ DRead 4 LE "partitionNo";
        DRead 8 LE "reportIndex" ];
  c_eq :=
      [ "partitionNo";
        "reportIndex" ];
  c_hash := 
      HashFields [ "partitionNo";
        "reportIndex" ];
  c_tag := "ReportPartitionSync";
  c_str :=
      [ ("partitionNo", "partitionNo");
        ("reportIndex", "reportIndex") ];
  c_get :=
      [ ("getPartitionNo", "partitionNo");
        ("getReportIndex", "reportIndex") ];
  c_set :=
      [ ("setPartitionNo", "partitionNo");
        ("setReportIndex", "reportIndex") ] |}.

(* bjse-bin/src/main/java/com/finproto/bjse/trade/messages/TradeCaptureCofirm.java:11-513  class TradeCaptureCofirm; fields 12-41; encode 284-317; decode 320-352; hashCode 373-405; equals 408-446; toString 449-512; the rest: getters and setters *)
Definition bjse_TradeCaptureCofirm : class_def := {|
  c_name := "bjse.TradeCaptureCofirm";
  c_fields :=
      [ ("partitionNo", TInt);
        ("reportIndex", TLong);
        ("applId", TStr);
        ("reportingPbuid", TStr);
        ("submittingPbuid", TStr);
        ("securityId", TStr);
        ("securityIdsource", TStr);
        ("ownerType", TShort);
        ("clearingFirm", TStr);
        ("transactTime", TLong);
        ("userInfo", TStr);
        ("tradeId", TStr);
        ("tradeReportId", TStr);
        ("tradeReportType", TByte);
        ("tradeReportTransType", TByte);
        ("tradeHandlingInstr", TByte);
        ("lastPx", TLong);
        ("lastQty", TLong);
        ("trdType", TShort);
        ("trdSubType", TShort);
        ("confirmId", TInt);
        ("execId", TStr);
        ("side", TByte);
        ("pbuid", TStr);
        ("accountId", TStr);
        ("branchId", TStr);
        ("counterPartyPbuid", TStr);
        ("counterPartyAccountId", TStr);
        ("counterPartyBranchId", TStr);
        ("applExtend", TCodec) ];
  c_enc :=
      [ EWrite 4 LE "partitionNo";
        EWrite 8 LE "reportIndex";
        EFix "applId" 3 32 false;
        EFix "reportingPbuid" 6 32 false;
        EFix "submittingPbuid" 6 32 false;
        EFix "securityId" 8 32 false;
        EFix "securityIdsource" 4 32 false;
        EWrite 2 LE "ownerType";
        EFix "clearingFirm" 2 32 false;
        EWrite 8 LE "transactTime";
        EFix "userInfo" 32 32 false;
        EFix "tradeId" 16 32 false;
        EFix "tradeReportId" 10 32 false;
        EWrite 1 BE "tradeReportType";
        EWrite 1 BE "tradeReportTransType";
        EWrite 1 BE "tradeHandlingInstr";
        EWrite 8 LE "lastPx";
        EWrite 8 LE "lastQty";
        EWrite 2 LE "trdType";
        EWrite 2 LE "trdSubType";
        EWrite 4 LE "confirmId";
        EFix "execId" 16 32 false;
        EWrite 1 BE "side";
        EFix "pbuid" 6 32 false;
        EFix "accountId" 10 32 false;
        EFix "branchId" 2 32 false;
        EFix "counterPartyPbuid" 6 32 false;
        EFix "counterPartyAccountId" 10 32 false;
        EFix "counterPartyBranchId" 2 32 false;
        EObjOpt "applExtend" ];
  c_dec :=
      [ DRead 4 LE "partitionNo";
        DRead 8 LE "reportIndex";
        DFix "applId" 3 32 false;
        DFix "reportingPbuid" 6 32 false;
        DFix "submittingPbuid" 6 32 false;
        DFix "securityId" 8 32 false;
        DFix "securityIdsource" 4 32 false;
        DRead 2 LE "ownerType";
        DFix "clearingFirm" 2 32 false;
        DRead 8 LE "transactTime";
        DFix "userInfo" 32 32 false;
        DFix "tradeId" 16 32 false;
        DFix "tradeReportId" 10 32 false;
        DRead 1 BE "tradeReportType";
        DRead 1 BE "tradeReportTransType";
        DRead 1 BE "tradeHandlingInstr";
        DRead 8 LE "lastPx";
        DRead 8 LE "lastQty";
        DRead 2 LE "trdType";
        DRead 2 LE "trdSubType";
        DRead 4 LE "confirmId";
        DFix "execId" 16 32 false;
        DRead 1 BE "side";
        DFix "pbuid" 6 32 false;
        DFix "accountId" 10 32 false;
        DFix "branchId" 2 32 false;
        DFix "counterPartyPbuid" 6 32 false;
        DFix "counterPartyAccountId" 10 32 false;
        DFix "counterPartyBranchId" 2 32 false;
        DCreate "applExtend" "applId";
        DObj "applExtend" ];
  c_eq :=
      [ "partitionNo";
        "reportIndex";
        "applId";
        "reportingPbuid";
        "submittingPbuid";
        "securityId";
        "securityIdsource";
        "ownerType";
        "clearingFirm";
        "transactTime";
        "userInfo";
        "tradeId";
        "tradeReportId";
        "tradeReportType";
        "tradeReportTransType";
        "tradeHandlingInstr";
        "lastPx";
        "lastQty";
        "trdType";
        "trdSubType";
        "confirmId";
        "execId";
        "side";
        "pbuid";
        "accountId";
        "branchId";
        "counterPartyPbuid";
        "counterPartyAccountId";
        "counterPartyBranchId";
        "applExtend" ];
  c_hash := 
      HashFields [ "partitionNo";
        "reportIndex";
        "applId";
        "reportingPbuid";
        "submittingPbuid";
        "securityId";
        "securityIdsource";
        "ownerType";
        "clearingFirm";
        "transactTime";
        "userInfo";
        "tradeId";
        "tradeReportId";
        "tradeReportType";
        "tradeReportTransType";
        "tradeHandlingInstr";
        "lastPx";
        "lastQty";
        "trdType";
        "trdSubType";
        "confirmId";
        "execId";
        "side";
        "pbuid";
        "accountId";
        "branchId";
        "counterPartyPbuid";
        "counterPartyAccountId";
        "counterPartyBranchId";
        "applExtend" ];
  c_tag := "TradeCaptureCofirm";
  c_str :=
      [ ("partitionNo", "partitionNo");
        ("reportIndex", "reportIndex");
        ("applId", "applId");
        ("reportingPbuid", "reportingPbuid");
        ("submittingPbuid", "submittingPbuid");
        ("securityId", "securityId");
        ("securityIdsource", "securityIdsource");
        ("ownerType", "ownerType");
        ("clearingFirm", "clearingFirm");
        ("transactTime", "transactTime");
        ("userInfo", "userInfo");
        ("tradeId", "tradeId");
        ("tradeReportId", "tradeReportId");
        ("tradeReportType", "tradeReportType");
        ("tradeReportTransType", "tradeReportTransType");
        ("tradeHandlingInstr", "tradeHandlingInstr");
        ("lastPx", "lastPx");
        ("lastQty", "lastQty");
        ("trdType", "trdType");
        ("trdSubType", "trdSubType");
        ("confirmId", "confirmId");
        ("execId", "execId");
        ("side", "side");
        ("pbuid", "pbuid");
        ("accountId", "accountId");
        ("branchId", "branchId");
        ("counterPartyPbuid", "counterPartyPbuid");
        ("counterPartyAccountId", "counterPartyAccountId");
        ("counterPartyBranchId", "counterPartyBranchId");
        ("applExtend", "applExtend") ];
  c_get :=
      [ ("getPartitionNo", "partitionNo");
        ("getReportIndex", "reportIndex");
        ("getApplId", "applId");
        ("getReportingPbuid", "reportingPbuid");
        ("getSubmittingPbuid", "submittingPbuid");
        ("getSecurityId", "securityId");
        ("getSecurityIdsource", "securityIdsource");
        ("getOwnerType", "ownerType");
        ("getClearingFirm", "clearingFirm");
        ("getTransactTime", "transactTime");
        ("getUserInfo", "userInfo");
        ("getTradeId", "tradeId");
        ("getTradeReportId", "tradeReportId");
        ("getTradeReportType", "tradeReportType");
        ("getTradeReportTransType", "tradeReportTransType");
        ("getTradeHandlingInstr", "tradeHandlingInstr");
        ("getLastPx", "lastPx");
        ("getLastQty", "lastQty");
        ("getTrdType", "trdType");
        ("getTrdSubType", "trdSubType");
        ("getConfirmId", "confirmId");
        ("getExecId", "execId");
        ("getSide", "side");
        ("getPbuid", "pbuid");
        ("getAccountId", "accountId");
        ("getBranchId", "branchId");
        ("getCounterPartyPbuid", "counterPartyPbuid");
        ("getCounterPartyAccountId", "counterPartyAccountId");
        ("getCounterPartyBranchId", "counterPartyBranchId");
        ("getApplExtend", "applExtend") ];
  c_set :=
      [ ("setPartitionNo", "partitionNo");
        ("setReportIndex", "reportIndex");
        ("setApplId", "applId");
        ("setReportingPbuid", "reportingPbuid");
        ("setSubmittingPbuid", "submittingPbuid");
        ("setSecurityId", "securityId");
        ("setSecurityIdsource", "securityIdsource");
        ("setOwnerType", "ownerType");
        ("setClearingFirm", "clearingFirm");
        ("setTransactTime", "transactTime");
        ("setUserInfo", "userInfo");
        ("setTradeId", "tradeId");
        ("setTradeReportId", "tradeReportId");
        ("setTradeReportType", "tradeReportType");
        ("setTradeReportTransType", "tradeReportTransType");
        ("setTradeHandlingInstr", "tradeHandlingInstr");
        ("setLastPx", "lastPx");
        ("setLastQty", "lastQty");
        ("setTrdType", "trdType");
        ("setTrdSubType", "trdSubType");
        ("setConfirmId", "confirmId");
        ("setExecId", "execId");
        ("setSide", "side");
        ("setPbuid", "pbuid");
        ("setAccountId", "accountId");
        ("setBranchId", "branchId");
        ("setCounterPartyPbuid", "counterPartyPbuid");
        ("setCounterPartyAccountId", "counterPartyAccountId");
        ("setCounterPartyBranchId", "counterPartyBranchId");
        ("setApplExtend", "applExtend") ] |}.

(* bjse-bin/src/main/java/com/finproto/bjse/trade/messages/TradeCaptureCofirmExtend031.java:8-159  class TradeCaptureCofirmExtend031; fields 9-16; encode 83-92; decode 95-104; hashCode 107-117; equals 120-136; toString 139-158; the rest: getters and setters *)
Definition bjse_TradeCaptureCofirmExtend031 : class_def := {|
  c_name := "bjse.TradeCaptureCofirmExtend031";
  c_fields :=
      [ ("memberId", TStr);
        ("traderCode", TStr);
        ("counterPartyMemberId", TStr);
        ("counterPartyTraderCode", TStr);
        ("settlType", TByte);
        ("settlPeriod", TByte);
        ("cashMargin", TByte);
        ("memo", TStr) ];
  c_enc :=
      [ EFix "memberId" 6 32 false;
        EFix "traderCode" 5 32 false;
        EFix "counterPartyMemberId" 6 32 false;
        EFix "counterPartyTraderCode" 5 32 false;
        EWrite 1 BE "settlType";
        EWrite 1 BE "settlPeriod";
        EWrite 1 BE "cashMargin";
        EFix "memo" 120 32 false ];
  c_dec :=
      [ DFix "memberId" 6 32 false;
        DFix "traderCode" 5 32 false;
        DFix "counterPartyMemberId" 6 32 false;
        DFix "counterPartyTraderCode" 5 32 false;
        DRead 1 BE "settlType";
        DRead 1 BE "settlPeriod";
        DRead 1 BE "cashMargin";
        DFix "memo" 120 32 false ];
  c_eq :=
      [ "memberId";
        "traderCode";
        "counterPartyMemberId";
        "counterPartyTraderCode";
        "settlType";
        "settlPeriod";
        "cashMargin";
        "memo" ];
  c_hash := 
      HashFields [ "memberId";
        "traderCode";
        "counterPartyMemberId";
        "counterPartyTraderCode";
        "settlType";
        "settlPeriod";
        "cashMargin";
        "memo" ];
  c_tag := "TradeCaptureCofirmExtend031";
  c_str :=
      [ ("memberId", "memberId");
        ("traderCode", "traderCode");
        ("counterPartyMemberId", "counterPartyMemberId");
        ("counterPartyTraderCode", "counterPartyTraderCode");
        ("settlType", "settlType");
        ("settlPeriod", "settlPeriod");
        ("cashMargin", "cashMargin");
        ("memo", "memo") ];
  c_get :=
      [ ("getMemberId", "memberId");
        ("getTraderCode", "traderCode");
        ("getCounterPartyMemberId", "counterPartyMemberId");
        ("getCounterPartyTraderCode", "counterPartyTraderCode");
        ("getSettlType", "settlType");
        ("getSettlPeriod", "settlPeriod");
        ("getCashMargin", "cashMargin");
        ("getMemo", "memo") ];
  c_set :=
      [ ("setMemberId", "memberId");
        ("setTraderCode", "traderCode");
        ("setCounterPartyMemberId", "counterPartyMemberId");
        ("setCounterPartyTraderCode", "counterPartyTraderCode");
        ("setSettlType", "settlType");
        ("setSettlPeriod", "settlPeriod");
        ("setCashMargin", "cashMargin");
        ("setMemo", "memo") ] |}.

(* bjse-bin/src/main/java/com/finproto/bjse/trade/messages/TradeCaptureCofirmExtend051.java:8-95  class TradeCaptureCofirmExtend051; fields 9-12; encode 47-52; decode 55-60; hashCode 63-65; equals 68-80; toString 83-94; the rest: getters and setters *)
Definition bjse_TradeCaptureCofirmExtend051 : class_def := {|
  c_name := "bjse.TradeCaptureCofirmExtend051";
  c_fields :=
      [ ("expirationDays", TShort);
        ("expirationType", TByte);
        ("maturityDate", TInt);
        ("shareProperty", TStr) ];
  c_enc :=
      [ EWrite 2 LE "expirationDays";
        EWrite 1 BE "expirationType";
        EWrite 4 LE "maturityDate";
        EFix "shareProperty" 2 32 false ];
  c_dec :=
      [ DRead 2 LE "expirationDays";
        DRead 1 BE "expirationType";
        DRead 4 LE "maturityDate";
        DFix "shareProperty" 2 32 false ];
  c_eq :=
      [ "expirationDays";
        "expirationType";
        "maturityDate";
        "shareProperty" ];
  c_hash := 
      HashFields [ "expirationDays";
        "expirationType";
        "maturityDate";
        "shareProperty" ];
  c_tag := "TradeCaptureCofirmExtend051";
  c_str :=
      [ ("expirationDays", "expirationDays");
        ("expirationType", "expirationType");
        ("maturityDate", "maturityDate");
        ("shareProperty", "shareProperty") ];
  c_get :=
      [ ("getExpirationDays", "expirationDays");
        ("getExpirationType", "expirationType");
        ("getMaturityDate", "maturityDate");
        ("getShareProperty", "shareProperty") ];
  c_set :=
      [ ("setExpirationDays", "expirationDays");
        ("setExpirationType", "expirationType");
        ("setMaturityDate", "maturityDate");
        ("setShareProperty", "shareProperty") ] |}.

(* bjse-bin/src/main/java/com/finproto/bjse/trade/messages/TradeCaptureCofirmExtend060.java:7-35  class TradeCaptureCofirmExtend060; fields none; encode 10-10; decode 13-13; hashCode 16-18; equals 21-29; toString 32-34; the rest: getters and setters *)
Definition bjse_TradeCaptureCofirmExtend060 : class_def := {|
  c_name := "bjse.TradeCaptureCofirmExtend060";
  c_fields :=
      [];
  c_enc :=
      [];
  c_dec :=
      [];
  c_eq :=
      [];
  c_hash := HashSelf;
  c_tag := "TradeCaptureCofirmExtend060";
  c_str :=
      [];
  c_get :=
      [];
  c_set :=
      [] |}.

(* bjse-bin/src/main/java/com/finproto/bjse/trade/messages/TradeCaptureCofirmExtend061.java:7-35  class TradeCaptureCofirmExtend061; fields none; encode 10-10; decode 13-13; hashCode 16-18; equals 21-29; toString 32-34; the rest: getters and setters *)
Definition bjse_TradeCaptureCofirmExtend061 : class_def := {|
  c_name := "bjse.TradeCaptureCofirmExtend061";
  c_fields :=
      [];
  c_enc :=
      [];
  c_dec :=
      [];
  c_eq :=
      [];
  c_hash := HashSelf;
  c_tag := "TradeCaptureCofirmExtend061";
  c_str :=
      [];
  c_get :=
      [];
  c_set :=
      [] |}.

(* bjse-bin/src/main/java/com/finproto/bjse/trade/messages/TradeCaptureCofirmExtend062.java:8-50  class TradeCaptureCofirmExtend062; fields 9-9; encode 20-22; decode 25-27; hashCode 30-32; equals 35-44; toString 47-49; the rest: getters and setters *)
Definition bjse_TradeCaptureCofirmExtend062 : class_def := {|
  c_name := "bjse.TradeCaptureCofirmExtend062";
  c_fields :=
      [ ("cashMargin", TByte) ];
  c_enc :=
      [ EWrite 1 BE "cashMargin" ];
  c_dec :=
      [ DRead 1 BE "cashMargin" ];
  c_eq :=
      [ "cashMargin" ];
  c_hash := 
      HashFields [ "cashMargin" ];
  c_tag := "TradeCaptureCofirmExtend062";
  c_str :=
      [ ("cashMargin", "cashMargin") ];
  c_get :=
      [ ("getCashMargin", "cashMargin") ];
  c_set :=
      [ ("setCashMargin", "cashMargin") ] |}.

(* bjse-bin/src/main/java/com/finproto/bjse/trade/messages/TradeCaptureConfirm.java:11-528  class TradeCaptureConfirm; fields 12-41; encode 284-317; decode 320-352; hashCode 355-387; equals 390-428; toString 431-494; the rest: getters and setters *)
Definition bjse_TradeCaptureConfirm : class_def := {|
  c_name := "bjse.TradeCaptureConfirm";
  c_fields :=
      [ ("partitionNo", TInt);
        ("reportIndex", TLong);
        ("applId", TStr);
        ("reportingPbuid", TStr);
        ("submittingPbuid", TStr);
        ("securityId", TStr);
        ("securityIdsource", TStr);
        ("ownerType", TShort);
        ("clearingFirm", TStr);
        ("transactTime", TLong);
        ("userInfo", TStr);
        ("tradeId", TStr);
        ("tradeReportId", TStr);
        ("tradeReportType", TByte);
        ("tradeReportTransType", TByte);
        ("tradeHandlingInstr", TStr);
        ("lastPx", TLong);
        ("lastQty", TLong);
        ("trdType", TShort);
        ("trdSubType", TShort);
        ("confirmId", TInt);
        ("execId", TStr);
        ("side", TStr);
        ("pbuid", TStr);
        ("accountId", TStr);
        ("branchId", TStr);
        ("counterPartyPbuid", TStr);
        ("counterPartyAccountId", TStr);
        ("counterPartyBranchId", TStr);
        ("applExtend", TCodec) ];
  c_enc :=
      [ EWrite 4 LE "partitionNo";
        EWrite 8 LE "reportIndex";
        EFix "applId" 3 32 false;
        EFix "reportingPbuid" 6 32 false;
        EFix "submittingPbuid" 6 32 false;
        EFix "securityId" 8 32 false;
        EFix "securityIdsource" 4 32 false;
        EWrite 2 LE "ownerType";
        EFix "clearingFirm" 2 32 false;
        EWrite 8 LE "transactTime";
        EFix "userInfo" 32 32 false;
        EFix "tradeId" 16 32 false;
        EFix "tradeReportId" 10 32 false;
        EWrite 1 BE "tradeReportType";
        EWrite 1 BE "tradeReportTransType";
        EFix "tradeHandlingInstr" 1 32 false;
        EWrite 8 LE "lastPx";
        EWrite 8 LE "lastQty";
        EWrite 2 LE "trdType";
        EWrite 2 LE "trdSubType";
        EWrite 4 LE "confirmId";
        EFix "execId" 16 32 false;
        EFix "side" 1 32 false;
        EFix "pbuid" 6 32 false;
        EFix "accountId" 10 32 false;
        EFix "branchId" 2 32 false;
        EFix "counterPartyPbuid" 6 32 false;
        EFix "counterPartyAccountId" 10 32 false;
        EFix "counterPartyBranchId" 2 32 false;
        EObjOpt "applExtend" ];
  c_dec :=
      [ DRead 4 LE "partitionNo";
        DRead 8 LE "reportIndex";
        DFix "applId" 3 32 false;
        DFix "reportingPbuid" 6 32 false;
        DFix "submittingPbuid" 6 32 false;
        DFix "securityId" 8 32 false;
        DFix "securityIdsource" 4 32 false;
        DRead 2 LE "ownerType";
        DFix "clearingFirm" 2 32 false;
        DRead 8 LE "transactTime";
        DFix "userInfo" 32 32 false;
        DFix "tradeId" 16 32 false;
        DFix "tradeReportId" 10 32 false;
        DRead 1 BE "tradeReportType";
        DRead 1 BE "tradeReportTransType";
        DFix "tradeHandlingInstr" 1 32 false;
        DRead 8 LE "lastPx";
        DRead 8 LE "lastQty";
        DRead 2 LE "trdType";
        DRead 2 LE "trdSubType";
        DRead 4 LE "confirmId";
        DFix "execId" 16 32 false;
        DFix "side" 1 32 false;
        DFix "pbuid" 6 32 false;
        DFix "accountId" 10 32 false;
        DFix "branchId" 2 32 false;
        DFix "counterPartyPbuid" 6 32 false;
        DFix "counterPartyAccountId" 10 32 false;
        DFix "counterPartyBranchId" 2 32 false;
        DCreate "applExtend" "applId";
        DObj "applExtend" ];
  c_eq :=
      [ "partitionNo";
        "reportIndex";
        "applId";
        "reportingPbuid";
        "submittingPbuid";
        "securityId";
        "securityIdsource";
        "ownerType";
        "clearingFirm";
        "transactTime";
        "userInfo";
        "tradeId";
        "tradeReportId";
        "tradeReportType";
        "tradeReportTransType";
        "tradeHandlingInstr";
        "lastPx";
        "lastQty";
        "trdType";
        "trdSubType";
        "confirmId";
        "execId";
        "side";
        "pbuid";
        "accountId";
        "branchId";
        "counterPartyPbuid";
        "counterPartyAccountId";
        "counterPartyBranchId";
        "applExtend" ];
  c_hash := 
      HashFields [ "partitionNo";
        "reportIndex";
        "applId";
        "reportingPbuid";
        "submittingPbuid";
        "securityId";
        "securityIdsource";
        "ownerType";
        "clearingFirm";
        "transactTime";
        "userInfo";
        "tradeId";
        "tradeReportId";
        "tradeReportType";
        "tradeReportTransType";
        "tradeHandlingInstr";
        "lastPx";
        "lastQty";
        "trdType";
        "trdSubType";
        "confirmId";
        "execId";
        "side";
        "pbuid";
        "accountId";
        "branchId";
        "counterPartyPbuid";
        "counterPartyAccountId";
        "counterPartyBranchId";
        "applExtend" ];
  c_tag := "TradeCaptureConfirm";
  c_str :=
      [ ("partitionNo", "partitionNo");
        ("reportIndex", "reportIndex");
        ("applId", "applId");
        ("reportingPbuid", "reportingPbuid");
        ("submittingPbuid", "submittingPbuid");
        ("securityId", "securityId");
        ("securityIdsource", "securityIdsource");
        ("ownerType", "ownerType");
        ("clearingFirm", "clearingFirm");
        ("transactTime", "transactTime");
        ("userInfo", "userInfo");
        ("tradeId", "tradeId");
        ("tradeReportId", "tradeReportId");
        ("tradeReportType", "tradeReportType");
        ("tradeReportTransType", "tradeReportTransType");
        ("tradeHandlingInstr", "tradeHandlingInstr");
        ("lastPx", "lastPx");
        ("lastQty", "lastQty");
        ("trdType", "trdType");
        ("trdSubType", "trdSubType");
        ("confirmId", "confirmId");
        ("execId", "execId");
        ("side", "side");
        ("pbuid", "pbuid");
        ("accountId", "accountId");
        ("branchId", "branchId");
        ("counterPartyPbuid", "counterPartyPbuid");
        ("counterPartyAccountId", "counterPartyAccountId");
        ("counterPartyBranchId", "counterPartyBranchId");
        ("applExtend", "applExtend") ];
  c_get :=
      [ ("getPartitionNo", "partitionNo");
        ("getReportIndex", "reportIndex");
        ("getApplId", "applId");
        ("getReportingPbuid", "reportingPbuid");
        ("getSubmittingPbuid", "submittingPbuid");
        ("getSecurityId", "securityId");
        ("getSecurityIdsource", "securityIdsource");
        ("getOwnerType", "ownerType");
        ("getClearingFirm", "clearingFirm");
        ("getTransactTime", "transactTime");
        ("getUserInfo", "userInfo");
        ("getTradeId", "tradeId");
        ("getTradeReportId", "tradeReportId");
        ("getTradeReportType", "tradeReportType");
        ("getTradeReportTransType", "tradeReportTransType");
        ("getTradeHandlingInstr", "tradeHandlingInstr");
        ("getLastPx", "lastPx");
        ("getLastQty", "lastQty");
        ("getTrdType", "trdType");
        ("getTrdSubType", "trdSubType");
        ("getConfirmId", "confirmId");
        ("getExecId", "execId");
        ("getSide", "side");
        ("getPbuid", "pbuid");
        ("getAccountId", "accountId");
        ("getBranchId", "branchId");
        ("getCounterPartyPbuid", "counterPartyPbuid");
        ("getCounterPartyAccountId", "counterPartyAccountId");
        ("getCounterPartyBranchId", "counterPartyBranchId");
        ("getApplExtend", "applExtend") ];
  c_set :=
      [ ("setPartitionNo", "partitionNo");
        ("setReportIndex", "reportIndex");
        ("setApplId", "applId");
        ("setReportingPbuid", "reportingPbuid");
        ("setSubmittingPbuid", "submittingPbuid");
        ("setSecurityId", "securityId");
        ("setSecurityIdsource", "securityIdsource");
        ("setOwnerType", "ownerType");
        ("setClearingFirm", "clearingFirm");
        ("setTransactTime", "transactTime");
        ("setUserInfo", "userInfo");
        ("setTradeId", "tradeId");
        ("setTradeReportId", "tradeReportId");
        ("setTradeReportType", "tradeReportType");
        ("setTradeReportTransType", "tradeReportTransType");
        ("setTradeHandlingInstr", "tradeHandlingInstr");
        ("setLastPx", "lastPx");
        ("setLastQty", "lastQty");
        ("setTrdType", "trdType");
        ("setTrdSubType", "trdSubType");
        ("setConfirmId", "confirmId");
        ("setExecId", "execId");
        ("setSide", "side");
        ("setPbuid", "pbuid");
        ("setAccountId", "accountId");
        ("setBranchId", "branchId");
        ("setCounterPartyPbuid", "counterPartyPbuid");
        ("setCounterPartyAccountId", "counterPartyAccountId");
        ("setCounterPartyBranchId", "counterPartyBranchId");
        ("setApplExtend", "applExtend") ] |}.

(* bjse-bin/src/main/java/com/finproto/bjse/trade/messages/TradeCaptureConfirmExtend031.java:8-159  class TradeCaptureConfirmExtend031; fields 9-16; encode 83-92; decode 95-104; hashCode 107-117; equals 120-136; toString 139-158; the rest: getters and setters *)
Definition bjse_TradeCaptureConfirmExtend031 : class_def := {|
  c_name := "bjse.TradeCaptureConfirmExtend031";
  c_fields :=
      [ ("memberId", TStr);
        ("traderCode", TStr);
        ("counterPartyMemberId", TStr);
        ("counterPartyTraderCode", TStr);
        ("settlType", TStr);
        ("settlPeriod", TStr);
        ("cashMargin", TStr);
        ("memo", TStr) ];
  c_enc :=
      [ EFix "memberId" 6 32 false;
        EFix "traderCode" 5 32 false;
        EFix "counterPartyMemberId" 6 32 false;
        EFix "counterPartyTraderCode" 5 32 false;
        EFix "settlType" 1 32 false;
        EFix "settlPeriod" 1 32 false;
        EFix "cashMargin" 1 32 false;
        EFix "memo" 120 32 false ];
  c_dec :=
      [ DFix "memberId" 6 32 false;
        DFix "traderCode" 5 32 false;
        DFix "counterPartyMemberId" 6 32 false;
        DFix "counterPartyTraderCode" 5 32 false;
        DFix "settlType" 1 32 false;
        DFix "settlPeriod" 1 32 false;
        DFix "cashMargin" 1 32 false;
        DFix "memo" 120 32 false ];
  c_eq :=
      [ "memberId";
        "traderCode";
        "counterPartyMemberId";
        "counterPartyTraderCode";
        "settlType";
        "settlPeriod";
        "cashMargin";
        "memo" ];
  c_hash := 
      HashFields [ "memberId";
        "traderCode";
        "counterPartyMemberId";
        "counterPartyTraderCode";
        "settlType";
        "settlPeriod";
        "cashMargin";
        "memo" ];
  c_tag := "TradeCaptureConfirmExtend031";
  c_str :=
      [ ("memberId", "memberId");
        ("traderCode", "traderCode");
        ("counterPartyMemberId", "counterPartyMemberId");
        ("counterPartyTraderCode", "counterPartyTraderCode");
        ("settlType", "settlType");
        ("settlPeriod", "settlPeriod");
        ("cashMargin", "cashMargin");
        ("memo", "memo") ];
  c_get :=
      [ ("getMemberId", "memberId");
        ("getTraderCode", "traderCode");
        ("getCounterPartyMemberId", "counterPartyMemberId");
        ("getCounterPartyTraderCode", "counterPartyTraderCode");
        ("getSettlType", "settlType");
        ("getSettlPeriod", "settlPeriod");
        ("getCashMargin", "cashMargin");
        ("getMemo", "memo") ];
  c_set :=
      [ ("setMemberId", "memberId");
        ("setTraderCode", "traderCode");
        ("setCounterPartyMemberId", "counterPartyMemberId");
        ("setCounterPartyTraderCode", "counterPartyTraderCode");
        ("setSettlType", "settlType");
        ("setSettlPeriod", "settlPeriod");
        ("setCashMargin", "cashMargin");
        ("setMemo", "memo") ] |}.

(* bjse-bin/src/main/java/com/finproto/bjse/trade/messages/TradeCaptureConfirmExtend051.java:8-95  class TradeCaptureConfirmExtend051; fields 9-12; encode 47-52; decode 55-60; hashCode 63-65; equals 68-80; toString 83-94; the rest: getters and setters *)
Definition bjse_TradeCaptureConfirmExtend051 : class_def := {|
  c_name := "bjse.TradeCaptureConfirmExtend051";
  c_fields :=
      [ ("expirationDays", TShort);
        ("expirationType", TByte);
        ("maturityDate", TInt);
        ("shareProperty", TStr) ];
  c_enc :=
      [ EWrite 2 LE "expirationDays";
        EWrite 1 BE "expirationType";
        EWrite 4 LE "maturityDate";
        EFix "shareProperty" 2 32 false ];
  c_dec :=
      [ DRead 2 LE "expirationDays";
        DRead 1 BE "expirationType";
        DRead 4 LE "maturityDate";
        DFix "shareProperty" 2 32 false ];
  c_eq :=
      [ "expirationDays";
        "expirationType";
        "maturityDate";
        "shareProperty" ];
  c_hash := 
      HashFields [ "expirationDays";
        "expirationType";
        "maturityDate";
        "shareProperty" ];
  c_tag := "TradeCaptureConfirmExtend051";
  c_str :=
      [ ("expirationDays", "expirationDays");
        ("expirationType", "expirationType");
        ("maturityDate", "maturityDate");
        ("shareProperty", "shareProperty") ];
  c_get :=
      [ ("getExpirationDays", "expirationDays");
        ("getExpirationType", "expirationType");
        ("getMaturityDate", "maturityDate");
        ("getShareProperty", "shareProperty") ];
  c_set :=
      [ ("setExpirationDays", "expirationDays");
        ("setExpirationType", "expirationType");
        ("setMaturityDate", "maturityDate");
        ("setShareProperty", "shareProperty") ] |}.

(* bjse-bin/src/main/java/com/finproto/bjse/trade/messages/TradeCaptureConfirmExtend060.java:7-35  class TradeCaptureConfirmExtend060; fields none; encode 10-10; decode 13-13; hashCode 16-18; equals 21-29; toString 32-34; the rest: getters and setters *)
Definition bjse_TradeCaptureConfirmExtend060 : class_def := {|
  c_name := "bjse.TradeCaptureConfirmExtend060";
  c_fields :=
      [];
  c_enc :=
      [];
  c_dec :=
      [];
  c_eq :=
      [];
  c_hash := HashSelf;
  c_tag := "TradeCaptureConfirmExtend060";
  c_str :=
      [];
  c_get :=
      [];
  c_set :=
      [] |}.

(* bjse-bin/src/main/java/com/finproto/bjse/trade/messages/TradeCaptureConfirmExtend061.java:7-35  class TradeCaptureConfirmExtend061; fields none; encode 10-10; decode 13-13; hashCode 16-18; equals 21-29; toString 32-34; the rest: getters and setters *)
Definition bjse_TradeCaptureConfirmExtend061 : class_def := {|
  c_name := "bjse.TradeCaptureConfirmExtend061";
  c_fields :=
      [];
  c_enc :=
      [];
  c_dec :=
      [];
  c_eq :=
      [];
  c_hash := HashSelf;
  c_tag := "TradeCaptureConfirmExtend061";
  c_str :=
      [];
  c_get :=
      [];
  c_set :=
      [] |}.

(* bjse-bin/src/main/java/com/finproto/bjse/trade/messages/TradeCaptureConfirmExtend062.java:8-50  class TradeCaptureConfirmExtend062; fields 9-9; encode 20-22; decode 25-27; hashCode 30-32; equals 35-44; toString 47-49; the rest: getters and setters *)
Definition bjse_TradeCaptureConfirmExtend062 : class_def := {|
  c_name := "bjse.TradeCaptureConfirmExtend062";
  c_fields :=
      [ ("cashMargin", TStr) ];
  c_enc :=
      [ EFix "cashMargin" 1 32 false ];
  c_dec :=
      [ DFix "cashMargin" 1 32 false ];
  c_eq :=
      [ "cashMargin" ];
  c_hash := 
      HashFields [ "cashMargin" ];
  c_tag := "TradeCaptureConfirmExtend062";
  c_str :=
      [ ("cashMargin", "cashMargin") ];
  c_get :=
      [ ("getCashMargin", "cashMargin") ];
  c_set :=
      [ ("setCashMargin", "cashMargin") ] |}.

(* bjse-bin/src/main/java/com/finproto/bjse/trade/messages/TradeCaptureReport.java:11-468  class TradeCaptureReport; fields 12-37; encode 248-277; decode 280-308; hashCode 311-339; equals 342-376; toString 379-434; the rest: getters and setters *)
Definition bjse_TradeCaptureReport : class_def := {|
  c_name := "bjse.TradeCaptureReport";
  c_fields :=
      [ ("applId", TStr);
        ("submittingPbuid", TStr);
        ("securityId", TStr);
        ("securityIdsource", TStr);
        ("ownerType", TShort);
        ("clearingFirm", TStr);
        ("transactTime", TLong);
        ("userInfo", TStr);
        ("tradeReportId", TStr);
        ("tradeReportType", TByte);
        ("tradeReportTransType", TByte);
        ("tradeHandlingInstr", TStr);
        ("tradeReportRefId", TStr);
        ("lastPx", TLong);
        ("lastQty", TLong);
        ("trdType", TShort);
        ("trdSubType", TShort);
        ("confirmId", TInt);
        ("side", TStr);
        ("pbuid", TStr);
        ("accountId", TStr);
        ("branchId", TStr);
        ("counterPartyPbuid", TStr);
        ("counterPartyAccountId", TStr);
        ("counterPartyBranchId", TStr);
        ("applExtend", TCodec) ];
  c_enc :=
      [ EFix "applId" 3 32 false;
        EFix "submittingPbuid" 6 32 false;
        EFix "securityId" 8 32 false;
        EFix "securityIdsource" 4 32 false;
        EWrite 2 LE "ownerType";
        EFix "clearingFirm" 2 32 false;
        EWrite 8 LE "transactTime";
        EFix "userInfo" 32 32 false;
        EFix "tradeReportId" 10 32 false;
        EWrite 1 BE "tradeReportType";
        EWrite 1 BE "tradeReportTransType";
        EFix "tradeHandlingInstr" 1 32 false;
        EFix "tradeReportRefId" 10 32 false;
        EWrite 8 LE "lastPx";
        EWrite 8 LE "lastQty";
        EWrite 2 LE "trdType";
        EWrite 2 LE "trdSubType";
        EWrite 4 LE "confirmId";
        EFix "side" 1 32 false;
        EFix "pbuid" 6 32 false;
        EFix "accountId" 10 32 false;
        EFix "branchId" 2 32 false;
        EFix "counterPartyPbuid" 6 32 false;
        EFix "counterPartyAccountId" 10 32 false;
        EFix "counterPartyBranchId" 2 32 false;
        EObjOpt "applExtend" ];
  c_dec :=
      [ DFix "applId" 3 32 false;
        DFix "submittingPbuid" 6 32 false;
        DFix "securityId" 8 32 false;
        DFix "securityIdsource" 4 32 false;
        DRead 2 LE "ownerType";
        DFix "clearingFirm" 2 32 false;
        DRead 8 LE "transactTime";
        DFix "userInfo" 32 32 false;
        DFix "tradeReportId" 10 32 false;
        DRead 1 BE "tradeReportType";
        DRead 1 BE "tradeReportTransType";
        DFix "tradeHandlingInstr" 1 32 false;
        DFix "tradeReportRefId" 10 32 false;
        DRead 8 LE "lastPx";
        DRead 8 LE "lastQty";
        DRead 2 LE "trdType";
        DRead 2 LE "trdSubType";
        DRead 4 LE "confirmId";
        DFix "side" 1 32 false;
        DFix "pbuid" 6 32 false;
        DFix "accountId" 10 32 false;
        DFix "branchId" 2 32 false;
        DFix "counterPartyPbuid" 6 32 false;
        DFix "counterPartyAccountId" 10 32 false;
        DFix "counterPartyBranchId" 2 32 false;
        DCreate "applExtend" "applId";
        DObj "applExtend" ];
  c_eq :=
      [ "applId";
        "submittingPbuid";
        "securityId";
        "securityIdsource";
        "ownerType";
        "clearingFirm";
        "transactTime";
        "userInfo";
        "tradeReportId";
        "tradeReportType";
        "tradeReportTransType";
        "tradeHandlingInstr";
        "tradeReportRefId";
        "lastPx";
        "lastQty";
        "trdType";
        "trdSubType";
        "confirmId";
        "side";
        "pbuid";
        "accountId";
        "branchId";
        "counterPartyPbuid";
        "counterPartyAccountId";
        "counterPartyBranchId";
        "applExtend" ];
  c_hash := 
      HashFields [ "applId";
        "submittingPbuid";
        "securityId";
        "securityIdsource";
        "ownerType";
        "clearingFirm";
        "transactTime";
        "userInfo";
        "tradeReportId";
        "tradeReportType";
        "tradeReportTransType";
        "tradeHandlingInstr";
        "tradeReportRefId";
        "lastPx";
        "lastQty";
        "trdType";
        "trdSubType";
        "confirmId";
        "side";
        "pbuid";
        "accountId";
        "branchId";
        "counterPartyPbuid";
        "counterPartyAccountId";
        "counterPartyBranchId";
        "applExtend" ];
  c_tag := "TradeCaptureReport";
  c_str :=
      [ ("applId", "applId");
        ("submittingPbuid", "submittingPbuid");
        ("securityId", "securityId");
        ("securityIdsource", "securityIdsource");
        ("ownerType", "ownerType");
        ("clearingFirm", "clearingFirm");
        ("transactTime", "transactTime");
        ("userInfo", "userInfo");
        ("tradeReportId", "tradeReportId");
        ("tradeReportType", "tradeReportType");
        ("tradeReportTransType", "tradeReportTransType");
        ("tradeHandlingInstr", "tradeHandlingInstr");
        ("tradeReportRefId", "tradeReportRefId");
        ("lastPx", "lastPx");
        ("lastQty", "lastQty");
        ("trdType", "trdType");
        ("trdSubType", "trdSubType");
        ("confirmId", "confirmId");
        ("side", "side");
        ("pbuid", "pbuid");
        ("accountId", "accountId");
        ("branchId", "branchId");
        ("counterPartyPbuid", "counterPartyPbuid");
        ("counterPartyAccountId", "counterPartyAccountId");
        ("counterPartyBranchId", "counterPartyBranchId");
        ("applExtend", "applExtend") ];
  c_get :=
      [ ("getApplId", "applId");
        ("getSubmittingPbuid", "submittingPbuid");
        ("getSecurityId", "securityId");
        ("getSecurityIdsource", "securityIdsource");
        ("getOwnerType", "ownerType");
        ("getClearingFirm", "clearingFirm");
        ("getTransactTime", "transactTime");
        ("getUserInfo", "userInfo");
        ("getTradeReportId", "tradeReportId");
        ("getTradeReportType", "tradeReportType");
        ("getTradeReportTransType", "tradeReportTransType");
        ("getTradeHandlingInstr", "tradeHandlingInstr");
        ("getTradeReportRefId", "tradeReportRefId");
        ("getLastPx", "lastPx");
        ("getLastQty", "lastQty");
        ("getTrdType", "trdType");
        ("getTrdSubType", "trdSubType");
        ("getConfirmId", "confirmId");
        ("getSide", "side");
        ("getPbuid", "pbuid");
        ("getAccountId", "accountId");
        ("getBranchId", "branchId");
        ("getCounterPartyPbuid", "counterPartyPbuid");
        ("getCounterPartyAccountId", "counterPartyAccountId");
        ("getCounterPartyBranchId", "counterPartyBranchId");
        ("getApplExtend", "applExtend") ];
  c_set :=
      [ ("setApplId", "applId");
        ("setSubmittingPbuid", "submittingPbuid");
        ("setSecurityId", "securityId");
        ("setSecurityIdsource", "securityIdsource");
        ("setOwnerType", "ownerType");
        ("setClearingFirm", "clearingFirm");
        ("setTransactTime", "transactTime");
        ("setUserInfo", "userInfo");
        ("setTradeReportId", "tradeReportId");
        ("setTradeReportType", "tradeReportType");
        ("setTradeReportTransType", "tradeReportTransType");
        ("setTradeHandlingInstr", "tradeHandlingInstr");
        ("setTradeReportRefId", "tradeReportRefId");
        ("setLastPx", "lastPx");
        ("setLastQty", "lastQty");
        ("setTrdType", "trdType");
        ("setTrdSubType", "trdSubType");
        ("setConfirmId", "confirmId");
        ("setSide", "side");
        ("setPbuid", "pbuid");
        ("setAccountId", "accountId");
        ("setBranchId", "branchId");
        ("setCounterPartyPbuid", "counterPartyPbuid");
        ("setCounterPartyAccountId", "counterPartyAccountId");
        ("setCounterPartyBranchId", "counterPartyBranchId");
        ("setApplExtend", "applExtend") ] |}.

(* bjse-bin/src/main/java/com/finproto/bjse/trade/messages/TradeCaptureReportAck.java:11-588  class TradeCaptureReportAck; fields 12-45; encode 320-357; decode 360-396; hashCode 399-435; equals 438-480; toString 483-554; the rest: getters and setters *)
Definition bjse_TradeCaptureReportAck : class_def := {|
  c_name := "bjse.TradeCaptureReportAck";
  c_fields :=
      [ ("partitionNo", TInt);
        ("reportIndex", TLong);
        ("applId", TStr);
        ("reportingPbuid", TStr);
        ("submittingPbuid", TStr);
        ("securityId", TStr);
        ("securityIdsource", TStr);
        ("ownerType", TShort);
        ("clearingFirm", TStr);
        ("transactTime", TLong);
        ("userInfo", TStr);
        ("tradeId", TStr);
        ("tradeReportId", TStr);
        ("tradeReportType", TByte);
        ("tradeReportTransType", TByte);
        ("tradeHandlingInstr", TStr);
        ("tradeReportRefId", TStr);
        ("trdAckStatus", TByte);
        ("trdRptStatus", TByte);
        ("tradeReportRejectReason", TShort);
        ("lastPx", TLong);
        ("lastQty", TLong);
        ("trdType", TShort);
        ("trdSubType", TShort);
        ("confirmId", TInt);
        ("execId", TStr);
        ("side", TStr);
        ("pbuid", TStr);
        ("accountId", TStr);
        ("branchId", TStr);
        ("counterPartyPbuid", TStr);
        ("counterPartyAccountId", TStr);
        ("counterPartyBranchId", TStr);
        ("applExtend", TCodec) ];
  c_enc :=
      [ EWrite 4 LE "partitionNo";
        EWrite 8 LE "reportIndex";
        EFix "applId" 3 32 false;
        EFix "reportingPbuid" 6 32 false;
        EFix "submittingPbuid" 6 32 false;
        EFix "securityId" 8 32 false;
        EFix "securityIdsource" 4 32 false;
        EWrite 2 LE "ownerType";
        EFix "clearingFirm" 2 32 false;
        EWrite 8 LE "transactTime";
        EFix "userInfo" 32 32 false;
        EFix "tradeId" 16 32 false;
        EFix "tradeReportId" 10 32 false;
        EWrite 1 BE "tradeReportType";
        EWrite 1 BE "tradeReportTransType";
        EFix "tradeHandlingInstr" 1 32 false;
        EFix "tradeReportRefId" 10 32 false;
        EWrite 1 BE "trdAckStatus";
        EWrite 1 BE "trdRptStatus";
        EWrite 2 LE "tradeReportRejectReason";
        EWrite 8 LE "lastPx";
        EWrite 8 LE "lastQty";
        EWrite 2 LE "trdType";
        EWrite 2 LE "trdSubType";
        EWrite 4 LE "confirmId";
        EFix "execId" 16 32 false;
        EFix "side" 1 32 false;
        EFix "pbuid" 6 32 false;
        EFix "accountId" 10 32 false;
        EFix "branchId" 2 32 false;
        EFix "counterPartyPbuid" 6 32 false;
        EFix "counterPartyAccountId" 10 32 false;
        EFix "counterPartyBranchId" 2 32 false;
        EObjOpt "applExtend" ];
  c_dec :=
      [ DRead 4 LE "partitionNo";
        DRead 8 LE "reportIndex";
        DFix "applId" 3 32 false;
        DFix "reportingPbuid" 6 32 false;
        DFix "submittingPbuid" 6 32 false;
        DFix "securityId" 8 32 false;
        DFix "securityIdsource" 4 32 false;
        DRead 2 LE "ownerType";
        DFix "clearingFirm" 2 32 false;
        DRead 8 LE "transactTime";
        DFix "userInfo" 32 32 false;
        DFix "tradeId" 16 32 false;
        DFix "tradeReportId" 10 32 false;
        DRead 1 BE "tradeReportType";
        DRead 1 BE "tradeReportTransType";
        DFix "tradeHandlingInstr" 1 32 false;
        DFix "tradeReportRefId" 10 32 false;
        DRead 1 BE "trdAckStatus";
        DRead 1 BE "trdRptStatus";
        DRead 2 LE "tradeReportRejectReason";
        DRead 8 LE "lastPx";
        DRead 8 LE "lastQty";
        DRead 2 LE "trdType";
        DRead 2 LE "trdSubType";
        DRead 4 LE "confirmId";
        DFix "execId" 16 32 false;
        DFix "side" 1 32 false;
        DFix "pbuid" 6 32 false;
        DFix "accountId" 10 32 false;
        DFix "branchId" 2 32 false;
        DFix "counterPartyPbuid" 6 32 false;
        DFix "counterPartyAccountId" 10 32 false;
        DFix "counterPartyBranchId" 2 32 false;
        DCreate "applExtend" "applId";
        DObj "applExtend" ];
  c_eq :=
      [ "partitionNo";
        "reportIndex";
        "applId";
        "reportingPbuid";
        "submittingPbuid";
        "securityId";
        "securityIdsource";
        "ownerType";
        "clearingFirm";
        "transactTime";
        "userInfo";
        "tradeId";
        "tradeReportId";
        "tradeReportType";
        "tradeReportTransType";
        "tradeHandlingInstr";
        "tradeReportRefId";
        "trdAckStatus";
        "trdRptStatus";
        "tradeReportRejectReason";
        "lastPx";
        "lastQty";
        "trdType";
        "trdSubType";
        "confirmId";
        "execId";
        "side";
        "pbuid";
        "accountId";
        "branchId";
        "counterPartyPbuid";
        "counterPartyAccountId";
        "counterPartyBranchId";
        "applExtend" ];
  c_hash := 
      HashFields [ "partitionNo";
        "reportIndex";
        "applId";
        "reportingPbuid";
        "submittingPbuid";
        "securityId";
        "securityIdsource";
        "ownerType";
        "clearingFirm";
        "transactTime";
        "userInfo";
        "tradeId";
        "tradeReportId";
        "tradeReportType";
        "tradeReportTransType";
        "tradeHandlingInstr";
        "tradeReportRefId";
        "trdAckStatus";
        "trdRptStatus";
        "tradeReportRejectReason";
        "lastPx";
        "lastQty";
        "trdType";
        "trdSubType";
        "confirmId";
        "execId";
        "side";
        "pbuid";
        "accountId";
        "branchId";
        "counterPartyPbuid";
        "counterPartyAccountId";
        "counterPartyBranchId";
        "applExtend" ];
  c_tag := "TradeCaptureReportAck";
  c_str :=
      [ ("partitionNo", "partitionNo");
        ("reportIndex", "reportIndex");
        ("applId", "applId");
        ("reportingPbuid", "reportingPbuid");
        ("submittingPbuid", "submittingPbuid");
        ("securityId", "securityId");
        ("securityIdsource", "securityIdsource");
        ("ownerType", "ownerType");
        ("clearingFirm", "clearingFirm");
        ("transactTime", "transactTime");
        ("userInfo", "userInfo");
        ("tradeId", "tradeId");
        ("tradeReportId", "tradeReportId");
        ("tradeReportType", "tradeReportType");
        ("tradeReportTransType", "tradeReportTransType");
        ("tradeHandlingInstr", "tradeHandlingInstr");
        ("tradeReportRefId", "tradeReportRefId");
        ("trdAckStatus", "trdAckStatus");
        ("trdRptStatus", "trdRptStatus");
        ("tradeReportRejectReason", "tradeReportRejectReason");
        ("lastPx", "lastPx");
        ("lastQty", "lastQty");
        ("trdType", "trdType");
        ("trdSubType", "trdSubType");
        ("confirmId", "confirmId");
        ("execId", "execId");
        ("side", "side");
        ("pbuid", "pbuid");
        ("accountId", "accountId");
        ("branchId", "branchId");
        ("counterPartyPbuid", "counterPartyPbuid");
        ("counterPartyAccountId", "counterPartyAccountId");
        ("counterPartyBranchId", "counterPartyBranchId");
        ("applExtend", "applExtend") ];
  c_get :=
      [ ("getPartitionNo", "partitionNo");
        ("getReportIndex", "reportIndex");
        ("getApplId", "applId");
        ("getReportingPbuid", "reportingPbuid");
        ("getSubmittingPbuid", "submittingPbuid");
        ("getSecurityId", "securityId");
        ("getSecurityIdsource", "securityIdsource");
        ("getOwnerType", "ownerType");
        ("getClearingFirm", "clearingFirm");
        ("getTransactTime", "transactTime");
        ("getUserInfo", "userInfo");
        ("getTradeId", "tradeId");
        ("getTradeReportId", "tradeReportId");
        ("getTradeReportType", "tradeReportType");
        ("getTradeReportTransType", "tradeReportTransType");
        ("getTradeHandlingInstr", "tradeHandlingInstr");
        ("getTradeReportRefId", "tradeReportRefId");
        ("getTrdAckStatus", "trdAckStatus");
        ("getTrdRptStatus", "trdRptStatus");
        ("getTradeReportRejectReason", "tradeReportRejectReason");
        ("getLastPx", "lastPx");
        ("getLastQty", "lastQty");
        ("getTrdType", "trdType");
        ("getTrdSubType", "trdSubType");
        ("getConfirmId", "confirmId");
        ("getExecId", "execId");
        ("getSide", "side");
        ("getPbuid", "pbuid");
        ("getAccountId", "accountId");
        ("getBranchId", "branchId");
        ("getCounterPartyPbuid", "counterPartyPbuid");
        ("getCounterPartyAccountId", "counterPartyAccountId");
        ("getCounterPartyBranchId", "counterPartyBranchId");
        ("getApplExtend", "applExtend") ];
  c_set :=
      [ ("setPartitionNo", "partitionNo");
        ("setReportIndex", "reportIndex");
        ("setApplId", "applId");
        ("setReportingPbuid", "reportingPbuid");
        ("setSubmittingPbuid", "submittingPbuid");
        ("setSecurityId", "securityId");
        ("setSecurityIdsource", "securityIdsource");
        ("setOwnerType", "ownerType");
        ("setClearingFirm", "clearingFirm");
        ("setTransactTime", "transactTime");
        ("setUserInfo", "userInfo");
        ("setTradeId", "tradeId");
        ("setTradeReportId", "tradeReportId");
        ("setTradeReportType", "tradeReportType");
        ("setTradeReportTransType", "tradeReportTransType");
        ("setTradeHandlingInstr", "tradeHandlingInstr");
        ("setTradeReportRefId", "tradeReportRefId");
        ("setTrdAckStatus", "trdAckStatus");
        ("setTrdRptStatus", "trdRptStatus");
        ("setTradeReportRejectReason", "tradeReportRejectReason");
        ("setLastPx", "lastPx");
        ("setLastQty", "lastQty");
        ("setTrdType", "trdType");
        ("setTrdSubType", "trdSubType");
        ("setConfirmId", "confirmId");
        ("setExecId", "execId");
        ("setSide", "side");
        ("setPbuid", "pbuid");
        ("setAccountId", "accountId");
        ("setBranchId", "branchId");
        ("setCounterPartyPbuid", "counterPartyPbuid");
        ("setCounterPartyAccountId", "counterPartyAccountId");
        ("setCounterPartyBranchId", "counterPartyBranchId");
        ("setApplExtend", "applExtend") ] |}.

(* bjse-bin/src/main/java/com/finproto/bjse/trade/messages/TradeCaptureReportAckExtend031.java:8-159  class TradeCaptureReportAckExtend031; fields 9-16; encode 83-92; decode 95-104; hashCode 107-117; equals 120-136; toString 139-158; the rest: getters and setters *)
Definition bjse_TradeCaptureReportAckExtend031 : class_def := {|
  c_name := "bjse.TradeCaptureReportAckExtend031";
  c_fields :=
      [ ("memberId", TStr);
        ("traderCode", TStr);
        ("counterPartyMemberId", TStr);
        ("counterPartyTraderCode", TStr);
        ("settlType", TStr);
        ("settlPeriod", TStr);
        ("cashMargin", TStr);
        ("memo", TStr) ];
  c_enc :=
      [ EFix "memberId" 6 32 false;
        EFix "traderCode" 5 32 false;
        EFix "counterPartyMemberId" 6 32 false;
        EFix "counterPartyTraderCode" 5 32 false;
        EFix "settlType" 1 32 false;
        EFix "settlPeriod" 1 32 false;
        EFix "cashMargin" 1 32 false;
        EFix "memo" 120 32 false ];
  c_dec :=
      [ DFix "memberId" 6 32 false;
        DFix "traderCode" 5 32 false;
        DFix "counterPartyMemberId" 6 32 false;
        DFix "counterPartyTraderCode" 5 32 false;
        DFix "settlType" 1 32 false;
        DFix "settlPeriod" 1 32 false;
        DFix "cashMargin" 1 32 false;
        DFix "memo" 120 32 false ];
  c_eq :=
      [ "memberId";
        "traderCode";
        "counterPartyMemberId";
        "counterPartyTraderCode";
        "settlType";
        "settlPeriod";
        "cashMargin";
        "memo" ];
  c_hash := 
      HashFields [ "memberId";
        "traderCode";
        "counterPartyMemberId";
        "counterPartyTraderCode";
        "settlType";
        "settlPeriod";
        "cashMargin";
        "memo" ];
  c_tag := "TradeCaptureReportAckExtend031";
  c_str :=
      [ ("memberId", "memberId");
        ("traderCode", "traderCode");
        ("counterPartyMemberId", "counterPartyMemberId");
        ("counterPartyTraderCode", "counterPartyTraderCode");
        ("settlType", "settlType");
        ("settlPeriod", "settlPeriod");
        ("cashMargin", "cashMargin");
        ("memo", "memo") ];
  c_get :=
      [ ("getMemberId", "memberId");
        ("getTraderCode", "traderCode");
        ("getCounterPartyMemberId", "counterPartyMemberId");
        ("getCounterPartyTraderCode", "counterPartyTraderCode");
        ("getSettlType", "settlType");
        ("getSettlPeriod", "settlPeriod");
        ("getCashMargin", "cashMargin");
        ("getMemo", "memo") ];
  c_set :=
      [ ("setMemberId", "memberId");
        ("setTraderCode", "traderCode");
        ("setCounterPartyMemberId", "counterPartyMemberId");
        ("setCounterPartyTraderCode", "counterPartyTraderCode");
        ("setSettlType", "settlType");
        ("setSettlPeriod", "settlPeriod");
        ("setCashMargin", "cashMargin");
        ("setMemo", "memo") ] |}.

(* bjse-bin/src/main/java/com/finproto/bjse/trade/messages/TradeCaptureReportAckExtend051.java:8-81  class TradeCaptureReportAckExtend051; fields 9-11; encode 38-42; decode 45-49; hashCode 52-54; equals 57-68; toString 71-80; the rest: getters and setters *)
Definition bjse_TradeCaptureReportAckExtend051 : class_def := {|
  c_name := "bjse.TradeCaptureReportAckExtend051";
  c_fields :=
      [ ("expirationDays", TShort);
        ("expirationType", TByte);
        ("shareProperty", TStr) ];
  c_enc :=
      [ EWrite 2 LE "expirationDays";
        EWrite 1 BE "expirationType";
        EFix "shareProperty" 2 32 false ];
  c_dec :=
      [ DRead 2 LE "expirationDays";
        DRead 1 BE "expirationType";
        DFix "shareProperty" 2 32 false ];
  c_eq :=
      [ "expirationDays";
        "expirationType";
        "shareProperty" ];
  c_hash := 
      HashFields [ "expirationDays";
        "expirationType";
        "shareProperty" ];
  c_tag := "TradeCaptureReportAckExtend051";
  c_str :=
      [ ("expirationDays", "expirationDays");
        ("expirationType", "expirationType");
        ("shareProperty", "shareProperty") ];
  c_get :=
      [ ("getExpirationDays", "expirationDays");
        ("getExpirationType", "expirationType");
        ("getShareProperty", "shareProperty") ];
  c_set :=
      [ ("setExpirationDays", "expirationDays");
        ("setExpirationType", "expirationType");
        ("setShareProperty", "shareProperty") ] |}.

(* bjse-bin/src/main/java/com/finproto/bjse/trade/messages/TradeCaptureReportAckExtend060.java:7-35  class TradeCaptureReportAckExtend060; fields none; encode 10-10; decode 13-13; hashCode 16-18; equals 21-29; toString 32-34; the rest: getters and setters *)
Definition bjse_TradeCaptureReportAckExtend060 : class_def := {|
  c_name := "bjse.TradeCaptureReportAckExtend060";
  c_fields :=
      [];
  c_enc :=
      [];
  c_dec :=
      [];
  c_eq :=
      [];
  c_hash := HashSelf;
  c_tag := "TradeCaptureReportAckExtend060";
  c_str :=
      [];
  c_get :=
      [];
  c_set :=
      [] |}.

(* bjse-bin/src/main/java/com/finproto/bjse/trade/messages/TradeCaptureReportAckExtend061.java:7-35  class TradeCaptureReportAckExtend061; fields none; encode 10-10; decode 13-13; hashCode 16-18; equals 21-29; toString 32-34; the rest: getters and setters *)
Definition bjse_TradeCaptureReportAckExtend061 : class_def := {|
  c_name := "bjse.TradeCaptureReportAckExtend061";
  c_fields :=
      [];
  c_enc :=
      [];
  c_dec :=
      [];
  c_eq :=
      [];
  c_hash := HashSelf;
  c_tag := "TradeCaptureReportAckExtend061";
  c_str :=
      [];
  c_get :=
      [];
  c_set :=
      [] |}.

(* bjse-bin/src/main/java/com/finproto/bjse/trade/messages/TradeCaptureReportAckExtend062.java:8-50  class TradeCaptureReportAckExtend062; fields 9-9; encode 20-22; decode 25-27; hashCode 30-32; equals 35-44; toString 47-49; the rest: getters and setters *)
Definition bjse_TradeCaptureReportAckExtend062 : class_def := {|
  c_name := "bjse.TradeCaptureReportAckExtend062";
  c_fields :=
      [ ("cashMargin", TStr) ];
  c_enc :=
      [ EFix "cashMargin" 1 32 false ];
  c_dec :=
      [ DFix "cashMargin" 1 32 false ];
  c_eq :=
      [ "cashMargin" ];
  c_hash := 
      HashFields [ "cashMargin" ];
  c_tag := "TradeCaptureReportAckExtend062";
  c_str :=
      [ ("cashMargin", "cashMargin") ];
  c_get :=
      [ ("getCashMargin", "cashMargin") ];
  c_set :=
      [ ("setCashMargin", "cashMargin") ] |}.

(* bjse-bin/src/main/java/com/finproto/bjse/trade/messages/TradeCaptureReportExtend031.java:8-159  class TradeCaptureReportExtend031; fields 9-16; encode 83-92; decode 95-104; hashCode 107-117; equals 120-136; toString 139-158; the rest: getters and setters *)
Definition bjse_TradeCaptureReportExtend031 : class_def := {|
  c_name := "bjse.TradeCaptureReportExtend031";
  c_fields :=
      [ ("memberId", TStr);
        ("traderCode", TStr);
        ("counterPartyMemberId", TStr);
        ("counterPartyTraderCode", TStr);
        ("settlType", TStr);
        ("settlPeriod", TStr);
        ("cashMargin", TStr);
        ("memo", TStr) ];
  c_enc :=
      [ EFix "memberId" 6 32 false;
        EFix "traderCode" 5 32 false;
        EFix "counterPartyMemberId" 6 32 false;
        EFix "counterPartyTraderCode" 5 32 false;
        EFix "settlType" 1 32 false;
        EFix "settlPeriod" 1 32 false;
        EFix "cashMargin" 1 32 false;
        EFix "memo" 120 32 false ];
  c_dec :=
      [ DFix "memberId" 6 32 false;
        DFix "traderCode" 5 32 false;
        DFix "counterPartyMemberId" 6 32 false;
        DFix "counterPartyTraderCode" 5 32 false;
        DFix "settlType" 1 32 false;
        DFix "settlPeriod" 1 32 false;
        DFix "cashMargin" 1 32 false;
        DFix "memo" 120 32 false ];
  c_eq :=
      [ "memberId";
        "traderCode";
        "counterPartyMemberId";
        "counterPartyTraderCode";
        "settlType";
        "settlPeriod";
        "cashMargin";
        "memo" ];
  c_hash := 
      HashFields [ "memberId";
        "traderCode";
        "counterPartyMemberId";
        "counterPartyTraderCode";
        "settlType";
        "settlPeriod";
        "cashMargin";
        "memo" ];
  c_tag := "TradeCaptureReportExtend031";
  c_str :=
      [ ("memberId", "memberId");
        ("traderCode", "traderCode");
        ("counterPartyMemberId", "counterPartyMemberId");
        ("counterPartyTraderCode", "counterPartyTraderCode");
        ("settlType", "settlType");
        ("settlPeriod", "settlPeriod");
        ("cashMargin", "cashMargin");
        ("memo", "memo") ];
  c_get :=
      [ ("getMemberId", "memberId");
        ("getTraderCode", "traderCode");
        ("getCounterPartyMemberId", "counterPartyMemberId");
        ("getCounterPartyTraderCode", "counterPartyTraderCode");
        ("getSettlType", "settlType");
        ("getSettlPeriod", "settlPeriod");
        ("getCashMargin", "cashMargin");
        ("getMemo", "memo") ];
  c_set :=
      [ ("setMemberId", "memberId");
        ("setTraderCode", "traderCode");
        ("setCounterPartyMemberId", "counterPartyMemberId");
        ("setCounterPartyTraderCode", "counterPartyTraderCode");
        ("setSettlType", "settlType");
        ("setSettlPeriod", "settlPeriod");
        ("setCashMargin", "cashMargin");
        ("setMemo", "memo") ] |}.

(* bjse-bin/src/main/java/com/finproto/bjse/trade/messages/TradeCaptureReportExtend051.java:8-81  class TradeCaptureReportExtend051; fields 9-11; encode 38-42; decode 45-49; hashCode 52-54; equals 57-68; toString 71-80; the rest: getters and setters *)
Definition bjse_TradeCaptureReportExtend051 : class_def := {|
  c_name := "bjse.TradeCaptureReportExtend051";
  c_fields :=
      [ ("expirationDays", TShort);
        ("expirationType", TByte);
        ("shareProperty", TStr) ];
  c_enc :=
      [ EWrite 2 LE "expirationDays";
        EWrite 1 BE "expirationType";
        EFix "shareProperty" 2 32 false ];
  c_dec :=
      [ DRead 2 LE "expirationDays";
        DRead 1 BE "expirationType";
        DFix "shareProperty" 2 32 false ];
  c_eq :=
      [ "expirationDays";
        "expirationType";
        "shareProperty" ];
  c_hash := 
      HashFields [ "expirationDays";
        "expirationType";
        "shareProperty" ];
  c_tag := "TradeCaptureReportExtend051";
  c_str :=
      [ ("expirationDays", "expirationDays");
        ("expirationType", "expirationType");
        ("shareProperty", "shareProperty") ];
  c_get :=
      [ ("getExpirationDays", "expirationDays");
        ("getExpirationType", "expirationType");
        ("getShareProperty", "shareProperty") ];
  c_set :=
      [ ("setExpirationDays", "expirationDays");
        ("setExpirationType", "expirationType");
        ("setShareProperty", "shareProperty") ] |}.

(* bjse-bin/src/main/java/com/finproto/bjse/trade/messages/TradeCaptureReportExtend060.java:7-35  class TradeCaptureReportExtend060; fields none; encode 10-10; decode 13-13; hashCode 16-18; equals 21-29; toString 32-34; the rest: getters and setters *)
Definition bjse_TradeCaptureReportExtend060 : class_def := {|
  c_name := "bjse.TradeCaptureReportExtend060";
  c_fields :=
      [];
  c_enc :=
      [];
  c_dec :=
      [];
  c_eq :=
      [];
  c_hash := HashSelf;
  c_tag := "TradeCaptureReportExtend060";
  c_str :=
      [];
  c_get :=
      [];
  c_set :=
      [] |}.

(* bjse-bin/src/main/java/com/finproto/bjse/trade/messages/TradeCaptureReportExtend061.java:7-35  class TradeCaptureReportExtend061; fields none; encode 10-10; decode 13-13; hashCode 16-18; equals 21-29; toString 32-34; the rest: getters and setters *)
Definition bjse_TradeCaptureReportExtend061 : class_def := {|
  c_name := "bjse.TradeCaptureReportExtend061";
  c_fields :=
      [];
  c_enc :=
      [];
  c_dec :=
      [];
  c_eq :=
      [];
  c_hash := HashSelf;
  c_tag := "TradeCaptureReportExtend061";
  c_str :=
      [];
  c_get :=
      [];
  c_set :=
      [] |}.

(* bjse-bin/src/main/java/com/finproto/bjse/trade/messages/TradeCaptureReportExtend062.java:8-50  class TradeCaptureReportExtend062; fields 9-9; encode 20-22; decode 25-27; hashCode 30-32; equals 35-44; toString 47-49; the rest: getters and setters *)
Definition bjse_TradeCaptureReportExtend062 : class_def := {|
  c_name := "bjse.TradeCaptureReportExtend062";
  c_fields :=
      [ ("cashMargin", TStr) ];
  c_enc :=
      [ EFix "cashMargin" 1 32 false ];
  c_dec :=
      [ DFix "cashMargin" 1 32 false ];
  c_eq :=
      [ "cashMargin" ];
  c_hash := 
      HashFields [ "cashMargin" ];
  c_tag := "TradeCaptureReportExtend062";
  c_str :=
      [ ("cashMargin", "cashMargin") ];
  c_get :=
      [ ("getCashMargin", "cashMargin") ];
  c_set :=
      [ ("setCashMargin", "cashMargin") ] |}.

(* bjse-bin/src/main/java/com/finproto/bjse/trade/messages/TradingSessionStatus.java:8-129  class TradingSessionStatus; fields 9-14; encode 65-72; decode 75-82; hashCode 85-93; equals 96-110; toString 113-128; the rest: getters and setters *)
Definition bjse_TradingSessionStatus : class_def := {|
  c_name := "bjse.TradingSessionStatus";
  c_fields :=
      [ ("marketId", TStr);
        ("marketSegmentId", TStr);
        ("tradingSessionId", TStr);
        ("tradingSessionSubId", TStr);
        ("tradSesStatus", TByte);
        ("tradSesStartTime", TLong) ];
  c_enc :=
      [ EFix "marketId" 3 32 false;
        EFix "marketSegmentId" 3 32 false;
        EFix "tradingSessionId" 3 32 false;
        EFix "tradingSessionSubId" 3 32 false;
        EWrite 1 BE "tradSesStatus";
        EWrite 8 LE "tradSesStartTime" ];
  c_dec :=
      [ DFix "marketId" 3 32 false;
        DFix "marketSegmentId" 3 32 false;
        DFix "tradingSessionId" 3 32 false;
        DFix "tradingSessionSubId" 3 32 false;
        DRead 1 BE "tradSesStatus";
        DRead 8 LE "tradSesStartTime" ];
  c_eq :=
      [ "marketId";
        "marketSegmentId";
        "tradingSessionId";
        "tradingSessionSubId";
        "tradSesStatus";
        "tradSesStartTime" ];
  c_hash := 
      HashFields [ "marketId";
        "marketSegmentId";
        "tradingSessionId";
        "tradingSessionSubId";
        "tradSesStatus";
        "tradSesStartTime" ];
  c_tag := "TradingSessionStatus";
  c_str :=
      [ ("marketId", "marketId");
        ("marketSegmentId", "marketSegmentId");
        ("tradingSessionId", "tradingSessionId");
        ("tradingSessionSubId", "tradingSessionSubId");
        ("tradSesStatus", "tradSesStatus");
        ("tradSesStartTime", "tradSesStartTime") ];
  c_get :=
      [ ("getMarketId", "marketId");
        ("getMarketSegmentId", "marketSegmentId");
        ("getTradingSessionId", "tradingSessionId");
        ("getTradingSessionSubId", "tradingSessionSubId");
        ("getTradSesStatus", "tradSesStatus");
        ("getTradSesStartTime", "tradSesStartTime") ];
  c_set :=
      [ ("setMarketId", "marketId");
        ("setMarketSegmentId", "marketSegmentId");
        ("setTradingSessionId", "tradingSessionId");
        ("setTradingSessionSubId", "tradingSessionSubId");
        ("setTradSesStatus", "tradSesStatus");
        ("setTradSesStartTime", "tradSesStartTime") ] |}.

Definition bjse_classes : list class_def :=
      [ bjse_AllegeQuote;
        bjse_AllegeQuoteExtend070;
        bjse_AllegeQuoteResponse;
        bjse_BjseBinary;
        bjse_BusinessReject;
        bjse_CancelReject;
        bjse_ConfirmExtend010;
        bjse_ConfirmExtend040;
        bjse_ConfirmExtend041;
        bjse_ConfirmExtend042;
        bjse_ConfirmExtend043;
        bjse_ConfirmExtend044;
        bjse_ConfirmExtend045;
        bjse_ConfirmExtend050;
        bjse_ExecutionConfirm;
        bjse_ExecutionReport;
        bjse_Extend010;
        bjse_Extend040;
        bjse_Extend041;
        bjse_Extend042;
        bjse_Extend043;
        bjse_Extend044;
        bjse_Extend045;
        bjse_Extend050;
        bjse_ExtendNewOrder010;
        bjse_ExtendNewOrder040;
        bjse_ExtendNewOrder041;
        bjse_ExtendNewOrder042;
        bjse_ExtendNewOrder043;
        bjse_ExtendNewOrder044;
        bjse_ExtendNewOrder045;
        bjse_ExtendNewOrder050;
        bjse_Heartbeat;
        bjse_Logon;
        bjse_Logout;
        bjse_NewOrder;
        bjse_OrderCancelRequest;
        bjse_PlatformInfo;
        bjse_PlatformInfo_NoPartitions;
        bjse_PlatformStateInfo;
        bjse_Quote;
        bjse_QuoteExtend070;
        bjse_QuoteExtend071;
        bjse_QuoteResponse;
        bjse_QuoteResponse_Quote2;
        bjse_QuoteResponseExtend070;
        bjse_QuoteStatusReport;
        bjse_QuoteStatusReportExtend070;
        bjse_QuoteStatusReportExtend070_Quote1;
        bjse_ReportExtend010;
        bjse_ReportExtend040;
        bjse_ReportExtend050;
        bjse_ReportFinished;
        bjse_ReportSynchronization;
        bjse_ReportSynchronization_ReportPartitionSync;
        bjse_TradeCaptureCofirm;
        bjse_TradeCaptureCofirmExtend031;
        bjse_TradeCaptureCofirmExtend051;
        bjse_TradeCaptureCofirmExtend060;
        bjse_TradeCaptureCofirmExtend061;
        bjse_TradeCaptureCofirmExtend062;
        bjse_TradeCaptureConfirm;
        bjse_TradeCaptureConfirmExtend031;
        bjse_TradeCaptureConfirmExtend051;
        bjse_TradeCaptureConfirmExtend060;
        bjse_TradeCaptureConfirmExtend061;
        bjse_TradeCaptureConfirmExtend062;
        bjse_TradeCaptureReport;
        bjse_TradeCaptureReportAck;
        bjse_TradeCaptureReportAckExtend031;
        bjse_TradeCaptureReportAckExtend051;
        bjse_TradeCaptureReportAckExtend060;
        bjse_TradeCaptureReportAckExtend061;
        bjse_TradeCaptureReportAckExtend062;
        bjse_TradeCaptureReportExtend031;
        bjse_TradeCaptureReportExtend051;
        bjse_TradeCaptureReportExtend060;
        bjse_TradeCaptureReportExtend061;
        bjse_TradeCaptureReportExtend062;
        bjse_TradingSessionStatus ].

(* bjse-bin/src/main/java/com/finproto/bjse/trade/messages/AllegeQuote.java:466-493  factory of AllegeQuote (key type String): registrations of its static initialiser, in order *)
Definition bjse_AllegeQuote_factory : list (key * string) :=
      [ (KStr (chars "070"), "bjse.AllegeQuoteExtend070") ].

(* bjse-bin/src/main/java/com/finproto/bjse/trade/messages/BjseBinary.java:102-139  factory of BjseBinary (key type Integer): registrations of its static initialiser, in order *)
Definition bjse_BjseBinary_factory : list (key * string) :=
      [ (KInt 1, "bjse.Logon");
        (KInt 2, "bjse.Logout");
        (KInt 3, "bjse.Heartbeat");
        (KInt 101000, "bjse.NewOrder");
        (KInt 102000, "bjse.OrderCancelRequest");
        (KInt 201000, "bjse.CancelReject");
        (KInt 202010, "bjse.ExecutionConfirm");
        (KInt 203010, "bjse.ExecutionReport");
        (KInt 5, "bjse.ReportSynchronization");
        (KInt 6, "bjse.PlatformStateInfo");
        (KInt 7, "bjse.ReportFinished") ].

(* bjse-bin/src/main/java/com/finproto/bjse/trade/messages/ExecutionConfirm.java:466-500  factory of ExecutionConfirm (key type String): registrations of its static initialiser, in order *)
Definition bjse_ExecutionConfirm_factory : list (key * string) :=
      [ (KStr (chars "010"), "bjse.ConfirmExtend010");
        (KStr (chars "040"), "bjse.ConfirmExtend040");
        (KStr (chars "041"), "bjse.ConfirmExtend041");
        (KStr (chars "042"), "bjse.ConfirmExtend042");
        (KStr (chars "043"), "bjse.ConfirmExtend043");
        (KStr (chars "044"), "bjse.ConfirmExtend044");
        (KStr (chars "045"), "bjse.ConfirmExtend045");
        (KStr (chars "050"), "bjse.ConfirmExtend050") ].

(* bjse-bin/src/main/java/com/finproto/bjse/trade/messages/ExecutionReport.java:406-435  factory of ExecutionReport (key type String): registrations of its static initialiser, in order *)
Definition bjse_ExecutionReport_factory : list (key * string) :=
      [ (KStr (chars "010"), "bjse.ReportExtend010");
        (KStr (chars "040"), "bjse.ReportExtend040");
        (KStr (chars "050"), "bjse.ReportExtend050") ].

(* bjse-bin/src/main/java/com/finproto/bjse/trade/messages/NewOrder.java:301-335  factory of NewOrder (key type String): registrations of its static initialiser, in order *)
Definition bjse_NewOrder_factory : list (key * string) :=
      [ (KStr (chars "010"), "bjse.ExtendNewOrder010");
        (KStr (chars "040"), "bjse.ExtendNewOrder040");
        (KStr (chars "041"), "bjse.ExtendNewOrder041");
        (KStr (chars "042"), "bjse.ExtendNewOrder042");
        (KStr (chars "043"), "bjse.ExtendNewOrder043");
        (KStr (chars "044"), "bjse.ExtendNewOrder044");
        (KStr (chars "045"), "bjse.ExtendNewOrder045");
        (KStr (chars "050"), "bjse.ExtendNewOrder050") ].

(* bjse-bin/src/main/java/com/finproto/bjse/trade/messages/Quote.java:301-329  factory of Quote (key type String): registrations of its static initialiser, in order *)
Definition bjse_Quote_factory : list (key * string) :=
      [ (KStr (chars "070"), "bjse.QuoteExtend070");
        (KStr (chars "071"), "bjse.QuoteExtend071") ].

(* bjse-bin/src/main/java/com/finproto/bjse/trade/messages/QuoteResponse.java:439-466  factory of QuoteResponse (key type String): registrations of its static initialiser, in order *)
Definition bjse_QuoteResponse_factory : list (key * string) :=
      [ (KStr (chars "070"), "bjse.QuoteResponseExtend070") ].

(* bjse-bin/src/main/java/com/finproto/bjse/trade/messages/QuoteStatusReport.java:361-388  factory of QuoteStatusReport (key type String): registrations of its static initialiser, in order *)
Definition bjse_QuoteStatusReport_factory : list (key * string) :=
      [ (KStr (chars "070"), "bjse.QuoteStatusReportExtend070") ].

(* bjse-bin/src/main/java/com/finproto/bjse/trade/messages/TradeCaptureCofirm.java:356-362  factory of TradeCaptureCofirm (key type String): registrations of its static initialiser, in order *)
Definition bjse_TradeCaptureCofirm_factory : list (key * string) :=
      [ (KStr (chars "031"), "bjse.TradeCaptureCofirmExtend031");
        (KStr (chars "051"), "bjse.TradeCaptureCofirmExtend051");
        (KStr (chars "060"), "bjse.TradeCaptureCofirmExtend060");
        (KStr (chars "061"), "bjse.TradeCaptureCofirmExtend061");
        (KStr (chars "062"), "bjse.TradeCaptureCofirmExtend062") ].

(* bjse-bin/src/main/java/com/finproto/bjse/trade/messages/TradeCaptureConfirm.java:496-527  factory of TradeCaptureConfirm (key type String): registrations of its static initialiser, in order *)
Definition bjse_TradeCaptureConfirm_factory : list (key * string) :=
      [ (KStr (chars "031"), "bjse.TradeCaptureConfirmExtend031");
        (KStr (chars "051"), "bjse.TradeCaptureConfirmExtend051");
        (KStr (chars "060"), "bjse.TradeCaptureConfirmExtend060");
        (KStr (chars "061"), "bjse.TradeCaptureConfirmExtend061");
        (KStr (chars "062"), "bjse.TradeCaptureConfirmExtend062") ].

(* bjse-bin/src/main/java/com/finproto/bjse/trade/messages/TradeCaptureReport.java:436-467  factory of TradeCaptureReport (key type String): registrations of its static initialiser, in order *)
Definition bjse_TradeCaptureReport_factory : list (key * string) :=
      [ (KStr (chars "031"), "bjse.TradeCaptureReportExtend031");
        (KStr (chars "051"), "bjse.TradeCaptureReportExtend051");
        (KStr (chars "060"), "bjse.TradeCaptureReportExtend060");
        (KStr (chars "061"), "bjse.TradeCaptureReportExtend061");
        (KStr (chars "062"), "bjse.TradeCaptureReportExtend062") ].

(* bjse-bin/src/main/java/com/finproto/bjse/trade/messages/TradeCaptureReportAck.java:556-587  factory of TradeCaptureReportAck (key type String): registrations of its static initialiser, in order *)
Definition bjse_TradeCaptureReportAck_factory : list (key * string) :=
      [ (KStr (chars "031"), "bjse.TradeCaptureReportAckExtend031");
        (KStr (chars "051"), "bjse.TradeCaptureReportAckExtend051");
        (KStr (chars "060"), "bjse.TradeCaptureReportAckExtend060");
        (KStr (chars "061"), "bjse.TradeCaptureReportAckExtend061");
        (KStr (chars "062"), "bjse.TradeCaptureReportAckExtend062") ].

Definition bjse_factories : list (string * list (key * string)) :=
      [ ("bjse.AllegeQuote", bjse_AllegeQuote_factory);
        ("bjse.BjseBinary", bjse_BjseBinary_factory);
        ("bjse.ExecutionConfirm", bjse_ExecutionConfirm_factory);
        ("bjse.ExecutionReport", bjse_ExecutionReport_factory);
        ("bjse.NewOrder", bjse_NewOrder_factory);
        ("bjse.Quote", bjse_Quote_factory);
        ("bjse.QuoteResponse", bjse_QuoteResponse_factory);
        ("bjse.QuoteStatusReport", bjse_QuoteStatusReport_factory);
        ("bjse.TradeCaptureCofirm", bjse_TradeCaptureCofirm_factory);
        ("bjse.TradeCaptureConfirm", bjse_TradeCaptureConfirm_factory);
        ("bjse.TradeCaptureReport", bjse_TradeCaptureReport_factory);
        ("bjse.TradeCaptureReportAck", bjse_TradeCaptureReportAck_factory) ].
