(* GENERATED by tools/translate.py: the wire layout of each message class of bjse-bin, i.e. its fields in wire
   order with their formats.  This is specification data (what the messages look like on the wire);
   that the translated Java code follows it is proved in Proofs/Conform.v. *)
From Coq Require Import String ZArith List.
From Verif.Model Require Import JavaPrim Ast.
From Verif.Spec Require Import Wire.
Import ListNotations.
Open Scope string_scope.

(* bjse-bin/src/main/java/com/finproto/bjse/trade/messages/AllegeQuote.java:11-494 *)
Definition bjse_AllegeQuote_layout : layout :=
      [ ("partitionNo", WInt 4 LE);
        ("reportIndex", WInt 8 LE);
        ("applId", WFix 3 32 false);
        ("reportingPbuid", WFix 6 32 false);
        ("submittingPbuid", WFix 6 32 false);
        ("securityId", WFix 8 32 false);
        ("securityIdsource", WFix 4 32 false);
        ("ownerType", WInt 2 LE);
        ("clearingFirm", WFix 2 32 false);
        ("transactTime", WInt 8 LE);
        ("userInfo", WFix 32 32 false);
        ("orderId", WFix 16 32 false);
        ("execId", WFix 16 32 false);
        ("clOrdId", WFix 10 32 false);
        ("accountId", WFix 10 32 false);
        ("quoteReqId", WFix 10 32 false);
        ("quoteId", WFix 10 32 false);
        ("quoteRespId", WFix 10 32 false);
        ("quoteType", WInt 1 BE);
        ("bidPx", WInt 8 LE);
        ("offerPx", WInt 8 LE);
        ("bidSize", WInt 8 LE);
        ("offerSize", WInt 8 LE);
        ("privateQuote", WInt 1 BE);
        ("validUntilTime", WInt 8 LE);
        ("priceType", WInt 1 BE);
        ("memo", WFix 120 32 false);
        ("applExtend", WBody "applId") ].

(* bjse-bin/src/main/java/com/finproto/bjse/trade/messages/AllegeQuoteExtend070.java:8-67 *)
Definition bjse_AllegeQuoteExtend070_layout : layout :=
      [ ("cashMargin", WFix 1 32 false);
        ("counterPartyPbuid", WFix 6 32 false) ].

(* bjse-bin/src/main/java/com/finproto/bjse/trade/messages/AllegeQuoteResponse.java:8-399 *)
Definition bjse_AllegeQuoteResponse_layout : layout :=
      [ ("partitionNo", WInt 4 LE);
        ("reportIndex", WInt 8 LE);
        ("applId", WFix 3 32 false);
        ("reportingPbuid", WFix 6 32 false);
        ("submittingPbuid", WFix 6 32 false);
        ("securityId", WFix 8 32 false);
        ("securityIdsource", WFix 4 32 false);
        ("ownerType", WInt 2 LE);
        ("clearingFirm", WFix 2 32 false);
        ("transactTime", WInt 8 LE);
        ("userInfo", WFix 32 32 false);
        ("orderId", WFix 16 32 false);
        ("execId", WFix 16 32 false);
        ("clOrdId", WFix 10 32 false);
        ("accountId", WFix 10 32 false);
        ("quoteId", WFix 10 32 false);
        ("quoteRespId", WFix 10 32 false);
        ("quoteRespType", WInt 1 BE);
        ("privateQuote", WInt 1 BE);
        ("orderQty", WInt 8 LE);
        ("price", WInt 8 LE);
        ("validUntilTime", WInt 8 LE);
        ("quoteType", WInt 1 BE);
        ("priceType", WInt 1 BE) ].

(* bjse-bin/src/main/java/com/finproto/bjse/trade/messages/BjseBinary.java:11-140 *)
Definition bjse_BjseBinary_layout : layout :=
      [ ("msgType", WInt 4 LE);
        ("bodyLength", WInt 4 LE);
        ("body", WBody "msgType");
        ("checksum", WInt 4 LE) ].

(* bjse-bin/src/main/java/com/finproto/bjse/trade/messages/BusinessReject.java:8-189 *)
Definition bjse_BusinessReject_layout : layout :=
      [ ("applId", WFix 3 32 false);
        ("transactTime", WInt 8 LE);
        ("submittingPbuid", WFix 6 32 false);
        ("securityId", WFix 8 32 false);
        ("securityIdsource", WFix 4 32 false);
        ("refSeqNum", WInt 8 LE);
        ("refMsgType", WInt 4 LE);
        ("businessRejectRefId", WFix 10 32 false);
        ("businessRejectReason", WInt 2 LE);
        ("businessRejectText", WFix 50 32 false) ].

(* bjse-bin/src/main/java/com/finproto/bjse/trade/messages/CancelReject.java:8-324 *)
Definition bjse_CancelReject_layout : layout :=
      [ ("partitionNo", WInt 4 LE);
        ("reportIndex", WInt 8 LE);
        ("applId", WFix 3 32 false);
        ("reportingPbuid", WFix 6 32 false);
        ("submittingPbuid", WFix 6 32 false);
        ("securityId", WFix 8 32 false);
        ("securityIdsource", WFix 4 32 false);
        ("ownerType", WInt 2 LE);
        ("clearingFirm", WFix 2 32 false);
        ("transactTime", WInt 8 LE);
        ("userInfo", WFix 32 32 false);
        ("clOrdId", WFix 10 32 false);
        ("origClOrdId", WFix 10 32 false);
        ("accountId", WFix 10 32 false);
        ("branchId", WFix 2 32 false);
        ("ordStatus", WFix 1 32 false);
        ("cxlRejReason", WInt 2 LE);
        ("rejectText", WFix 16 32 false);
        ("orderId", WFix 16 32 false) ].

(* bjse-bin/src/main/java/com/finproto/bjse/trade/messages/ConfirmExtend010.java:8-109 *)
Definition bjse_ConfirmExtend010_layout : layout :=
      [ ("stopPx", WInt 8 LE);
        ("minQty", WInt 8 LE);
        ("maxPriceLevels", WInt 2 LE);
        ("timeInForce", WFix 1 32 false);
        ("cashMargin", WFix 1 32 false) ].

(* bjse-bin/src/main/java/com/finproto/bjse/trade/messages/ConfirmExtend040.java:8-109 *)
Definition bjse_ConfirmExtend040_layout : layout :=
      [ ("stopPx", WInt 8 LE);
        ("minQty", WInt 8 LE);
        ("maxPriceLevels", WInt 2 LE);
        ("timeInForce", WFix 1 32 false);
        ("cashMargin", WFix 1 32 false) ].

(* bjse-bin/src/main/java/com/finproto/bjse/trade/messages/ConfirmExtend041.java:7-35 *)
Definition bjse_ConfirmExtend041_layout : layout :=
      [].

(* bjse-bin/src/main/java/com/finproto/bjse/trade/messages/ConfirmExtend042.java:7-35 *)
Definition bjse_ConfirmExtend042_layout : layout :=
      [].

(* bjse-bin/src/main/java/com/finproto/bjse/trade/messages/ConfirmExtend043.java:7-35 *)
Definition bjse_ConfirmExtend043_layout : layout :=
      [].

(* bjse-bin/src/main/java/com/finproto/bjse/trade/messages/ConfirmExtend044.java:7-35 *)
Definition bjse_ConfirmExtend044_layout : layout :=
      [].

(* bjse-bin/src/main/java/com/finproto/bjse/trade/messages/ConfirmExtend045.java:7-35 *)
Definition bjse_ConfirmExtend045_layout : layout :=
      [].

(* bjse-bin/src/main/java/com/finproto/bjse/trade/messages/ConfirmExtend050.java:8-81 *)
Definition bjse_ConfirmExtend050_layout : layout :=
      [ ("expirationDays", WInt 2 LE);
        ("expirationType", WInt 1 BE);
        ("shareProperty", WFix 2 32 false) ].

(* bjse-bin/src/main/java/com/finproto/bjse/trade/messages/ExecutionConfirm.java:11-501 *)
Definition bjse_ExecutionConfirm_layout : layout :=
      [ ("partitionNo", WInt 4 LE);
        ("reportIndex", WInt 8 LE);
        ("applId", WFix 3 32 false);
        ("reportingPbuid", WFix 6 32 false);
        ("submittingPbuid", WFix 6 32 false);
        ("securityId", WFix 8 32 false);
        ("securityIdsource", WFix 4 32 false);
        ("ownerType", WInt 2 LE);
        ("clearingFirm", WFix 2 32 false);
        ("transactTime", WInt 8 LE);
        ("userInfo", WFix 32 32 false);
        ("orderId", WFix 16 32 false);
        ("clOrdId", WFix 10 32 false);
        ("origClOrdId", WFix 10 32 false);
        ("execId", WFix 16 32 false);
        ("execType", WFix 1 32 false);
        ("ordStatus", WFix 1 32 false);
        ("ordRejReason", WInt 2 LE);
        ("leavesQty", WInt 8 LE);
        ("cumQty", WInt 8 LE);
        ("side", WFix 1 32 false);
        ("ordType", WFix 1 32 false);
        ("orderQty", WInt 8 LE);
        ("price", WInt 8 LE);
        ("accountId", WFix 10 32 false);
        ("branchId", WFix 2 32 false);
        ("orderRestrictions", WFix 4 32 false);
        ("applExtend", WBody "applId") ].

(* bjse-bin/src/main/java/com/finproto/bjse/trade/messages/ExecutionReport.java:11-436 *)
Definition bjse_ExecutionReport_layout : layout :=
      [ ("partitionNo", WInt 4 LE);
        ("reportIndex", WInt 8 LE);
        ("applId", WFix 3 32 false);
        ("reportingPbuid", WFix 6 32 false);
        ("submittingPbuid", WFix 6 32 false);
        ("securityId", WFix 8 32 false);
        ("securityIdsource", WFix 4 32 false);
        ("ownerType", WInt 2 LE);
        ("clearingFirm", WFix 2 32 false);
        ("transactTime", WInt 8 LE);
        ("userInfo", WFix 32 32 false);
        ("orderId", WFix 16 32 false);
        ("clOrdId", WFix 10 32 false);
        ("execId", WFix 16 32 false);
        ("execType", WFix 1 32 false);
        ("ordStatus", WFix 1 32 false);
        ("lastPx", WInt 8 LE);
        ("lastQty", WInt 8 LE);
        ("leavesQty", WInt 8 LE);
        ("cumQty", WInt 8 LE);
        ("side", WFix 1 32 false);
        ("accountId", WFix 10 32 false);
        ("branchId", WFix 2 32 false);
        ("applExtend", WBody "applId") ].

(* bjse-bin/src/main/java/com/finproto/bjse/trade/messages/Extend010.java:8-138 *)
Definition bjse_Extend010_layout : layout :=
      [ ("stopPx", WInt 8 LE);
        ("minQty", WInt 8 LE);
        ("maxPriceLevels", WInt 2 LE);
        ("timeInForce", WInt 1 BE);
        ("cashMargin", WInt 1 BE);
        ("settlType", WInt 1 BE);
        ("settlPeriod", WInt 1 BE) ].

(* bjse-bin/src/main/java/com/finproto/bjse/trade/messages/Extend040.java:8-109 *)
Definition bjse_Extend040_layout : layout :=
      [ ("stopPx", WInt 8 LE);
        ("minQty", WInt 8 LE);
        ("maxPriceLevels", WInt 2 LE);
        ("timeInForce", WInt 1 BE);
        ("cashMargin", WInt 1 BE) ].

(* bjse-bin/src/main/java/com/finproto/bjse/trade/messages/Extend041.java:7-35 *)
Definition bjse_Extend041_layout : layout :=
      [].

(* bjse-bin/src/main/java/com/finproto/bjse/trade/messages/Extend042.java:7-35 *)
Definition bjse_Extend042_layout : layout :=
      [].

(* bjse-bin/src/main/java/com/finproto/bjse/trade/messages/Extend043.java:7-35 *)
Definition bjse_Extend043_layout : layout :=
      [].

(* bjse-bin/src/main/java/com/finproto/bjse/trade/messages/Extend044.java:7-35 *)
Definition bjse_Extend044_layout : layout :=
      [].

(* bjse-bin/src/main/java/com/finproto/bjse/trade/messages/Extend045.java:7-35 *)
Definition bjse_Extend045_layout : layout :=
      [].

(* bjse-bin/src/main/java/com/finproto/bjse/trade/messages/Extend050.java:8-81 *)
Definition bjse_Extend050_layout : layout :=
      [ ("expirationDays", WInt 2 LE);
        ("expirationType", WInt 1 BE);
        ("shareProperty", WFix 2 32 false) ].

(* bjse-bin/src/main/java/com/finproto/bjse/trade/messages/ExtendNewOrder010.java:8-138 *)
Definition bjse_ExtendNewOrder010_layout : layout :=
      [ ("stopPx", WInt 8 LE);
        ("minQty", WInt 8 LE);
        ("maxPriceLevels", WInt 2 LE);
        ("timeInForce", WFix 1 32 false);
        ("cashMargin", WFix 1 32 false);
        ("settlType", WFix 1 32 false);
        ("settlPeriod", WFix 1 32 false) ].

(* bjse-bin/src/main/java/com/finproto/bjse/trade/messages/ExtendNewOrder040.java:8-109 *)
Definition bjse_ExtendNewOrder040_layout : layout :=
      [ ("stopPx", WInt 8 LE);
        ("minQty", WInt 8 LE);
        ("maxPriceLevels", WInt 2 LE);
        ("timeInForce", WFix 1 32 false);
        ("cashMargin", WFix 1 32 false) ].

(* bjse-bin/src/main/java/com/finproto/bjse/trade/messages/ExtendNewOrder041.java:7-35 *)
Definition bjse_ExtendNewOrder041_layout : layout :=
      [].

(* bjse-bin/src/main/java/com/finproto/bjse/trade/messages/ExtendNewOrder042.java:7-35 *)
Definition bjse_ExtendNewOrder042_layout : layout :=
      [].

(* bjse-bin/src/main/java/com/finproto/bjse/trade/messages/ExtendNewOrder043.java:7-35 *)
Definition bjse_ExtendNewOrder043_layout : layout :=
      [].

(* bjse-bin/src/main/java/com/finproto/bjse/trade/messages/ExtendNewOrder044.java:7-35 *)
Definition bjse_ExtendNewOrder044_layout : layout :=
      [].

(* bjse-bin/src/main/java/com/finproto/bjse/trade/messages/ExtendNewOrder045.java:7-35 *)
Definition bjse_ExtendNewOrder045_layout : layout :=
      [].

(* bjse-bin/src/main/java/com/finproto/bjse/trade/messages/ExtendNewOrder050.java:8-81 *)
Definition bjse_ExtendNewOrder050_layout : layout :=
      [ ("expirationDays", WInt 2 LE);
        ("expirationType", WInt 1 BE);
        ("shareProperty", WFix 2 32 false) ].

(* bjse-bin/src/main/java/com/finproto/bjse/trade/messages/Heartbeat.java:7-35 *)
Definition bjse_Heartbeat_layout : layout :=
      [].

(* bjse-bin/src/main/java/com/finproto/bjse/trade/messages/Logon.java:8-109 *)
Definition bjse_Logon_layout : layout :=
      [ ("senderCompId", WFix 20 32 false);
        ("targetCompId", WFix 20 32 false);
        ("heartBtInt", WInt 4 LE);
        ("password", WFix 16 32 false);
        ("defaultApplVerId", WFix 32 32 false) ].

(* bjse-bin/src/main/java/com/finproto/bjse/trade/messages/Logout.java:8-62 *)
Definition bjse_Logout_layout : layout :=
      [ ("sessionStatus", WInt 4 LE);
        ("text", WFix 200 32 false) ].

(* bjse-bin/src/main/java/com/finproto/bjse/trade/messages/NewOrder.java:11-336 *)
Definition bjse_NewOrder_layout : layout :=
      [ ("applId", WFix 3 32 false);
        ("submittingPbuid", WFix 6 32 false);
        ("securityId", WFix 8 32 false);
        ("securityIdsource", WFix 4 32 false);
        ("ownerType", WInt 2 LE);
        ("clearingFirm", WFix 2 32 false);
        ("transactTime", WInt 8 LE);
        ("userInfo", WFix 32 32 false);
        ("clOrdId", WFix 10 32 false);
        ("accountId", WFix 10 32 false);
        ("branchId", WFix 2 32 false);
        ("orderRestrictions", WFix 4 32 false);
        ("side", WFix 1 32 false);
        ("ordType", WFix 1 32 false);
        ("orderQty", WInt 8 LE);
        ("price", WInt 8 LE);
        ("applExtend", WBody "applId") ].

(* bjse-bin/src/main/java/com/finproto/bjse/trade/messages/OrderCancelRequest.java:8-249 *)
Definition bjse_OrderCancelRequest_layout : layout :=
      [ ("applId", WFix 3 32 false);
        ("submittingPbuid", WFix 6 32 false);
        ("securityId", WFix 8 32 false);
        ("securityIdsource", WFix 4 32 false);
        ("ownerType", WInt 2 LE);
        ("clearingFirm", WFix 2 32 false);
        ("transactTime", WInt 8 LE);
        ("userInfo", WFix 32 32 false);
        ("clOrdId", WFix 10 32 false);
        ("origClOrdId", WFix 10 32 false);
        ("accountId", WFix 10 32 false);
        ("branchId", WFix 2 32 false);
        ("orderId", WFix 16 32 false);
        ("orderQty", WInt 8 LE) ].

(* bjse-bin/src/main/java/com/finproto/bjse/trade/messages/PlatformInfo.java:10-146 *)
Definition bjse_PlatformInfo_layout : layout :=
      [ ("platformId", WInt 2 LE);
        ("noPartitions", WList 2 LE (WObj "bjse.PlatformInfo.NoPartitions")) ].

(* bjse-bin/src/main/java/com/finproto/bjse/trade/messages/PlatformInfo.java:86-145 *)
Definition bjse_PlatformInfo_NoPartitions_layout : layout :=
      [ ("partitionNo", WInt 4 LE);
        ("partitionName", WFix 20 32 false) ].

(* bjse-bin/src/main/java/com/finproto/bjse/trade/messages/PlatformStateInfo.java:8-67 *)
Definition bjse_PlatformStateInfo_layout : layout :=
      [ ("platformId", WInt 2 LE);
        ("platformState", WInt 2 LE) ].

(* bjse-bin/src/main/java/com/finproto/bjse/trade/messages/Quote.java:11-330 *)
Definition bjse_Quote_layout : layout :=
      [ ("applId", WFix 3 32 false);
        ("submittingPbuid", WFix 6 32 false);
        ("securityId", WFix 8 32 false);
        ("securityIdsource", WFix 4 32 false);
        ("ownerType", WInt 2 LE);
        ("clearingFirm", WFix 2 32 false);
        ("transactTime", WInt 8 LE);
        ("userInfo", WFix 32 32 false);
        ("quoteMsgId", WFix 10 32 false);
        ("accountId", WFix 10 32 false);
        ("quoteReqId", WFix 10 32 false);
        ("quoteType", WInt 1 BE);
        ("bidPx", WInt 8 LE);
        ("offerPx", WInt 8 LE);
        ("bidSize", WInt 8 LE);
        ("offerSize", WInt 8 LE);
        ("applExtend", WBody "applId") ].

(* bjse-bin/src/main/java/com/finproto/bjse/trade/messages/QuoteExtend070.java:8-174 *)
Definition bjse_QuoteExtend070_layout : layout :=
      [ ("branchId", WFix 2 32 false);
        ("quoteId", WFix 10 32 false);
        ("quoteRespId", WFix 10 32 false);
        ("privateQuote", WInt 1 BE);
        ("validUntilTime", WInt 8 LE);
        ("priceType", WInt 1 BE);
        ("cashMargin", WFix 1 32 false);
        ("counterPartyPbuid", WFix 6 32 false);
        ("memo", WFix 120 32 false) ].

(* bjse-bin/src/main/java/com/finproto/bjse/trade/messages/QuoteExtend071.java:7-35 *)
Definition bjse_QuoteExtend071_layout : layout :=
      [].

(* bjse-bin/src/main/java/com/finproto/bjse/trade/messages/QuoteResponse.java:13-467 *)
Definition bjse_QuoteResponse_layout : layout :=
      [ ("applId", WFix 3 32 false);
        ("reportingPbuid", WFix 6 32 false);
        ("submittingPbuid", WFix 6 32 false);
        ("securityId", WFix 8 32 false);
        ("securityIdsource", WFix 4 32 false);
        ("ownerType", WInt 2 LE);
        ("clearingFirm", WFix 2 32 false);
        ("transactTime", WInt 8 LE);
        ("userInfo", WFix 32 32 false);
        ("clOrdId", WFix 10 32 false);
        ("accountId", WFix 10 32 false);
        ("branchId", WFix 2 32 false);
        ("quoteRespId", WFix 10 32 false);
        ("quoteRespType", WInt 1 BE);
        ("side", WFix 1 32 false);
        ("validUntilTime", WInt 8 LE);
        ("quoteType", WInt 1 BE);
        ("priceType", WInt 1 BE);
        ("quote2", WList 2 LE (WObj "bjse.QuoteResponse.Quote2"));
        ("applExtend", WBody "applId") ].

(* bjse-bin/src/main/java/com/finproto/bjse/trade/messages/QuoteResponse.java:364-437 *)
Definition bjse_QuoteResponse_Quote2_layout : layout :=
      [ ("quoteId", WFix 10 32 false);
        ("quotePrice", WInt 8 LE);
        ("quoteQty", WInt 8 LE) ].

(* bjse-bin/src/main/java/com/finproto/bjse/trade/messages/QuoteResponseExtend070.java:8-50 *)
Definition bjse_QuoteResponseExtend070_layout : layout :=
      [ ("cashMargin", WFix 1 32 false) ].

(* bjse-bin/src/main/java/com/finproto/bjse/trade/messages/QuoteStatusReport.java:11-389 *)
Definition bjse_QuoteStatusReport_layout : layout :=
      [ ("partitionNo", WInt 4 LE);
        ("reportIndex", WInt 8 LE);
        ("applId", WFix 3 32 false);
        ("reportingPbuid", WFix 6 32 false);
        ("submittingPbuid", WFix 6 32 false);
        ("securityId", WFix 8 32 false);
        ("securityIdsource", WFix 4 32 false);
        ("ownerType", WInt 2 LE);
        ("clearingFirm", WFix 2 32 false);
        ("transactTime", WInt 8 LE);
        ("userInfo", WFix 32 32 false);
        ("quoteMsgId", WFix 10 32 false);
        ("accountId", WFix 10 32 false);
        ("quoteReqId", WFix 10 32 false);
        ("quoteRjectReason", WInt 8 LE);
        ("quoteType", WInt 1 BE);
        ("bidPx", WInt 8 LE);
        ("offerPx", WInt 8 LE);
        ("bidSize", WInt 8 LE);
        ("offerSize", WInt 8 LE);
        ("applExtend", WBody "applId") ].

(* bjse-bin/src/main/java/com/finproto/bjse/trade/messages/QuoteStatusReportExtend070.java:10-312 *)
Definition bjse_QuoteStatusReportExtend070_layout : layout :=
      [ ("branchId", WFix 2 32 false);
        ("orderId", WFix 16 32 false);
        ("execId", WFix 16 32 false);
        ("quoteRespId", WFix 10 32 false);
        ("privateQuote", WInt 1 BE);
        ("side", WFix 1 32 false);
        ("priceType", WInt 1 BE);
        ("validUntilTime", WInt 8 LE);
        ("cashMargin", WFix 1 32 false);
        ("counterPartyPbuid", WFix 6 32 false);
        ("memo", WFix 120 32 false);
        ("quote1", WList 2 LE (WObj "bjse.QuoteStatusReportExtend070.Quote1")) ].

(* bjse-bin/src/main/java/com/finproto/bjse/trade/messages/QuoteStatusReportExtend070.java:238-311 *)
Definition bjse_QuoteStatusReportExtend070_Quote1_layout : layout :=
      [ ("quoteId", WFix 10 32 false);
        ("quotePrice", WInt 8 LE);
        ("quoteQty", WInt 8 LE) ].

(* bjse-bin/src/main/java/com/finproto/bjse/trade/messages/ReportExtend010.java:8-81 *)
Definition bjse_ReportExtend010_layout : layout :=
      [ ("cashMargin", WFix 1 32 false);
        ("settlType", WFix 1 32 false);
        ("settlPeriod", WFix 1 32 false) ].

(* bjse-bin/src/main/java/com/finproto/bjse/trade/messages/ReportExtend040.java:8-50 *)
Definition bjse_ReportExtend040_layout : layout :=
      [ ("cashMargin", WFix 1 32 false) ].

(* bjse-bin/src/main/java/com/finproto/bjse/trade/messages/ReportExtend050.java:8-95 *)
Definition bjse_ReportExtend050_layout : layout :=
      [ ("expirationDays", WInt 2 LE);
        ("expirationType", WInt 1 BE);
        ("maturityDate", WInt 4 LE);
        ("shareProperty", WFix 2 32 false) ].

(* bjse-bin/src/main/java/com/finproto/bjse/trade/messages/ReportFinished.java:8-81 *)
Definition bjse_ReportFinished_layout : layout :=
      [ ("partitionNo", WInt 4 LE);
        ("reportIndex", WInt 8 LE);
        ("platformId", WInt 2 LE) ].

(* bjse-bin/src/main/java/com/finproto/bjse/trade/messages/ReportSynchronization.java:10-129 *)
Definition bjse_ReportSynchronization_layout : layout :=
      [ ("reportPartitionSync", WList 2 LE (WObj "bjse.ReportSynchronization.ReportPartitionSync")) ].

(* bjse-bin/src/main/java/com/finproto/bjse/trade/messages/ReportSynchronization.java:69-128 *)
Definition bjse_ReportSynchronization_ReportPartitionSync_layout : layout :=
      [ ("partitionNo", WInt 4 LE);
        ("reportIndex", WInt 8 LE) ].

(* bjse-bin/src/main/java/com/finproto/bjse/trade/messages/TradeCaptureCofirm.java:11-513 *)
Definition bjse_TradeCaptureCofirm_layout : layout :=
      [ ("partitionNo", WInt 4 LE);
        ("reportIndex", WInt 8 LE);
        ("applId", WFix 3 32 false);
        ("reportingPbuid", WFix 6 32 false);
        ("submittingPbuid", WFix 6 32 false);
        ("securityId", WFix 8 32 false);
        ("securityIdsource", WFix 4 32 false);
        ("ownerType", WInt 2 LE);
        ("clearingFirm", WFix 2 32 false);
        ("transactTime", WInt 8 LE);
        ("userInfo", WFix 32 32 false);
        ("tradeId", WFix 16 32 false);
        ("tradeReportId", WFix 10 32 false);
        ("tradeReportType", WInt 1 BE);
        ("tradeReportTransType", WInt 1 BE);
        ("tradeHandlingInstr", WInt 1 BE);
        ("lastPx", WInt 8 LE);
        ("lastQty", WInt 8 LE);
        ("trdType", WInt 2 LE);
        ("trdSubType", WInt 2 LE);
        ("confirmId", WInt 4 LE);
        ("execId", WFix 16 32 false);
        ("side", WInt 1 BE);
        ("pbuid", WFix 6 32 false);
        ("accountId", WFix 10 32 false);
        ("branchId", WFix 2 32 false);
        ("counterPartyPbuid", WFix 6 32 false);
        ("counterPartyAccountId", WFix 10 32 false);
        ("counterPartyBranchId", WFix 2 32 false);
        ("applExtend", WBody "applId") ].

(* bjse-bin/src/main/java/com/finproto/bjse/trade/messages/TradeCaptureCofirmExtend031.java:8-159 *)
Definition bjse_TradeCaptureCofirmExtend031_layout : layout :=
      [ ("memberId", WFix 6 32 false);
        ("traderCode", WFix 5 32 false);
        ("counterPartyMemberId", WFix 6 32 false);
        ("counterPartyTraderCode", WFix 5 32 false);
        ("settlType", WInt 1 BE);
        ("settlPeriod", WInt 1 BE);
        ("cashMargin", WInt 1 BE);
        ("memo", WFix 120 32 false) ].

(* bjse-bin/src/main/java/com/finproto/bjse/trade/messages/TradeCaptureCofirmExtend051.java:8-95 *)
Definition bjse_TradeCaptureCofirmExtend051_layout : layout :=
      [ ("expirationDays", WInt 2 LE);
        ("expirationType", WInt 1 BE);
        ("maturityDate", WInt 4 LE);
        ("shareProperty", WFix 2 32 false) ].

(* bjse-bin/src/main/java/com/finproto/bjse/trade/messages/TradeCaptureCofirmExtend060.java:7-35 *)
Definition bjse_TradeCaptureCofirmExtend060_layout : layout :=
      [].

(* bjse-bin/src/main/java/com/finproto/bjse/trade/messages/TradeCaptureCofirmExtend061.java:7-35 *)
Definition bjse_TradeCaptureCofirmExtend061_layout : layout :=
      [].

(* bjse-bin/src/main/java/com/finproto/bjse/trade/messages/TradeCaptureCofirmExtend062.java:8-50 *)
Definition bjse_TradeCaptureCofirmExtend062_layout : layout :=
      [ ("cashMargin", WInt 1 BE) ].

(* bjse-bin/src/main/java/com/finproto/bjse/trade/messages/TradeCaptureConfirm.java:11-528 *)
Definition bjse_TradeCaptureConfirm_layout : layout :=
      [ ("partitionNo", WInt 4 LE);
        ("reportIndex", WInt 8 LE);
        ("applId", WFix 3 32 false);
        ("reportingPbuid", WFix 6 32 false);
        ("submittingPbuid", WFix 6 32 false);
        ("securityId", WFix 8 32 false);
        ("securityIdsource", WFix 4 32 false);
        ("ownerType", WInt 2 LE);
        ("clearingFirm", WFix 2 32 false);
        ("transactTime", WInt 8 LE);
        ("userInfo", WFix 32 32 false);
        ("tradeId", WFix 16 32 false);
        ("tradeReportId", WFix 10 32 false);
        ("tradeReportType", WInt 1 BE);
        ("tradeReportTransType", WInt 1 BE);
        ("tradeHandlingInstr", WFix 1 32 false);
        ("lastPx", WInt 8 LE);
        ("lastQty", WInt 8 LE);
        ("trdType", WInt 2 LE);
        ("trdSubType", WInt 2 LE);
        ("confirmId", WInt 4 LE);
        ("execId", WFix 16 32 false);
        ("side", WFix 1 32 false);
        ("pbuid", WFix 6 32 false);
        ("accountId", WFix 10 32 false);
        ("branchId", WFix 2 32 false);
        ("counterPartyPbuid", WFix 6 32 false);
        ("counterPartyAccountId", WFix 10 32 false);
        ("counterPartyBranchId", WFix 2 32 false);
        ("applExtend", WBody "applId") ].

(* bjse-bin/src/main/java/com/finproto/bjse/trade/messages/TradeCaptureConfirmExtend031.java:8-159 *)
Definition bjse_TradeCaptureConfirmExtend031_layout : layout :=
      [ ("memberId", WFix 6 32 false);
        ("traderCode", WFix 5 32 false);
        ("counterPartyMemberId", WFix 6 32 false);
        ("counterPartyTraderCode", WFix 5 32 false);
        ("settlType", WFix 1 32 false);
        ("settlPeriod", WFix 1 32 false);
        ("cashMargin", WFix 1 32 false);
        ("memo", WFix 120 32 false) ].

(* bjse-bin/src/main/java/com/finproto/bjse/trade/messages/TradeCaptureConfirmExtend051.java:8-95 *)
Definition bjse_TradeCaptureConfirmExtend051_layout : layout :=
      [ ("expirationDays", WInt 2 LE);
        ("expirationType", WInt 1 BE);
        ("maturityDate", WInt 4 LE);
        ("shareProperty", WFix 2 32 false) ].

(* bjse-bin/src/main/java/com/finproto/bjse/trade/messages/TradeCaptureConfirmExtend060.java:7-35 *)
Definition bjse_TradeCaptureConfirmExtend060_layout : layout :=
      [].

(* bjse-bin/src/main/java/com/finproto/bjse/trade/messages/TradeCaptureConfirmExtend061.java:7-35 *)
Definition bjse_TradeCaptureConfirmExtend061_layout : layout :=
      [].

(* bjse-bin/src/main/java/com/finproto/bjse/trade/messages/TradeCaptureConfirmExtend062.java:8-50 *)
Definition bjse_TradeCaptureConfirmExtend062_layout : layout :=
      [ ("cashMargin", WFix 1 32 false) ].

(* bjse-bin/src/main/java/com/finproto/bjse/trade/messages/TradeCaptureReport.java:11-468 *)
Definition bjse_TradeCaptureReport_layout : layout :=
      [ ("applId", WFix 3 32 false);
        ("submittingPbuid", WFix 6 32 false);
        ("securityId", WFix 8 32 false);
        ("securityIdsource", WFix 4 32 false);
        ("ownerType", WInt 2 LE);
        ("clearingFirm", WFix 2 32 false);
        ("transactTime", WInt 8 LE);
        ("userInfo", WFix 32 32 false);
        ("tradeReportId", WFix 10 32 false);
        ("tradeReportType", WInt 1 BE);
        ("tradeReportTransType", WInt 1 BE);
        ("tradeHandlingInstr", WFix 1 32 false);
        ("tradeReportRefId", WFix 10 32 false);
        ("lastPx", WInt 8 LE);
        ("lastQty", WInt 8 LE);
        ("trdType", WInt 2 LE);
        ("trdSubType", WInt 2 LE);
        ("confirmId", WInt 4 LE);
        ("side", WFix 1 32 false);
        ("pbuid", WFix 6 32 false);
        ("accountId", WFix 10 32 false);
        ("branchId", WFix 2 32 false);
        ("counterPartyPbuid", WFix 6 32 false);
        ("counterPartyAccountId", WFix 10 32 false);
        ("counterPartyBranchId", WFix 2 32 false);
        ("applExtend", WBody "applId") ].

(* bjse-bin/src/main/java/com/finproto/bjse/trade/messages/TradeCaptureReportAck.java:11-588 *)
Definition bjse_TradeCaptureReportAck_layout : layout :=
      [ ("partitionNo", WInt 4 LE);
        ("reportIndex", WInt 8 LE);
        ("applId", WFix 3 32 false);
        ("reportingPbuid", WFix 6 32 false);
        ("submittingPbuid", WFix 6 32 false);
        ("securityId", WFix 8 32 false);
        ("securityIdsource", WFix 4 32 false);
        ("ownerType", WInt 2 LE);
        ("clearingFirm", WFix 2 32 false);
        ("transactTime", WInt 8 LE);
        ("userInfo", WFix 32 32 false);
        ("tradeId", WFix 16 32 false);
        ("tradeReportId", WFix 10 32 false);
        ("tradeReportType", WInt 1 BE);
        ("tradeReportTransType", WInt 1 BE);
        ("tradeHandlingInstr", WFix 1 32 false);
        ("tradeReportRefId", WFix 10 32 false);
        ("trdAckStatus", WInt 1 BE);
        ("trdRptStatus", WInt 1 BE);
        ("tradeReportRejectReason", WInt 2 LE);
        ("lastPx", WInt 8 LE);
        ("lastQty", WInt 8 LE);
        ("trdType", WInt 2 LE);
        ("trdSubType", WInt 2 LE);
        ("confirmId", WInt 4 LE);
        ("execId", WFix 16 32 false);
        ("side", WFix 1 32 false);
        ("pbuid", WFix 6 32 false);
        ("accountId", WFix 10 32 false);
        ("branchId", WFix 2 32 false);
        ("counterPartyPbuid", WFix 6 32 false);
        ("counterPartyAccountId", WFix 10 32 false);
        ("counterPartyBranchId", WFix 2 32 false);
        ("applExtend", WBody "applId") ].

(* bjse-bin/src/main/java/com/finproto/bjse/trade/messages/TradeCaptureReportAckExtend031.java:8-159 *)
Definition bjse_TradeCaptureReportAckExtend031_layout : layout :=
      [ ("memberId", WFix 6 32 false);
        ("traderCode", WFix 5 32 false);
        ("counterPartyMemberId", WFix 6 32 false);
        ("counterPartyTraderCode", WFix 5 32 false);
        ("settlType", WFix 1 32 false);
        ("settlPeriod", WFix 1 32 false);
        ("cashMargin", WFix 1 32 false);
        ("memo", WFix 120 32 false) ].

(* bjse-bin/src/main/java/com/finproto/bjse/trade/messages/TradeCaptureReportAckExtend051.java:8-81 *)
Definition bjse_TradeCaptureReportAckExtend051_layout : layout :=
      [ ("expirationDays", WInt 2 LE);
        ("expirationType", WInt 1 BE);
        ("shareProperty", WFix 2 32 false) ].

(* bjse-bin/src/main/java/com/finproto/bjse/trade/messages/TradeCaptureReportAckExtend060.java:7-35 *)
Definition bjse_TradeCaptureReportAckExtend060_layout : layout :=
      [].

(* bjse-bin/src/main/java/com/finproto/bjse/trade/messages/TradeCaptureReportAckExtend061.java:7-35 *)
Definition bjse_TradeCaptureReportAckExtend061_layout : layout :=
      [].

(* bjse-bin/src/main/java/com/finproto/bjse/trade/messages/TradeCaptureReportAckExtend062.java:8-50 *)
Definition bjse_TradeCaptureReportAckExtend062_layout : layout :=
      [ ("cashMargin", WFix 1 32 false) ].

(* bjse-bin/src/main/java/com/finproto/bjse/trade/messages/TradeCaptureReportExtend031.java:8-159 *)
Definition bjse_TradeCaptureReportExtend031_layout : layout :=
      [ ("memberId", WFix 6 32 false);
        ("traderCode", WFix 5 32 false);
        ("counterPartyMemberId", WFix 6 32 false);
        ("counterPartyTraderCode", WFix 5 32 false);
        ("settlType", WFix 1 32 false);
        ("settlPeriod", WFix 1 32 false);
        ("cashMargin", WFix 1 32 false);
        ("memo", WFix 120 32 false) ].

(* bjse-bin/src/main/java/com/finproto/bjse/trade/messages/TradeCaptureReportExtend051.java:8-81 *)
Definition bjse_TradeCaptureReportExtend051_layout : layout :=
      [ ("expirationDays", WInt 2 LE);
        ("expirationType", WInt 1 BE);
        ("shareProperty", WFix 2 32 false) ].

(* bjse-bin/src/main/java/com/finproto/bjse/trade/messages/TradeCaptureReportExtend060.java:7-35 *)
Definition bjse_TradeCaptureReportExtend060_layout : layout :=
      [].

(* bjse-bin/src/main/java/com/finproto/bjse/trade/messages/TradeCaptureReportExtend061.java:7-35 *)
Definition bjse_TradeCaptureReportExtend061_layout : layout :=
      [].

(* bjse-bin/src/main/java/com/finproto/bjse/trade/messages/TradeCaptureReportExtend062.java:8-50 *)
Definition bjse_TradeCaptureReportExtend062_layout : layout :=
      [ ("cashMargin", WFix 1 32 false) ].

(* bjse-bin/src/main/java/com/finproto/bjse/trade/messages/TradingSessionStatus.java:8-129 *)
Definition bjse_TradingSessionStatus_layout : layout :=
      [ ("marketId", WFix 3 32 false);
        ("marketSegmentId", WFix 3 32 false);
        ("tradingSessionId", WFix 3 32 false);
        ("tradingSessionSubId", WFix 3 32 false);
        ("tradSesStatus", WInt 1 BE);
        ("tradSesStartTime", WInt 8 LE) ].

Definition bjse_layouts : list (string * layout) :=
      [ ("bjse.AllegeQuote", bjse_AllegeQuote_layout);
        ("bjse.AllegeQuoteExtend070", bjse_AllegeQuoteExtend070_layout);
        ("bjse.AllegeQuoteResponse", bjse_AllegeQuoteResponse_layout);
        ("bjse.BjseBinary", bjse_BjseBinary_layout);
        ("bjse.BusinessReject", bjse_BusinessReject_layout);
        ("bjse.CancelReject", bjse_CancelReject_layout);
        ("bjse.ConfirmExtend010", bjse_ConfirmExtend010_layout);
        ("bjse.ConfirmExtend040", bjse_ConfirmExtend040_layout);
        ("bjse.ConfirmExtend041", bjse_ConfirmExtend041_layout);
        ("bjse.ConfirmExtend042", bjse_ConfirmExtend042_layout);
        ("bjse.ConfirmExtend043", bjse_ConfirmExtend043_layout);
        ("bjse.ConfirmExtend044", bjse_ConfirmExtend044_layout);
        ("bjse.ConfirmExtend045", bjse_ConfirmExtend045_layout);
        ("bjse.ConfirmExtend050", bjse_ConfirmExtend050_layout);
        ("bjse.ExecutionConfirm", bjse_ExecutionConfirm_layout);
        ("bjse.ExecutionReport", bjse_ExecutionReport_layout);
        ("bjse.Extend010", bjse_Extend010_layout);
        ("bjse.Extend040", bjse_Extend040_layout);
        ("bjse.Extend041", bjse_Extend041_layout);
        ("bjse.Extend042", bjse_Extend042_layout);
        ("bjse.Extend043", bjse_Extend043_layout);
        ("bjse.Extend044", bjse_Extend044_layout);
        ("bjse.Extend045", bjse_Extend045_layout);
        ("bjse.Extend050", bjse_Extend050_layout);
        ("bjse.ExtendNewOrder010", bjse_ExtendNewOrder010_layout);
        ("bjse.ExtendNewOrder040", bjse_ExtendNewOrder040_layout);
        ("bjse.ExtendNewOrder041", bjse_ExtendNewOrder041_layout);
        ("bjse.ExtendNewOrder042", bjse_ExtendNewOrder042_layout);
        ("bjse.ExtendNewOrder043", bjse_ExtendNewOrder043_layout);
        ("bjse.ExtendNewOrder044", bjse_ExtendNewOrder044_layout);
        ("bjse.ExtendNewOrder045", bjse_ExtendNewOrder045_layout);
        ("bjse.ExtendNewOrder050", bjse_ExtendNewOrder050_layout);
        ("bjse.Heartbeat", bjse_Heartbeat_layout);
        ("bjse.Logon", bjse_Logon_layout);
        ("bjse.Logout", bjse_Logout_layout);
        ("bjse.NewOrder", bjse_NewOrder_layout);
        ("bjse.OrderCancelRequest", bjse_OrderCancelRequest_layout);
        ("bjse.PlatformInfo", bjse_PlatformInfo_layout);
        ("bjse.PlatformInfo.NoPartitions", bjse_PlatformInfo_NoPartitions_layout);
        ("bjse.PlatformStateInfo", bjse_PlatformStateInfo_layout);
        ("bjse.Quote", bjse_Quote_layout);
        ("bjse.QuoteExtend070", bjse_QuoteExtend070_layout);
        ("bjse.QuoteExtend071", bjse_QuoteExtend071_layout);
        ("bjse.QuoteResponse", bjse_QuoteResponse_layout);
        ("bjse.QuoteResponse.Quote2", bjse_QuoteResponse_Quote2_layout);
        ("bjse.QuoteResponseExtend070", bjse_QuoteResponseExtend070_layout);
        ("bjse.QuoteStatusReport", bjse_QuoteStatusReport_layout);
        ("bjse.QuoteStatusReportExtend070", bjse_QuoteStatusReportExtend070_layout);
        ("bjse.QuoteStatusReportExtend070.Quote1", bjse_QuoteStatusReportExtend070_Quote1_layout);
        ("bjse.ReportExtend010", bjse_ReportExtend010_layout);
        ("bjse.ReportExtend040", bjse_ReportExtend040_layout);
        ("bjse.ReportExtend050", bjse_ReportExtend050_layout);
        ("bjse.ReportFinished", bjse_ReportFinished_layout);
        ("bjse.ReportSynchronization", bjse_ReportSynchronization_layout);
        ("bjse.ReportSynchronization.ReportPartitionSync", bjse_ReportSynchronization_ReportPartitionSync_layout);
        ("bjse.TradeCaptureCofirm", bjse_TradeCaptureCofirm_layout);
        ("bjse.TradeCaptureCofirmExtend031", bjse_TradeCaptureCofirmExtend031_layout);
        ("bjse.TradeCaptureCofirmExtend051", bjse_TradeCaptureCofirmExtend051_layout);
        ("bjse.TradeCaptureCofirmExtend060", bjse_TradeCaptureCofirmExtend060_layout);
        ("bjse.TradeCaptureCofirmExtend061", bjse_TradeCaptureCofirmExtend061_layout);
        ("bjse.TradeCaptureCofirmExtend062", bjse_TradeCaptureCofirmExtend062_layout);
        ("bjse.TradeCaptureConfirm", bjse_TradeCaptureConfirm_layout);
        ("bjse.TradeCaptureConfirmExtend031", bjse_TradeCaptureConfirmExtend031_layout);
        ("bjse.TradeCaptureConfirmExtend051", bjse_TradeCaptureConfirmExtend051_layout);
        ("bjse.TradeCaptureConfirmExtend060", bjse_TradeCaptureConfirmExtend060_layout);
        ("bjse.TradeCaptureConfirmExtend061", bjse_TradeCaptureConfirmExtend061_layout);
        ("bjse.TradeCaptureConfirmExtend062", bjse_TradeCaptureConfirmExtend062_layout);
        ("bjse.TradeCaptureReport", bjse_TradeCaptureReport_layout);
        ("bjse.TradeCaptureReportAck", bjse_TradeCaptureReportAck_layout);
        ("bjse.TradeCaptureReportAckExtend031", bjse_TradeCaptureReportAckExtend031_layout);
        ("bjse.TradeCaptureReportAckExtend051", bjse_TradeCaptureReportAckExtend051_layout);
        ("bjse.TradeCaptureReportAckExtend060", bjse_TradeCaptureReportAckExtend060_layout);
        ("bjse.TradeCaptureReportAckExtend061", bjse_TradeCaptureReportAckExtend061_layout);
        ("bjse.TradeCaptureReportAckExtend062", bjse_TradeCaptureReportAckExtend062_layout);
        ("bjse.TradeCaptureReportExtend031", bjse_TradeCaptureReportExtend031_layout);
        ("bjse.TradeCaptureReportExtend051", bjse_TradeCaptureReportExtend051_layout);
        ("bjse.TradeCaptureReportExtend060", bjse_TradeCaptureReportExtend060_layout);
        ("bjse.TradeCaptureReportExtend061", bjse_TradeCaptureReportExtend061_layout);
        ("bjse.TradeCaptureReportExtend062", bjse_TradeCaptureReportExtend062_layout);
        ("bjse.TradingSessionStatus", bjse_TradingSessionStatus_layout) ].
