(* GENERATED by tools/translate.py: the wire layout of each message class of szse-bin, i.e. its fields in wire
   order with their formats.  This is specification data (what the messages look like on the wire);
   that the translated Java code follows it is proved in Proofs/Conform.v. *)
From Coq Require Import String ZArith List.
From Verif.Model Require Import JavaPrim Ast.
From Verif.Spec Require Import Wire.
Import ListNotations.
Open Scope string_scope.

(* szse-bin/src/main/java/com/finproto/szse/bin/messages/BusinessReject.java:8-189 *)
Definition szse_BusinessReject_layout : layout :=
      [ ("applId", WFix 3 32 false);
        ("transactTime", WInt 8 BE);
        ("submittingPbuid", WFix 6 32 false);
        ("securityId", WFix 8 32 false);
        ("securityIdsource", WFix 4 32 false);
        ("refSeqNum", WInt 8 BE);
        ("refMsgType", WInt 4 BE);
        ("businessRejectRefId", WFix 10 32 false);
        ("businessRejectReason", WInt 2 BE);
        ("businessRejectText", WFix 50 32 false) ].

(* szse-bin/src/main/java/com/finproto/szse/bin/messages/CancelReject.java:8-309 *)
Definition szse_CancelReject_layout : layout :=
      [ ("partitionNo", WInt 4 BE);
        ("reportIndex", WInt 8 BE);
        ("applId", WFix 3 32 false);
        ("reportingPbuid", WFix 6 32 false);
        ("submittingPbuid", WFix 6 32 false);
        ("securityId", WFix 8 32 false);
        ("securityIdsource", WFix 4 32 false);
        ("ownerType", WInt 2 BE);
        ("clearingFirm", WFix 2 32 false);
        ("transactTime", WInt 8 BE);
        ("userInfo", WFix 8 32 false);
        ("clOrdId", WFix 10 32 false);
        ("origClOrdId", WFix 10 32 false);
        ("side", WFix 1 32 false);
        ("ordStatus", WFix 1 32 false);
        ("cxlRejReason", WInt 2 BE);
        ("rejectText", WFix 16 32 false);
        ("orderId", WFix 16 32 false) ].

(* szse-bin/src/main/java/com/finproto/szse/bin/messages/ExecutionConfirm.java:11-536 *)
Definition szse_ExecutionConfirm_layout : layout :=
      [ ("partitionNo", WInt 4 BE);
        ("reportIndex", WInt 8 BE);
        ("applId", WFix 3 32 false);
        ("reportingPbuid", WFix 6 32 false);
        ("submittingPbuid", WFix 6 32 false);
        ("securityId", WFix 8 32 false);
        ("securityIdsource", WFix 4 32 false);
        ("ownerType", WInt 2 BE);
        ("clearingFirm", WFix 2 32 false);
        ("transactTime", WInt 8 BE);
        ("userInfo", WFix 8 32 false);
        ("orderId", WFix 16 32 false);
        ("clOrdId", WFix 10 32 false);
        ("quoteMsgId", WFix 10 32 false);
        ("origClOrdId", WFix 10 32 false);
        ("execId", WFix 16 32 false);
        ("execType", WFix 1 32 false);
        ("ordStatus", WFix 1 32 false);
        ("ordRejReason", WInt 2 BE);
        ("leavesQty", WInt 8 BE);
        ("cumQty", WInt 8 BE);
        ("side", WFix 1 32 false);
        ("ordType", WFix 1 32 false);
        ("orderQty", WInt 8 BE);
        ("price", WInt 8 BE);
        ("accountId", WFix 12 32 false);
        ("branchId", WFix 4 32 false);
        ("orderRestrictions", WFix 4 32 false);
        ("applExtend", WBody "applId") ].

(* szse-bin/src/main/java/com/finproto/szse/bin/messages/ExecutionReport.java:11-467 *)
Definition szse_ExecutionReport_layout : layout :=
      [ ("partitionNo", WInt 4 BE);
        ("reportIndex", WInt 8 BE);
        ("applId", WFix 3 32 false);
        ("reportingPbuid", WFix 6 32 false);
        ("submittingPbuid", WFix 6 32 false);
        ("securityId", WFix 8 32 false);
        ("securityIdsource", WFix 4 32 false);
        ("ownerType", WInt 2 BE);
        ("clearingFirm", WFix 2 32 false);
        ("transactTime", WInt 8 BE);
        ("userInfo", WFix 8 32 false);
        ("orderId", WFix 16 32 false);
        ("clOrdId", WFix 10 32 false);
        ("quoteMsgId", WFix 10 32 false);
        ("execId", WFix 16 32 false);
        ("execType", WFix 1 32 false);
        ("ordStatus", WFix 1 32 false);
        ("lastPx", WInt 8 BE);
        ("lastQty", WInt 8 BE);
        ("leavesQty", WInt 8 BE);
        ("cumQty", WInt 8 BE);
        ("side", WFix 1 32 false);
        ("accountId", WFix 12 32 false);
        ("branchId", WFix 4 32 false);
        ("applExtend", WBody "applId") ].

(* szse-bin/src/main/java/com/finproto/szse/bin/messages/Extend100101.java:8-109 *)
Definition szse_Extend100101_layout : layout :=
      [ ("stopPx", WInt 8 BE);
        ("minQty", WInt 8 BE);
        ("maxPriceLevels", WInt 2 BE);
        ("timeInForce", WFix 1 32 false);
        ("cashMargin", WFix 1 32 false) ].

(* szse-bin/src/main/java/com/finproto/szse/bin/messages/Extend100201.java:8-95 *)
Definition szse_Extend100201_layout : layout :=
      [ ("stopPx", WInt 8 BE);
        ("minQty", WInt 8 BE);
        ("maxPriceLevels", WInt 2 BE);
        ("timeInForce", WFix 1 32 false) ].

(* szse-bin/src/main/java/com/finproto/szse/bin/messages/Extend100301.java:8-95 *)
Definition szse_Extend100301_layout : layout :=
      [ ("stopPx", WInt 8 BE);
        ("minQty", WInt 8 BE);
        ("maxPriceLevels", WInt 2 BE);
        ("timeInForce", WFix 1 32 false) ].

(* szse-bin/src/main/java/com/finproto/szse/bin/messages/Extend100501.java:8-67 *)
Definition szse_Extend100501_layout : layout :=
      [ ("confirmId", WFix 8 32 false);
        ("cashMargin", WFix 1 32 false) ].

(* szse-bin/src/main/java/com/finproto/szse/bin/messages/Extend100601.java:8-50 *)
Definition szse_Extend100601_layout : layout :=
      [ ("cashMargin", WFix 1 32 false) ].

(* szse-bin/src/main/java/com/finproto/szse/bin/messages/Extend100701.java:8-81 *)
Definition szse_Extend100701_layout : layout :=
      [ ("expirationDays", WInt 2 BE);
        ("expirationType", WInt 1 BE);
        ("shareProperty", WFix 2 32 false) ].

(* szse-bin/src/main/java/com/finproto/szse/bin/messages/Extend101401.java:8-159 *)
Definition szse_Extend101401_layout : layout :=
      [ ("stopPx", WInt 8 BE);
        ("minQty", WInt 8 BE);
        ("maxPriceLevels", WInt 2 BE);
        ("timeInForce", WFix 1 32 false);
        ("positionEffect", WFix 1 32 false);
        ("coveredOrUncovered", WInt 1 BE);
        ("contractAccountCode", WFix 6 32 false);
        ("secondaryOrderId", WFix 16 32 false) ].

(* szse-bin/src/main/java/com/finproto/szse/bin/messages/Extend101501.java:8-50 *)
Definition szse_Extend101501_layout : layout :=
      [ ("shareProperty", WFix 2 32 false) ].

(* szse-bin/src/main/java/com/finproto/szse/bin/messages/Extend101601.java:8-50 *)
Definition szse_Extend101601_layout : layout :=
      [ ("contractAccountCode", WFix 6 32 false) ].

(* szse-bin/src/main/java/com/finproto/szse/bin/messages/Extend101701.java:8-50 *)
Definition szse_Extend101701_layout : layout :=
      [ ("cashOrderQty", WInt 8 BE) ].

(* szse-bin/src/main/java/com/finproto/szse/bin/messages/Extend101801.java:8-50 *)
Definition szse_Extend101801_layout : layout :=
      [ ("tenderer", WFix 6 32 false) ].

(* szse-bin/src/main/java/com/finproto/szse/bin/messages/Extend102701.java:8-67 *)
Definition szse_Extend102701_layout : layout :=
      [ ("disposalPbu", WFix 6 32 false);
        ("disposalAccountId", WFix 12 32 false) ].

(* szse-bin/src/main/java/com/finproto/szse/bin/messages/Extend102801.java:8-67 *)
Definition szse_Extend102801_layout : layout :=
      [ ("lenderPbu", WFix 6 32 false);
        ("lenderAccountId", WFix 12 32 false) ].

(* szse-bin/src/main/java/com/finproto/szse/bin/messages/Extend102901.java:8-67 *)
Definition szse_Extend102901_layout : layout :=
      [ ("deductionPbu", WFix 6 32 false);
        ("deductionAccountId", WFix 12 32 false) ].

(* szse-bin/src/main/java/com/finproto/szse/bin/messages/Extend103501.java:8-50 *)
Definition szse_Extend103501_layout : layout :=
      [ ("contractAccountCode", WFix 6 32 false) ].

(* szse-bin/src/main/java/com/finproto/szse/bin/messages/Extend103701.java:8-50 *)
Definition szse_Extend103701_layout : layout :=
      [ ("cashMargin", WFix 1 32 false) ].

(* szse-bin/src/main/java/com/finproto/szse/bin/messages/Extend104101.java:8-109 *)
Definition szse_Extend104101_layout : layout :=
      [ ("stopPx", WInt 8 BE);
        ("minQty", WInt 8 BE);
        ("maxPriceLevels", WInt 2 BE);
        ("timeInForce", WFix 1 32 false);
        ("cashMargin", WFix 1 32 false) ].

(* szse-bin/src/main/java/com/finproto/szse/bin/messages/Extend104128.java:8-294 *)
Definition szse_Extend104128_layout : layout :=
      [ ("memberId", WFix 6 32 false);
        ("investorType", WFix 2 32 false);
        ("investorId", WFix 10 32 false);
        ("investorName", WFix 120 32 false);
        ("traderCode", WFix 8 32 false);
        ("secondaryOrderId", WFix 16 32 false);
        ("bidTransType", WInt 2 BE);
        ("bidExecInstType", WInt 2 BE);
        ("lowLimitPrice", WInt 8 BE);
        ("highLimitPrice", WInt 8 BE);
        ("minQty", WInt 8 BE);
        ("tradeDate", WInt 4 BE);
        ("settlType", WInt 2 BE);
        ("settlPeriod", WInt 1 BE);
        ("preTradeAnonymity", WInt 1 BE);
        ("cashMargin", WFix 1 32 false);
        ("memo", WFix 160 32 false) ].

(* szse-bin/src/main/java/com/finproto/szse/bin/messages/Extend104701.java:8-50 *)
Definition szse_Extend104701_layout : layout :=
      [ ("secondaryOrderId", WFix 16 32 false) ].

(* szse-bin/src/main/java/com/finproto/szse/bin/messages/Extend106301.java:8-109 *)
Definition szse_Extend106301_layout : layout :=
      [ ("stopPx", WInt 8 BE);
        ("minQty", WInt 8 BE);
        ("maxPriceLevels", WInt 2 BE);
        ("timeInForce", WFix 1 32 false);
        ("lotType", WFix 1 32 false) ].

(* szse-bin/src/main/java/com/finproto/szse/bin/messages/Extend200102.java:8-109 *)
Definition szse_Extend200102_layout : layout :=
      [ ("stopPx", WInt 8 BE);
        ("minQty", WInt 8 BE);
        ("maxPriceLevels", WInt 2 BE);
        ("timeInForce", WFix 1 32 false);
        ("cashMargin", WFix 1 32 false) ].

(* szse-bin/src/main/java/com/finproto/szse/bin/messages/Extend200115.java:8-50 *)
Definition szse_Extend200115_layout : layout :=
      [ ("cashMargin", WFix 1 32 false) ].

(* szse-bin/src/main/java/com/finproto/szse/bin/messages/Extend200202.java:8-95 *)
Definition szse_Extend200202_layout : layout :=
      [ ("stopPx", WInt 8 BE);
        ("minQty", WInt 8 BE);
        ("maxPriceLevels", WInt 2 BE);
        ("timeInForce", WFix 1 32 false) ].

(* szse-bin/src/main/java/com/finproto/szse/bin/messages/Extend200215.java:8-50 *)
Definition szse_Extend200215_layout : layout :=
      [ ("maturityDate", WInt 4 BE) ].

(* szse-bin/src/main/java/com/finproto/szse/bin/messages/Extend200302.java:8-95 *)
Definition szse_Extend200302_layout : layout :=
      [ ("stopPx", WInt 8 BE);
        ("minQty", WInt 8 BE);
        ("maxPriceLevels", WInt 2 BE);
        ("timeInForce", WFix 1 32 false) ].

(* szse-bin/src/main/java/com/finproto/szse/bin/messages/Extend200315.java:8-50 *)
Definition szse_Extend200315_layout : layout :=
      [ ("maturityDate", WInt 4 BE) ].

(* szse-bin/src/main/java/com/finproto/szse/bin/messages/Extend200402.java:8-159 *)
Definition szse_Extend200402_layout : layout :=
      [ ("stopPx", WInt 8 BE);
        ("minQty", WInt 8 BE);
        ("maxPriceLevels", WInt 2 BE);
        ("timeInForce", WFix 1 32 false);
        ("positionEffect", WFix 1 32 false);
        ("coveredOrUncovered", WInt 1 BE);
        ("contractAccountCode", WFix 6 32 false);
        ("secondaryOrderId", WFix 16 32 false) ].

(* szse-bin/src/main/java/com/finproto/szse/bin/messages/Extend200415.java:8-95 *)
Definition szse_Extend200415_layout : layout :=
      [ ("positionEffect", WFix 1 32 false);
        ("coveredOrUncovered", WInt 1 BE);
        ("contractAccountCode", WFix 6 32 false);
        ("secondaryOrderId", WFix 16 32 false) ].

(* szse-bin/src/main/java/com/finproto/szse/bin/messages/Extend200502.java:8-67 *)
Definition szse_Extend200502_layout : layout :=
      [ ("confirmId", WFix 8 32 false);
        ("cashMargin", WFix 1 32 false) ].

(* szse-bin/src/main/java/com/finproto/szse/bin/messages/Extend200515.java:8-67 *)
Definition szse_Extend200515_layout : layout :=
      [ ("confirmId", WFix 8 32 false);
        ("cashMargin", WFix 1 32 false) ].

(* szse-bin/src/main/java/com/finproto/szse/bin/messages/Extend200602.java:8-50 *)
Definition szse_Extend200602_layout : layout :=
      [ ("cashMargin", WFix 1 32 false) ].

(* szse-bin/src/main/java/com/finproto/szse/bin/messages/Extend200615.java:8-50 *)
Definition szse_Extend200615_layout : layout :=
      [ ("cashMargin", WFix 1 32 false) ].

(* szse-bin/src/main/java/com/finproto/szse/bin/messages/Extend200702.java:8-81 *)
Definition szse_Extend200702_layout : layout :=
      [ ("expirationDays", WInt 2 BE);
        ("expirationType", WInt 1 BE);
        ("shareProperty", WFix 2 32 false) ].

(* szse-bin/src/main/java/com/finproto/szse/bin/messages/Extend200715.java:8-95 *)
Definition szse_Extend200715_layout : layout :=
      [ ("expirationDays", WInt 2 BE);
        ("expirationType", WInt 1 BE);
        ("maturityDate", WInt 4 BE);
        ("shareProperty", WFix 2 32 false) ].

(* szse-bin/src/main/java/com/finproto/szse/bin/messages/Extend201202.java:8-129 *)
Definition szse_Extend201202_layout : layout :=
      [ ("insufficientSecurityId", WFix 8 32 false);
        ("noSecurity", WInt 4 BE);
        ("underlyingSecurityId", WFix 8 32 false);
        ("underlyingSecurityIdsource", WFix 4 32 false);
        ("deliveryQty", WInt 8 BE);
        ("substCash", WInt 8 BE) ].

(* szse-bin/src/main/java/com/finproto/szse/bin/messages/Extend201502.java:8-50 *)
Definition szse_Extend201502_layout : layout :=
      [ ("shareProperty", WFix 2 32 false) ].

(* szse-bin/src/main/java/com/finproto/szse/bin/messages/Extend201602.java:8-50 *)
Definition szse_Extend201602_layout : layout :=
      [ ("contractAccountCode", WFix 6 32 false) ].

(* szse-bin/src/main/java/com/finproto/szse/bin/messages/Extend201702.java:8-50 *)
Definition szse_Extend201702_layout : layout :=
      [ ("cashOrderQty", WInt 8 BE) ].

(* szse-bin/src/main/java/com/finproto/szse/bin/messages/Extend201802.java:8-50 *)
Definition szse_Extend201802_layout : layout :=
      [ ("tenderer", WFix 6 32 false) ].

(* szse-bin/src/main/java/com/finproto/szse/bin/messages/Extend202702.java:8-67 *)
Definition szse_Extend202702_layout : layout :=
      [ ("disposalPbu", WFix 6 32 false);
        ("disposalAccountId", WFix 12 32 false) ].

(* szse-bin/src/main/java/com/finproto/szse/bin/messages/Extend202802.java:8-67 *)
Definition szse_Extend202802_layout : layout :=
      [ ("lenderPbu", WFix 6 32 false);
        ("lenderAccountId", WFix 12 32 false) ].

(* szse-bin/src/main/java/com/finproto/szse/bin/messages/Extend202902.java:8-67 *)
Definition szse_Extend202902_layout : layout :=
      [ ("deductionPbu", WFix 6 32 false);
        ("deductionAccountId", WFix 12 32 false) ].

(* szse-bin/src/main/java/com/finproto/szse/bin/messages/Extend203102.java:8-114 *)
Definition szse_Extend203102_layout : layout :=
      [ ("insufficientSecurityId", WFix 8 32 false);
        ("noSecurity", WInt 4 BE);
        ("underlyingSecurityId", WFix 8 32 false);
        ("underlyingSecurityIdsource", WFix 4 32 false);
        ("deliveryQty", WInt 8 BE) ].

(* szse-bin/src/main/java/com/finproto/szse/bin/messages/Extend203502.java:8-50 *)
Definition szse_Extend203502_layout : layout :=
      [ ("contractAccountCode", WFix 6 32 false) ].

(* szse-bin/src/main/java/com/finproto/szse/bin/messages/Extend203702.java:8-50 *)
Definition szse_Extend203702_layout : layout :=
      [ ("cashMargin", WFix 1 32 false) ].

(* szse-bin/src/main/java/com/finproto/szse/bin/messages/Extend203715.java:8-50 *)
Definition szse_Extend203715_layout : layout :=
      [ ("cashMargin", WFix 1 32 false) ].

(* szse-bin/src/main/java/com/finproto/szse/bin/messages/Extend204102.java:8-109 *)
Definition szse_Extend204102_layout : layout :=
      [ ("stopPx", WInt 8 BE);
        ("minQty", WInt 8 BE);
        ("maxPriceLevels", WInt 2 BE);
        ("timeInForce", WFix 1 32 false);
        ("cashMargin", WFix 1 32 false) ].

(* szse-bin/src/main/java/com/finproto/szse/bin/messages/Extend204115.java:8-159 *)
Definition szse_Extend204115_layout : layout :=
      [ ("cashMargin", WFix 1 32 false);
        ("settlType", WInt 2 BE);
        ("settlPeriod", WInt 1 BE);
        ("counterpartyMemberId", WFix 6 32 false);
        ("counterpartyInvestorType", WFix 2 32 false);
        ("counterpartyInvestorId", WFix 10 32 false);
        ("counterpartyInvestorName", WFix 120 32 false);
        ("counterpartyTraderCode", WFix 8 32 false) ].

(* szse-bin/src/main/java/com/finproto/szse/bin/messages/Extend204129.java:8-294 *)
Definition szse_Extend204129_layout : layout :=
      [ ("memberId", WFix 6 32 false);
        ("investorType", WFix 2 32 false);
        ("investorId", WFix 10 32 false);
        ("investorName", WFix 120 32 false);
        ("traderCode", WFix 8 32 false);
        ("secondaryOrderId", WFix 16 32 false);
        ("bidTransType", WInt 2 BE);
        ("bidExecInstType", WInt 2 BE);
        ("lowLimitPrice", WInt 8 BE);
        ("highLimitPrice", WInt 8 BE);
        ("minQty", WInt 8 BE);
        ("tradeDate", WInt 4 BE);
        ("settlType", WInt 2 BE);
        ("settlPeriod", WInt 1 BE);
        ("preTradeAnonymity", WInt 1 BE);
        ("cashMargin", WFix 1 32 false);
        ("memo", WFix 160 32 false) ].

(* szse-bin/src/main/java/com/finproto/szse/bin/messages/Extend204130.java:8-294 *)
Definition szse_Extend204130_layout : layout :=
      [ ("memberId", WFix 6 32 false);
        ("investorType", WFix 2 32 false);
        ("investorId", WFix 10 32 false);
        ("investorName", WFix 120 32 false);
        ("traderCode", WFix 8 32 false);
        ("counterpartyMemberId", WFix 6 32 false);
        ("counterpartyInvestorType", WFix 2 32 false);
        ("counterpartyInvestorId", WFix 10 32 false);
        ("counterpartyInvestorName", WFix 120 32 false);
        ("counterpartyTraderCode", WFix 8 32 false);
        ("secondaryOrderId", WFix 16 32 false);
        ("bidTransType", WInt 2 BE);
        ("bidExecInstType", WInt 2 BE);
        ("settlType", WInt 2 BE);
        ("settlPeriod", WInt 1 BE);
        ("cashMargin", WFix 1 32 false);
        ("memo", WFix 160 32 false) ].

(* szse-bin/src/main/java/com/finproto/szse/bin/messages/Extend204702.java:8-50 *)
Definition szse_Extend204702_layout : layout :=
      [ ("secondaryOrderId", WFix 16 32 false) ].

(* szse-bin/src/main/java/com/finproto/szse/bin/messages/Extend204715.java:8-95 *)
Definition szse_Extend204715_layout : layout :=
      [ ("expirationDays", WInt 2 BE);
        ("expirationType", WInt 1 BE);
        ("maturityDate", WInt 4 BE);
        ("shareProperty", WFix 2 32 false) ].

(* szse-bin/src/main/java/com/finproto/szse/bin/messages/Extend206302.java:10-171 *)
Definition szse_Extend206302_layout : layout :=
      [ ("rejectText", WFix 16 32 false);
        ("stopPx", WInt 8 BE);
        ("minQty", WInt 8 BE);
        ("maxPriceLevels", WInt 2 BE);
        ("timeInForce", WFix 1 32 false);
        ("lotType", WFix 1 32 false);
        ("imcrejectTextLen", WInt 4 BE);
        ("imcrejectText", WDyn 4 BE) ].

(* szse-bin/src/main/java/com/finproto/szse/bin/messages/Extend206315.java:8-50 *)
Definition szse_Extend206315_layout : layout :=
      [ ("cashMargin", WFix 1 32 false) ].

(* szse-bin/src/main/java/com/finproto/szse/bin/messages/Heartbeat.java:7-35 *)
Definition szse_Heartbeat_layout : layout :=
      [].

(* szse-bin/src/main/java/com/finproto/szse/bin/messages/Logon.java:8-109 *)
Definition szse_Logon_layout : layout :=
      [ ("senderCompId", WFix 20 32 false);
        ("targetCompId", WFix 20 32 false);
        ("heartBtint", WInt 4 BE);
        ("password", WFix 16 32 false);
        ("defaultApplVerId", WFix 32 32 false) ].

(* szse-bin/src/main/java/com/finproto/szse/bin/messages/Logout.java:8-62 *)
Definition szse_Logout_layout : layout :=
      [ ("sessionStatus", WInt 4 BE);
        ("text", WFix 200 32 false) ].

(* szse-bin/src/main/java/com/finproto/szse/bin/messages/NewOrder.java:11-356 *)
Definition szse_NewOrder_layout : layout :=
      [ ("applId", WFix 3 32 false);
        ("submittingPbuid", WFix 6 32 false);
        ("securityId", WFix 8 32 false);
        ("securityIdsource", WFix 4 32 false);
        ("ownerType", WInt 2 BE);
        ("clearingFirm", WFix 2 32 false);
        ("transactTime", WInt 8 BE);
        ("userInfo", WFix 8 32 false);
        ("clOrdId", WFix 10 32 false);
        ("accountId", WFix 12 32 false);
        ("branchId", WFix 4 32 false);
        ("orderRestrictions", WFix 4 32 false);
        ("side", WFix 1 32 false);
        ("ordType", WFix 1 32 false);
        ("orderQty", WInt 8 BE);
        ("price", WInt 8 BE);
        ("applExtend", WBody "applId") ].

(* szse-bin/src/main/java/com/finproto/szse/bin/messages/OrderCancelRequest.java:8-234 *)
Definition szse_OrderCancelRequest_layout : layout :=
      [ ("applId", WFix 3 32 false);
        ("submittingPbuid", WFix 6 32 false);
        ("securityId", WFix 8 32 false);
        ("securityIdsource", WFix 4 32 false);
        ("ownerType", WInt 2 BE);
        ("clearingFirm", WFix 2 32 false);
        ("transactTime", WInt 8 BE);
        ("userInfo", WFix 8 32 false);
        ("clOrdId", WFix 10 32 false);
        ("origClOrdId", WFix 10 32 false);
        ("side", WFix 1 32 false);
        ("orderId", WFix 16 32 false);
        ("orderQty", WInt 8 BE) ].

(* szse-bin/src/main/java/com/finproto/szse/bin/messages/PartitionReport.java:8-67 *)
Definition szse_PartitionReport_layout : layout :=
      [ ("partitionNo", WInt 4 BE);
        ("reportIndex", WInt 8 BE) ].

(* szse-bin/src/main/java/com/finproto/szse/bin/messages/PlatformInfo.java:10-84 *)
Definition szse_PlatformInfo_layout : layout :=
      [ ("platformId", WInt 2 BE);
        ("platformPartition", WList 4 BE (WObj "szse.PlatformPartition")) ].

(* szse-bin/src/main/java/com/finproto/szse/bin/messages/PlatformPartition.java:8-50 *)
Definition szse_PlatformPartition_layout : layout :=
      [ ("partitionNo", WInt 4 BE) ].

(* szse-bin/src/main/java/com/finproto/szse/bin/messages/PlatformStateInfo.java:8-67 *)
Definition szse_PlatformStateInfo_layout : layout :=
      [ ("platformId", WInt 2 BE);
        ("platformState", WInt 2 BE) ].

(* szse-bin/src/main/java/com/finproto/szse/bin/messages/ReportFinished.java:8-81 *)
Definition szse_ReportFinished_layout : layout :=
      [ ("partitionNo", WInt 4 BE);
        ("reportIndex", WInt 8 BE);
        ("platformId", WInt 2 BE) ].

(* szse-bin/src/main/java/com/finproto/szse/bin/messages/ReportSynchronization.java:10-67 *)
Definition szse_ReportSynchronization_layout : layout :=
      [ ("partitionReport", WList 4 BE (WObj "szse.PartitionReport")) ].

(* szse-bin/src/main/java/com/finproto/szse/bin/messages/SzseBinary.java:13-219 *)
Definition szse_SzseBinary_layout : layout :=
      [ ("msgType", WInt 4 BE);
        ("bodyLength", WLen 4 BE);
        ("body", WBody "msgType");
        ("checksum", WSum 4 BE "SZSE_BIN") ].

(* szse-bin/src/main/java/com/finproto/szse/bin/messages/TradingSessionStatus.java:8-144 *)
Definition szse_TradingSessionStatus_layout : layout :=
      [ ("marketId", WFix 8 32 false);
        ("marketSegmentId", WFix 8 32 false);
        ("tradingSessionId", WFix 4 32 false);
        ("tradingSessionSubId", WFix 4 32 false);
        ("tradSesStatus", WInt 2 BE);
        ("tradSesStartTime", WInt 8 BE);
        ("tradSesEndTime", WInt 8 BE) ].

Definition szse_layouts : list (string * layout) :=
      [ ("szse.BusinessReject", szse_BusinessReject_layout);
        ("szse.CancelReject", szse_CancelReject_layout);
        ("szse.ExecutionConfirm", szse_ExecutionConfirm_layout);
        ("szse.ExecutionReport", szse_ExecutionReport_layout);
        ("szse.Extend100101", szse_Extend100101_layout);
        ("szse.Extend100201", szse_Extend100201_layout);
        ("szse.Extend100301", szse_Extend100301_layout);
        ("szse.Extend100501", szse_Extend100501_layout);
        ("szse.Extend100601", szse_Extend100601_layout);
        ("szse.Extend100701", szse_Extend100701_layout);
        ("szse.Extend101401", szse_Extend101401_layout);
        ("szse.Extend101501", szse_Extend101501_layout);
        ("szse.Extend101601", szse_Extend101601_layout);
        ("szse.Extend101701", szse_Extend101701_layout);
        ("szse.Extend101801", szse_Extend101801_layout);
        ("szse.Extend102701", szse_Extend102701_layout);
        ("szse.Extend102801", szse_Extend102801_layout);
        ("szse.Extend102901", szse_Extend102901_layout);
        ("szse.Extend103501", szse_Extend103501_layout);
        ("szse.Extend103701", szse_Extend103701_layout);
        ("szse.Extend104101", szse_Extend104101_layout);
        ("szse.Extend104128", szse_Extend104128_layout);
        ("szse.Extend104701", szse_Extend104701_layout);
        ("szse.Extend106301", szse_Extend106301_layout);
        ("szse.Extend200102", szse_Extend200102_layout);
        ("szse.Extend200115", szse_Extend200115_layout);
        ("szse.Extend200202", szse_Extend200202_layout);
        ("szse.Extend200215", szse_Extend200215_layout);
        ("szse.Extend200302", szse_Extend200302_layout);
        ("szse.Extend200315", szse_Extend200315_layout);
        ("szse.Extend200402", szse_Extend200402_layout);
        ("szse.Extend200415", szse_Extend200415_layout);
        ("szse.Extend200502", szse_Extend200502_layout);
        ("szse.Extend200515", szse_Extend200515_layout);
        ("szse.Extend200602", szse_Extend200602_layout);
        ("szse.Extend200615", szse_Extend200615_layout);
        ("szse.Extend200702", szse_Extend200702_layout);
        ("szse.Extend200715", szse_Extend200715_layout);
        ("szse.Extend201202", szse_Extend201202_layout);
        ("szse.Extend201502", szse_Extend201502_layout);
        ("szse.Extend201602", szse_Extend201602_layout);
        ("szse.Extend201702", szse_Extend201702_layout);
        ("szse.Extend201802", szse_Extend201802_layout);
        ("szse.Extend202702", szse_Extend202702_layout);
        ("szse.Extend202802", szse_Extend202802_layout);
        ("szse.Extend202902", szse_Extend202902_layout);
        ("szse.Extend203102", szse_Extend203102_layout);
        ("szse.Extend203502", szse_Extend203502_layout);
        ("szse.Extend203702", szse_Extend203702_layout);
        ("szse.Extend203715", szse_Extend203715_layout);
        ("szse.Extend204102", szse_Extend204102_layout);
        ("szse.Extend204115", szse_Extend204115_layout);
        ("szse.Extend204129", szse_Extend204129_layout);
        ("szse.Extend204130", szse_Extend204130_layout);
        ("szse.Extend204702", szse_Extend204702_layout);
        ("szse.Extend204715", szse_Extend204715_layout);
        ("szse.Extend206302", szse_Extend206302_layout);
        ("szse.Extend206315", szse_Extend206315_layout);
        ("szse.Heartbeat", szse_Heartbeat_layout);
        ("szse.Logon", szse_Logon_layout);
        ("szse.Logout", szse_Logout_layout);
        ("szse.NewOrder", szse_NewOrder_layout);
        ("szse.OrderCancelRequest", szse_OrderCancelRequest_layout);
        ("szse.PartitionReport", szse_PartitionReport_layout);
        ("szse.PlatformInfo", szse_PlatformInfo_layout);
        ("szse.PlatformPartition", szse_PlatformPartition_layout);
        ("szse.PlatformStateInfo", szse_PlatformStateInfo_layout);
        ("szse.ReportFinished", szse_ReportFinished_layout);
        ("szse.ReportSynchronization", szse_ReportSynchronization_layout);
        ("szse.SzseBinary", szse_SzseBinary_layout);
        ("szse.TradingSessionStatus", szse_TradingSessionStatus_layout) ].
