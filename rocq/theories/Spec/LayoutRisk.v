(* GENERATED by tools/translate.py: the wire layout of each message class of risk-bin, i.e. its fields in wire
   order with their formats.  This is specification data (what the messages look like on the wire);
   that the translated Java code follows it is proved in Proofs/Conform.v. *)
From Coq Require Import String ZArith List.
From Verif.Model Require Import JavaPrim Ast.
From Verif.Spec Require Import Wire.
Import ListNotations.
Open Scope string_scope.

(* risk-bin/src/main/java/com/finproto/risk/bin/messages/CancelReject.java:10-154 *)
Definition risk_CancelReject_layout : layout :=
      [ ("uniqueOrderId", WDyn 4 BE);
        ("uniqueOrigOrderId", WDyn 4 BE);
        ("clOrdId", WDyn 4 BE);
        ("origClOrdId", WDyn 4 BE);
        ("cxlRejReason", WInt 4 BE) ].

(* risk-bin/src/main/java/com/finproto/risk/bin/messages/ExecutionReport.java:10-156 *)
Definition risk_ExecutionReport_layout : layout :=
      [ ("uniqueOrderId", WDyn 4 BE);
        ("clOrdId", WDyn 4 BE);
        ("ordCnfmId", WDyn 4 BE);
        ("lastPx", WInt 8 BE);
        ("lastQty", WInt 8 BE);
        ("ordStatus", WFix 1 32 false) ].

(* risk-bin/src/main/java/com/finproto/risk/bin/messages/NewOrder.java:10-194 *)
Definition risk_NewOrder_layout : layout :=
      [ ("uniqueOrderId", WDyn 4 BE);
        ("clOrdId", WDyn 4 BE);
        ("securityId", WDyn 4 BE);
        ("side", WFix 1 32 false);
        ("price", WInt 8 BE);
        ("orderQty", WInt 8 BE);
        ("ordType", WFix 1 32 false);
        ("account", WDyn 4 BE) ].

(* risk-bin/src/main/java/com/finproto/risk/bin/messages/OrderCancel.java:10-163 *)
Definition risk_OrderCancel_layout : layout :=
      [ ("uniqueOrderId", WDyn 4 BE);
        ("uniqueOrigOrderId", WDyn 4 BE);
        ("clOrdId", WDyn 4 BE);
        ("origClOrdId", WDyn 4 BE);
        ("securityId", WDyn 4 BE) ].

(* risk-bin/src/main/java/com/finproto/risk/bin/messages/OrderConfirm.java:10-167 *)
Definition risk_OrderConfirm_layout : layout :=
      [ ("uniqueOrderId", WDyn 4 BE);
        ("uniqueOrigOrderId", WDyn 4 BE);
        ("clOrdId", WDyn 4 BE);
        ("execType", WFix 1 32 false);
        ("ordRejReason", WInt 4 BE);
        ("ordCnfmId", WDyn 4 BE) ].

(* risk-bin/src/main/java/com/finproto/risk/bin/messages/RcBinary.java:11-141 *)
Definition risk_RcBinary_layout : layout :=
      [ ("msgType", WInt 4 BE);
        ("version", WInt 4 BE);
        ("msgBodyLen", WLen 4 BE);
        ("body", WBody "msgType") ].

(* risk-bin/src/main/java/com/finproto/risk/bin/messages/RiskResult.java:10-103 *)
Definition risk_RiskResult_layout : layout :=
      [ ("uniqueOrderId", WDyn 4 BE);
        ("riskStatus", WInt 1 BE);
        ("riskReason", WDyn 4 BE) ].

Definition risk_layouts : list (string * layout) :=
      [ ("risk.CancelReject", risk_CancelReject_layout);
        ("risk.ExecutionReport", risk_ExecutionReport_layout);
        ("risk.NewOrder", risk_NewOrder_layout);
        ("risk.OrderCancel", risk_OrderCancel_layout);
        ("risk.OrderConfirm", risk_OrderConfirm_layout);
        ("risk.RcBinary", risk_RcBinary_layout);
        ("risk.RiskResult", risk_RiskResult_layout) ].
