(* GENERATED by tools/translate.py from /repo/risk-bin/src/main/java: do not edit by hand.
   One definition per Java message class; each comment cites the file and the line ranges. *)
From Coq Require Import String ZArith List.
From Verif.Model Require Import JavaPrim Ast.
Import ListNotations.
Open Scope string_scope.

(* risk-bin/src/main/java/com/finproto/risk/bin/messages/CancelReject.java:10-154  class CancelReject; fields 11-15; encode 58-92; decode 95-116; hashCode 119-121; equals 124-137; toString 140-153; the rest: getters and setters *)
Definition risk_CancelReject : class_def := {|
  c_name := "risk.CancelReject";
  c_fields :=
      [ ("uniqueOrderId", TStr);
        ("uniqueOrigOrderId", TStr);
        ("clOrdId", TStr);
        ("origClOrdId", TStr);
        ("cxlRejReason", TInt) ];
  c_enc :=
      [ EDyn "uniqueOrderId" 4 BE 4 BE;
        EDyn "uniqueOrigOrderId" 4 BE 4 BE;
        EDyn "clOrdId" 4 BE 4 BE;
        EDyn "origClOrdId" 4 BE 4 BE;
        EWrite 4 BE "cxlRejReason" ];
  c_dec :=
      [ DDyn "uniqueOrderId" 4 BE;
        DDyn "uniqueOrigOrderId" 4 BE;
        DDyn "clOrdId" 4 BE;
        DDyn "origClOrdId" 4 BE;
        DRead 4 BE "cxlRejReason" ];
  c_eq :=
      [ "uniqueOrderId";
        "uniqueOrigOrderId";
        "clOrdId";
        "origClOrdId";
        "cxlRejReason" ];
  c_hash := 
      HashFields [ "uniqueOrderId";
        "uniqueOrigOrderId";
        "clOrdId";
        "origClOrdId";
        "cxlRejReason" ];
  c_tag := "CancelReject";
  c_str :=
      [ ("uniqueOrderId", "uniqueOrderId");
        ("uniqueOrigOrderId", "uniqueOrigOrderId");
        ("clOrdId", "clOrdId");
        ("origClOrdId", "origClOrdId");
        ("cxlRejReason", "cxlRejReason") ];
  c_get :=
      [ ("getUniqueOrderId", "uniqueOrderId");
        ("getUniqueOrigOrderId", "uniqueOrigOrderId");
        ("getClOrdId", "clOrdId");
        ("getOrigClOrdId", "origClOrdId");
        ("getCxlRejReason", "cxlRejReason") ];
  c_set :=
      [ ("setUniqueOrderId", "uniqueOrderId");
        ("setUniqueOrigOrderId", "uniqueOrigOrderId");
        ("setClOrdId", "clOrdId");
        ("setOrigClOrdId", "origClOrdId");
        ("setCxlRejReason", "cxlRejReason") ] |}.

(* risk-bin/src/main/java/com/finproto/risk/bin/messages/ExecutionReport.java:10-156  class ExecutionReport; fields 11-16; encode 67-95; decode 98-115; hashCode 118-120; equals 123-137; toString 140-155; the rest: getters and setters *)
Definition risk_ExecutionReport : class_def := {|
  c_name := "risk.ExecutionReport";
  c_fields :=
      [ ("uniqueOrderId", TStr);
        ("clOrdId", TStr);
        ("ordCnfmId", TStr);
        ("lastPx", TLong);
        ("lastQty", TLong);
        ("ordStatus", TStr) ];
  c_enc :=
      [ EDyn "uniqueOrderId" 4 BE 4 BE;
        EDyn "clOrdId" 4 BE 4 BE;
        EDyn "ordCnfmId" 4 BE 4 BE;
        EWrite 8 BE "lastPx";
        EWrite 8 BE "lastQty";
        EFix "ordStatus" 1 32 false ];
  c_dec :=
      [ DDyn "uniqueOrderId" 4 BE;
        DDyn "clOrdId" 4 BE;
        DDyn "ordCnfmId" 4 BE;
        DRead 8 BE "lastPx";
        DRead 8 BE "lastQty";
        DFix "ordStatus" 1 32 false ];
  c_eq :=
      [ "uniqueOrderId";
        "clOrdId";
        "ordCnfmId";
        "lastPx";
        "lastQty";
        "ordStatus" ];
  c_hash := 
      HashFields [ "uniqueOrderId";
        "clOrdId";
        "ordCnfmId";
        "lastPx";
        "lastQty";
        "ordStatus" ];
  c_tag := "ExecutionReport";
  c_str :=
      [ ("uniqueOrderId", "uniqueOrderId");
        ("clOrdId", "clOrdId");
        ("ordCnfmId", "ordCnfmId");
        ("lastPx", "lastPx");
        ("lastQty", "lastQty");
        ("ordStatus", "ordStatus") ];
  c_get :=
      [ ("getUniqueOrderId", "uniqueOrderId");
        ("getClOrdId", "clOrdId");
        ("getOrdCnfmId", "ordCnfmId");
        ("getLastPx", "lastPx");
        ("getLastQty", "lastQty");
        ("getOrdStatus", "ordStatus") ];
  c_set :=
      [ ("setUniqueOrderId", "uniqueOrderId");
        ("setClOrdId", "clOrdId");
        ("setOrdCnfmId", "ordCnfmId");
        ("setLastPx", "lastPx");
        ("setLastQty", "lastQty");
        ("setOrdStatus", "ordStatus") ] |}.

(* risk-bin/src/main/java/com/finproto/risk/bin/messages/NewOrder.java:10-194  class NewOrder; fields 11-18; encode 85-121; decode 124-146; hashCode 149-152; equals 155-171; toString 174-193; the rest: getters and setters *)
Definition risk_NewOrder : class_def := {|
  c_name := "risk.NewOrder";
  c_fields :=
      [ ("uniqueOrderId", TStr);
        ("clOrdId", TStr);
        ("securityId", TStr);
        ("side", TStr);
        ("price", TLong);
        ("orderQty", TLong);
        ("ordType", TStr);
        ("account", TStr) ];
  c_enc :=
      [ EDyn "uniqueOrderId" 4 BE 4 BE;
        EDyn "clOrdId" 4 BE 4 BE;
        EDyn "securityId" 4 BE 4 BE;
        EFix "side" 1 32 false;
        EWrite 8 BE "price";
        EWrite 8 BE "orderQty";
        EFix "ordType" 1 32 false;
        EDyn "account" 4 BE 4 BE ];
  c_dec :=
      [ DDyn "uniqueOrderId" 4 BE;
        DDyn "clOrdId" 4 BE;
        DDyn "securityId" 4 BE;
        DFix "side" 1 32 false;
        DRead 8 BE "price";
        DRead 8 BE "orderQty";
        DFix "ordType" 1 32 false;
        DDyn "account" 4 BE ];
  c_eq :=
      [ "uniqueOrderId";
        "clOrdId";
        "securityId";
        "side";
        "price";
        "orderQty";
        "ordType";
        "account" ];
  c_hash := 
      HashFields [ "uniqueOrderId";
        "clOrdId";
        "securityId";
        "side";
        "price";
        "orderQty";
        "ordType";
        "account" ];
  c_tag := "NewOrder";
  c_str :=
      [ ("uniqueOrderId", "uniqueOrderId");
        ("clOrdId", "clOrdId");
        ("securityId", "securityId");
        ("side", "side");
        ("price", "price");
        ("orderQty", "orderQty");
        ("ordType", "ordType");
        ("account", "account") ];
  c_get :=
      [ ("getUniqueOrderId", "uniqueOrderId");
        ("getClOrdId", "clOrdId");
        ("getSecurityId", "securityId");
        ("getSide", "side");
        ("getPrice", "price");
        ("getOrderQty", "orderQty");
        ("getOrdType", "ordType");
        ("getAccount", "account") ];
  c_set :=
      [ ("setUniqueOrderId", "uniqueOrderId");
        ("setClOrdId", "clOrdId");
        ("setSecurityId", "securityId");
        ("setSide", "side");
        ("setPrice", "price");
        ("setOrderQty", "orderQty");
        ("setOrdType", "ordType");
        ("setAccount", "account") ] |}.

(* risk-bin/src/main/java/com/finproto/risk/bin/messages/OrderCancel.java:10-163  class OrderCancel; fields 11-15; encode 58-98; decode 101-125; hashCode 128-130; equals 133-146; toString 149-162; the rest: getters and setters *)
Definition risk_OrderCancel : class_def := {|
  c_name := "risk.OrderCancel";
  c_fields :=
      [ ("uniqueOrderId", TStr);
        ("uniqueOrigOrderId", TStr);
        ("clOrdId", TStr);
        ("origClOrdId", TStr);
        ("securityId", TStr) ];
  c_enc :=
      [ EDyn "uniqueOrderId" 4 BE 4 BE;
        EDyn "uniqueOrigOrderId" 4 BE 4 BE;
        EDyn "clOrdId" 4 BE 4 BE;
        EDyn "origClOrdId" 4 BE 4 BE;
        EDyn "securityId" 4 BE 4 BE ];
  c_dec :=
      [ DDyn "uniqueOrderId" 4 BE;
        DDyn "uniqueOrigOrderId" 4 BE;
        DDyn "clOrdId" 4 BE;
        DDyn "origClOrdId" 4 BE;
        DDyn "securityId" 4 BE ];
  c_eq :=
      [ "uniqueOrderId";
        "uniqueOrigOrderId";
        "clOrdId";
        "origClOrdId";
        "securityId" ];
  c_hash := 
      HashFields [ "uniqueOrderId";
        "uniqueOrigOrderId";
        "clOrdId";
        "origClOrdId";
        "securityId" ];
  c_tag := "OrderCancel";
  c_str :=
      [ ("uniqueOrderId", "uniqueOrderId");
        ("uniqueOrigOrderId", "uniqueOrigOrderId");
        ("clOrdId", "clOrdId");
        ("origClOrdId", "origClOrdId");
        ("securityId", "securityId") ];
  c_get :=
      [ ("getUniqueOrderId", "uniqueOrderId");
        ("getUniqueOrigOrderId", "uniqueOrigOrderId");
        ("getClOrdId", "clOrdId");
        ("getOrigClOrdId", "origClOrdId");
        ("getSecurityId", "securityId") ];
  c_set :=
      [ ("setUniqueOrderId", "uniqueOrderId");
        ("setUniqueOrigOrderId", "uniqueOrigOrderId");
        ("setClOrdId", "clOrdId");
        ("setOrigClOrdId", "origClOrdId");
        ("setSecurityId", "securityId") ] |}.

(* risk-bin/src/main/java/com/finproto/risk/bin/messages/OrderConfirm.java:10-167  class OrderConfirm; fields 11-16; encode 67-101; decode 104-125; hashCode 128-131; equals 134-148; toString 151-166; the rest: getters and setters *)
Definition risk_OrderConfirm : class_def := {|
  c_name := "risk.OrderConfirm";
  c_fields :=
      [ ("uniqueOrderId", TStr);
        ("uniqueOrigOrderId", TStr);
        ("clOrdId", TStr);
        ("execType", TStr);
        ("ordRejReason", TInt);
        ("ordCnfmId", TStr) ];
  c_enc :=
      [ EDyn "uniqueOrderId" 4 BE 4 BE;
        EDyn "uniqueOrigOrderId" 4 BE 4 BE;
        EDyn "clOrdId" 4 BE 4 BE;
        EFix "execType" 1 32 false;
        EWrite 4 BE "ordRejReason";
        EDyn "ordCnfmId" 4 BE 4 BE ];
  c_dec :=
      [ DDyn "uniqueOrderId" 4 BE;
        DDyn "uniqueOrigOrderId" 4 BE;
        DDyn "clOrdId" 4 BE;
        DFix "execType" 1 32 false;
        DRead 4 BE "ordRejReason";
        DDyn "ordCnfmId" 4 BE ];
  c_eq :=
      [ "uniqueOrderId";
        "uniqueOrigOrderId";
        "clOrdId";
        "execType";
        "ordRejReason";
        "ordCnfmId" ];
  c_hash := 
      HashFields [ "uniqueOrderId";
        "uniqueOrigOrderId";
        "clOrdId";
        "execType";
        "ordRejReason";
        "ordCnfmId" ];
  c_tag := "OrderConfirm";
  c_str :=
      [ ("uniqueOrderId", "uniqueOrderId");
        ("uniqueOrigOrderId", "uniqueOrigOrderId");
        ("clOrdId", "clOrdId");
        ("execType", "execType");
        ("ordRejReason", "ordRejReason");
        ("ordCnfmId", "ordCnfmId") ];
  c_get :=
      [ ("getUniqueOrderId", "uniqueOrderId");
        ("getUniqueOrigOrderId", "uniqueOrigOrderId");
        ("getClOrdId", "clOrdId");
        ("getExecType", "execType");
        ("getOrdRejReason", "ordRejReason");
        ("getOrdCnfmId", "ordCnfmId") ];
  c_set :=
      [ ("setUniqueOrderId", "uniqueOrderId");
        ("setUniqueOrigOrderId", "uniqueOrigOrderId");
        ("setClOrdId", "clOrdId");
        ("setExecType", "execType");
        ("setOrdRejReason", "ordRejReason");
        ("setOrdCnfmId", "ordCnfmId") ] |}.

(* risk-bin/src/main/java/com/finproto/risk/bin/messages/RcBinary.java:11-141  class RcBinary; fields 12-15; encode 50-63; decode 66-72; hashCode 75-77; equals 80-92; toString 95-106; the rest: getters and setters *)
Definition risk_RcBinary : class_def := {|
  c_name := "risk.RcBinary";
  c_fields :=
      [ ("msgType", TInt);
        ("version", TInt);
        ("msgBodyLen", TInt);
        ("body", TCodec) ];
  c_enc :=
      [ EWrite 4 BE "msgType";
        EWrite 4 BE "version";
        EMark "msgBodyLenPos";
        EZero 4 BE;
        EMark "bodyStart";
        EObjOpt "body";
        EMark "bodyEnd";
        EDiff "msgBodyLen" "bodyEnd" "bodyStart";
        EPatch 4 BE "msgBodyLenPos" "msgBodyLen" ];
  c_dec :=
      [ DRead 4 BE "msgType";
        DRead 4 BE "version";
        DRead 4 BE "msgBodyLen";
        DCreate "body" "msgType";
        DObj "body" ];
  c_eq :=
      [ "msgType";
        "version";
        "msgBodyLen";
        "body" ];
  c_hash := 
      HashFields [ "msgType";
        "version";
        "msgBodyLen";
        "body" ];
  c_tag := "RcBinary";
  c_str :=
      [ ("msgType", "msgType");
        ("version", "version");
        ("msgBodyLen", "msgBodyLen");
        ("body", "body") ];
  c_get :=
      [ ("getMsgType", "msgType");
        ("getVersion", "version");
        ("getMsgBodyLen", "msgBodyLen");
        ("getBody", "body") ];
  c_set :=
      [ ("setMsgType", "msgType");
        ("setVersion", "version");
        ("setMsgBodyLen", "msgBodyLen");
        ("setBody", "body") ] |}.

(* risk-bin/src/main/java/com/finproto/risk/bin/messages/RiskResult.java:10-103  class RiskResult; fields 11-13; encode 40-57; decode 60-71; hashCode 74-76; equals 79-90; toString 93-102; the rest: getters and setters *)
Definition risk_RiskResult : class_def := {|
  c_name := "risk.RiskResult";
  c_fields :=
      [ ("uniqueOrderId", TStr);
        ("riskStatus", TByte);
        ("riskReason", TStr) ];
  c_enc :=
      [ EDyn "uniqueOrderId" 4 BE 4 BE;
        EWrite 1 BE "riskStatus";
        EDyn "riskReason" 4 BE 4 BE ];
  c_dec :=
      [ DDyn "uniqueOrderId" 4 BE;
        DRead 1 BE "riskStatus";
        DDyn "riskReason" 4 BE ];
  c_eq :=
      [ "uniqueOrderId";
        "riskStatus";
        "riskReason" ];
  c_hash := 
      HashFields [ "uniqueOrderId";
        "riskStatus";
        "riskReason" ];
  c_tag := "RiskResult";
  c_str :=
      [ ("uniqueOrderId", "uniqueOrderId");
        ("riskStatus", "riskStatus");
        ("riskReason", "riskReason") ];
  c_get :=
      [ ("getUniqueOrderId", "uniqueOrderId");
        ("getRiskStatus", "riskStatus");
        ("getRiskReason", "riskReason") ];
  c_set :=
      [ ("setUniqueOrderId", "uniqueOrderId");
        ("setRiskStatus", "riskStatus");
        ("setRiskReason", "riskReason") ] |}.

Definition risk_classes : list class_def :=
      [ risk_CancelReject;
        risk_ExecutionReport;
        risk_NewOrder;
        risk_OrderCancel;
        risk_OrderConfirm;
        risk_RcBinary;
        risk_RiskResult ].

(* risk-bin/src/main/java/com/finproto/risk/bin/messages/RcBinary.java:108-140  factory of RcBinary (key type Integer): registrations of its static initialiser, in order *)
Definition risk_RcBinary_factory : list (key * string) :=
      [ (KInt 100101, "risk.NewOrder");
        (KInt 200102, "risk.OrderConfirm");
        (KInt 200115, "risk.ExecutionReport");
        (KInt 190007, "risk.OrderCancel");
        (KInt 290008, "risk.CancelReject");
        (KInt 800001, "risk.RiskResult") ].

Definition risk_factories : list (string * list (key * string)) :=
      [ ("risk.RcBinary", risk_RcBinary_factory) ].
