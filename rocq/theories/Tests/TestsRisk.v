(* GENERATED by tools/testgen.py from the tests of risk-bin.  Do not edit. *)
From Coq Require Import ZArith List String.
From Verif.Model Require Import Ast.
From Verif.Tests Require Import Script.
Import ListNotations.
Open Scope Z_scope.

(* risk-bin/src/test/java/com/finproto/risk/bin/messages/CancelRejectTest.java:11-24 testEncodeDecode *)
Example risk_CancelRejectTest_testEncodeDecode : test_passes
  [ New "original" "risk.CancelReject";
    Call "original" "setUniqueOrderId" (Lit (VStr [101; 120; 97; 109; 112; 108; 101]));
    Call "original" "setUniqueOrigOrderId" (Lit (VStr [101; 120; 97; 109; 112; 108; 101]));
    Call "original" "setClOrdId" (Lit (VStr [101; 120; 97; 109; 112; 108; 101]));
    Call "original" "setOrigClOrdId" (Lit (VStr [101; 120; 97; 109; 112; 108; 101]));
    Call "original" "setCxlRejReason" (Lit (VInt 4));
    Encode "original";
    New "decoded" "risk.CancelReject";
    Decode "decoded";
    AssertEquals "original" "decoded" ]%string = true.
Proof. vm_compute. reflexivity. Qed.

(* risk-bin/src/test/java/com/finproto/risk/bin/messages/ExecutionReportTest.java:11-25 testEncodeDecode *)
Example risk_ExecutionReportTest_testEncodeDecode : test_passes
  [ New "original" "risk.ExecutionReport";
    Call "original" "setUniqueOrderId" (Lit (VStr [101; 120; 97; 109; 112; 108; 101]));
    Call "original" "setClOrdId" (Lit (VStr [101; 120; 97; 109; 112; 108; 101]));
    Call "original" "setOrdCnfmId" (Lit (VStr [101; 120; 97; 109; 112; 108; 101]));
    Call "original" "setLastPx" (Lit (VInt 8));
    Call "original" "setLastQty" (Lit (VInt 8));
    Call "original" "setOrdStatus" (Lit (VStr [49]));
    Encode "original";
    New "decoded" "risk.ExecutionReport";
    Decode "decoded";
    AssertEquals "original" "decoded" ]%string = true.
Proof. vm_compute. reflexivity. Qed.

(* risk-bin/src/test/java/com/finproto/risk/bin/messages/NewOrderTest.java:11-27 testEncodeDecode *)
Example risk_NewOrderTest_testEncodeDecode : test_passes
  [ New "original" "risk.NewOrder";
    Call "original" "setUniqueOrderId" (Lit (VStr [101; 120; 97; 109; 112; 108; 101]));
    Call "original" "setClOrdId" (Lit (VStr [101; 120; 97; 109; 112; 108; 101]));
    Call "original" "setSecurityId" (Lit (VStr [101; 120; 97; 109; 112; 108; 101]));
    Call "original" "setSide" (Lit (VStr [49]));
    Call "original" "setPrice" (Lit (VInt 8));
    Call "original" "setOrderQty" (Lit (VInt 8));
    Call "original" "setOrdType" (Lit (VStr [49]));
    Call "original" "setAccount" (Lit (VStr [101; 120; 97; 109; 112; 108; 101]));
    Encode "original";
    New "decoded" "risk.NewOrder";
    Decode "decoded";
    AssertEquals "original" "decoded" ]%string = true.
Proof. vm_compute. reflexivity. Qed.

(* risk-bin/src/test/java/com/finproto/risk/bin/messages/OrderCancelTest.java:11-24 testEncodeDecode *)
Example risk_OrderCancelTest_testEncodeDecode : test_passes
  [ New "original" "risk.OrderCancel";
    Call "original" "setUniqueOrderId" (Lit (VStr [101; 120; 97; 109; 112; 108; 101]));
    Call "original" "setUniqueOrigOrderId" (Lit (VStr [101; 120; 97; 109; 112; 108; 101]));
    Call "original" "setClOrdId" (Lit (VStr [101; 120; 97; 109; 112; 108; 101]));
    Call "original" "setOrigClOrdId" (Lit (VStr [101; 120; 97; 109; 112; 108; 101]));
    Call "original" "setSecurityId" (Lit (VStr [101; 120; 97; 109; 112; 108; 101]));
    Encode "original";
    New "decoded" "risk.OrderCancel";
    Decode "decoded";
    AssertEquals "original" "decoded" ]%string = true.
Proof. vm_compute. reflexivity. Qed.

(* risk-bin/src/test/java/com/finproto/risk/bin/messages/OrderConfirmTest.java:11-25 testEncodeDecode *)
Example risk_OrderConfirmTest_testEncodeDecode : test_passes
  [ New "original" "risk.OrderConfirm";
    Call "original" "setUniqueOrderId" (Lit (VStr [101; 120; 97; 109; 112; 108; 101]));
    Call "original" "setUniqueOrigOrderId" (Lit (VStr [101; 120; 97; 109; 112; 108; 101]));
    Call "original" "setClOrdId" (Lit (VStr [101; 120; 97; 109; 112; 108; 101]));
    Call "original" "setExecType" (Lit (VStr [49]));
    Call "original" "setOrdRejReason" (Lit (VInt 4));
    Call "original" "setOrdCnfmId" (Lit (VStr [101; 120; 97; 109; 112; 108; 101]));
    Encode "original";
    New "decoded" "risk.OrderConfirm";
    Decode "decoded";
    AssertEquals "original" "decoded" ]%string = true.
Proof. vm_compute. reflexivity. Qed.

(* risk-bin/src/test/java/com/finproto/risk/bin/messages/RcBinaryTest.java:11-31 testEncodeDecode *)
Example risk_RcBinaryTest_testEncodeDecode : test_passes
  [ New "original" "risk.RcBinary";
    Call "original" "setVersion" (Lit (VInt 4));
    Call "original" "setMsgType" (Lit (VInt 100101));
    New "newOrder" "risk.NewOrder";
    Call "newOrder" "setUniqueOrderId" (Lit (VStr [101; 120; 97; 109; 112; 108; 101]));
    Call "newOrder" "setClOrdId" (Lit (VStr [101; 120; 97; 109; 112; 108; 101]));
    Call "newOrder" "setSecurityId" (Lit (VStr [101; 120; 97; 109; 112; 108; 101]));
    Call "newOrder" "setSide" (Lit (VStr [49]));
    Call "newOrder" "setPrice" (Lit (VInt 8));
    Call "newOrder" "setOrderQty" (Lit (VInt 8));
    Call "newOrder" "setOrdType" (Lit (VStr [49]));
    Call "newOrder" "setAccount" (Lit (VStr [101; 120; 97; 109; 112; 108; 101]));
    Call "original" "setBody" (Var "newOrder");
    Encode "original";
    New "decoded" "risk.RcBinary";
    Decode "decoded";
    AssertEquals "original" "decoded" ]%string = true.
Proof. vm_compute. reflexivity. Qed.
