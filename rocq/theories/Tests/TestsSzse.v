(* GENERATED by tools/testgen.py from the tests of szse-bin.  Do not edit. *)
From Coq Require Import ZArith List String.
From Verif.Model Require Import Ast.
From Verif.Tests Require Import Script.
Import ListNotations.
Open Scope Z_scope.

(* szse-bin/src/test/java/com/finproto/szse/bin/messages/BusinessRejectTest.java:11-29 testEncodeDecode *)
Example szse_BusinessRejectTest_testEncodeDecode : test_passes
  [ New "original" "szse.BusinessReject";
    Call "original" "setApplId" (Lit (VStr [49; 49; 49]));
    Call "original" "setTransactTime" (Lit (VInt 8));
    Call "original" "setSubmittingPbuid" (Lit (VStr [49; 49; 49; 49; 49; 49]));
    Call "original" "setSecurityId" (Lit (VStr [49; 49; 49; 49; 49; 49; 49; 49]));
    Call "original" "setSecurityIdsource" (Lit (VStr [49; 49; 49; 49]));
    Call "original" "setRefSeqNum" (Lit (VInt 8));
    Call "original" "setRefMsgType" (Lit (VInt 4));
    Call "original" "setBusinessRejectRefId" (Lit (VStr [49; 49; 49; 49; 49; 49; 49; 49; 49; 49]));
    Call "original" "setBusinessRejectReason" (Lit (VInt 2));
    Call "original" "setBusinessRejectText" (Lit (VStr [49; 49; 49; 49; 49; 49; 49; 49; 49; 49; 49; 49; 49; 49; 49; 49; 49; 49; 49; 49; 49; 49; 49; 49; 49; 49; 49; 49; 49; 49; 49; 49; 49; 49; 49; 49; 49; 49; 49; 49; 49; 49; 49; 49; 49; 49; 49; 49; 49; 49]));
    Encode "original";
    New "decoded" "szse.BusinessReject";
    Decode "decoded";
    AssertEquals "original" "decoded" ]%string = true.
Proof. vm_compute. reflexivity. Qed.

(* szse-bin/src/test/java/com/finproto/szse/bin/messages/CancelRejectTest.java:11-37 testEncodeDecode *)
Example szse_CancelRejectTest_testEncodeDecode : test_passes
  [ New "original" "szse.CancelReject";
    Call "original" "setPartitionNo" (Lit (VInt 4));
    Call "original" "setReportIndex" (Lit (VInt 8));
    Call "original" "setApplId" (Lit (VStr [49; 49; 49]));
    Call "original" "setReportingPbuid" (Lit (VStr [49; 49; 49; 49; 49; 49]));
    Call "original" "setSubmittingPbuid" (Lit (VStr [49; 49; 49; 49; 49; 49]));
    Call "original" "setSecurityId" (Lit (VStr [49; 49; 49; 49; 49; 49; 49; 49]));
    Call "original" "setSecurityIdsource" (Lit (VStr [49; 49; 49; 49]));
    Call "original" "setOwnerType" (Lit (VInt 2));
    Call "original" "setClearingFirm" (Lit (VStr [49; 49]));
    Call "original" "setTransactTime" (Lit (VInt 8));
    Call "original" "setUserInfo" (Lit (VStr [49; 49; 49; 49; 49; 49; 49; 49]));
    Call "original" "setClOrdId" (Lit (VStr [49; 49; 49; 49; 49; 49; 49; 49; 49; 49]));
    Call "original" "setOrigClOrdId" (Lit (VStr [49; 49; 49; 49; 49; 49; 49; 49; 49; 49]));
    Call "original" "setSide" (Lit (VStr [49]));
    Call "original" "setOrdStatus" (Lit (VStr [49]));
    Call "original" "setCxlRejReason" (Lit (VInt 2));
    Call "original" "setRejectText" (Lit (VStr [49; 49; 49; 49; 49; 49; 49; 49; 49; 49; 49; 49; 49; 49; 49; 49]));
    Call "original" "setOrderId" (Lit (VStr [49; 49; 49; 49; 49; 49; 49; 49; 49; 49; 49; 49; 49; 49; 49; 49]));
    Encode "original";
    New "decoded" "szse.CancelReject";
    Decode "decoded";
    AssertEquals "original" "decoded" ]%string = true.
Proof. vm_compute. reflexivity. Qed.

(* szse-bin/src/test/java/com/finproto/szse/bin/messages/ExecutionConfirmTest.java:11-54 testEncodeDecode *)
Example szse_ExecutionConfirmTest_testEncodeDecode : test_passes
  [ New "original" "szse.ExecutionConfirm";
    Call "original" "setPartitionNo" (Lit (VInt 4));
    Call "original" "setReportIndex" (Lit (VInt 8));
    Call "original" "setReportingPbuid" (Lit (VStr [49; 49; 49; 49; 49; 49]));
    Call "original" "setSubmittingPbuid" (Lit (VStr [49; 49; 49; 49; 49; 49]));
    Call "original" "setSecurityId" (Lit (VStr [49; 49; 49; 49; 49; 49; 49; 49]));
    Call "original" "setSecurityIdsource" (Lit (VStr [49; 49; 49; 49]));
    Call "original" "setOwnerType" (Lit (VInt 2));
    Call "original" "setClearingFirm" (Lit (VStr [49; 49]));
    Call "original" "setTransactTime" (Lit (VInt 8));
    Call "original" "setUserInfo" (Lit (VStr [49; 49; 49; 49; 49; 49; 49; 49]));
    Call "original" "setOrderId" (Lit (VStr [49; 49; 49; 49; 49; 49; 49; 49; 49; 49; 49; 49; 49; 49; 49; 49]));
    Call "original" "setClOrdId" (Lit (VStr [49; 49; 49; 49; 49; 49; 49; 49; 49; 49]));
    Call "original" "setQuoteMsgId" (Lit (VStr [49; 49; 49; 49; 49; 49; 49; 49; 49; 49]));
    Call "original" "setOrigClOrdId" (Lit (VStr [49; 49; 49; 49; 49; 49; 49; 49; 49; 49]));
    Call "original" "setExecId" (Lit (VStr [49; 49; 49; 49; 49; 49; 49; 49; 49; 49; 49; 49; 49; 49; 49; 49]));
    Call "original" "setExecType" (Lit (VStr [49]));
    Call "original" "setOrdStatus" (Lit (VStr [49]));
    Call "original" "setOrdRejReason" (Lit (VInt 2));
    Call "original" "setLeavesQty" (Lit (VInt 8));
    Call "original" "setCumQty" (Lit (VInt 8));
    Call "original" "setSide" (Lit (VStr [49]));
    Call "original" "setOrdType" (Lit (VStr [49]));
    Call "original" "setOrderQty" (Lit (VInt 8));
    Call "original" "setPrice" (Lit (VInt 8));
    Call "original" "setAccountId" (Lit (VStr [49; 49; 49; 49; 49; 49; 49; 49; 49; 49; 49; 49]));
    Call "original" "setBranchId" (Lit (VStr [49; 49; 49; 49]));
    Call "original" "setOrderRestrictions" (Lit (VStr [49; 49; 49; 49]));
    Call "original" "setApplId" (Lit (VStr [48; 49; 48]));
    New "extend200102" "szse.Extend200102";
    Call "extend200102" "setStopPx" (Lit (VInt 8));
    Call "extend200102" "setMinQty" (Lit (VInt 8));
    Call "extend200102" "setMaxPriceLevels" (Lit (VInt 2));
    Call "extend200102" "setTimeInForce" (Lit (VStr [49]));
    Call "extend200102" "setCashMargin" (Lit (VStr [49]));
    Call "original" "setApplExtend" (Var "extend200102");
    Encode "original";
    New "decoded" "szse.ExecutionConfirm";
    Decode "decoded";
    AssertEquals "original" "decoded" ]%string = true.
Proof. vm_compute. reflexivity. Qed.

(* szse-bin/src/test/java/com/finproto/szse/bin/messages/ExecutionReportTest.java:11-46 testEncodeDecode *)
Example szse_ExecutionReportTest_testEncodeDecode : test_passes
  [ New "original" "szse.ExecutionReport";
    Call "original" "setPartitionNo" (Lit (VInt 4));
    Call "original" "setReportIndex" (Lit (VInt 8));
    Call "original" "setReportingPbuid" (Lit (VStr [49; 49; 49; 49; 49; 49]));
    Call "original" "setSubmittingPbuid" (Lit (VStr [49; 49; 49; 49; 49; 49]));
    Call "original" "setSecurityId" (Lit (VStr [49; 49; 49; 49; 49; 49; 49; 49]));
    Call "original" "setSecurityIdsource" (Lit (VStr [49; 49; 49; 49]));
    Call "original" "setOwnerType" (Lit (VInt 2));
    Call "original" "setClearingFirm" (Lit (VStr [49; 49]));
    Call "original" "setTransactTime" (Lit (VInt 8));
    Call "original" "setUserInfo" (Lit (VStr [49; 49; 49; 49; 49; 49; 49; 49]));
    Call "original" "setOrderId" (Lit (VStr [49; 49; 49; 49; 49; 49; 49; 49; 49; 49; 49; 49; 49; 49; 49; 49]));
    Call "original" "setClOrdId" (Lit (VStr [49; 49; 49; 49; 49; 49; 49; 49; 49; 49]));
    Call "original" "setQuoteMsgId" (Lit (VStr [49; 49; 49; 49; 49; 49; 49; 49; 49; 49]));
    Call "original" "setExecId" (Lit (VStr [49; 49; 49; 49; 49; 49; 49; 49; 49; 49; 49; 49; 49; 49; 49; 49]));
    Call "original" "setExecType" (Lit (VStr [49]));
    Call "original" "setOrdStatus" (Lit (VStr [49]));
    Call "original" "setLastPx" (Lit (VInt 8));
    Call "original" "setLastQty" (Lit (VInt 8));
    Call "original" "setLeavesQty" (Lit (VInt 8));
    Call "original" "setCumQty" (Lit (VInt 8));
    Call "original" "setSide" (Lit (VStr [49]));
    Call "original" "setAccountId" (Lit (VStr [49; 49; 49; 49; 49; 49; 49; 49; 49; 49; 49; 49]));
    Call "original" "setBranchId" (Lit (VStr [49; 49; 49; 49]));
    Call "original" "setApplId" (Lit (VStr [48; 49; 48]));
    New "extend200115" "szse.Extend200115";
    Call "extend200115" "setCashMargin" (Lit (VStr [49]));
    Call "original" "setApplExtend" (Var "extend200115");
    Encode "original";
    New "decoded" "szse.ExecutionReport";
    Decode "decoded";
    AssertEquals "original" "decoded" ]%string = true.
Proof. vm_compute. reflexivity. Qed.

(* szse-bin/src/test/java/com/finproto/szse/bin/messages/Extend100101Test.java:11-24 testEncodeDecode *)
Example szse_Extend100101Test_testEncodeDecode : test_passes
  [ New "original" "szse.Extend100101";
    Call "original" "setStopPx" (Lit (VInt 8));
    Call "original" "setMinQty" (Lit (VInt 8));
    Call "original" "setMaxPriceLevels" (Lit (VInt 2));
    Call "original" "setTimeInForce" (Lit (VStr [49]));
    Call "original" "setCashMargin" (Lit (VStr [49]));
    Encode "original";
    New "decoded" "szse.Extend100101";
    Decode "decoded";
    AssertEquals "original" "decoded" ]%string = true.
Proof. vm_compute. reflexivity. Qed.

(* szse-bin/src/test/java/com/finproto/szse/bin/messages/Extend100201Test.java:11-23 testEncodeDecode *)
Example szse_Extend100201Test_testEncodeDecode : test_passes
  [ New "original" "szse.Extend100201";
    Call "original" "setStopPx" (Lit (VInt 8));
    Call "original" "setMinQty" (Lit (VInt 8));
    Call "original" "setMaxPriceLevels" (Lit (VInt 2));
    Call "original" "setTimeInForce" (Lit (VStr [49]));
    Encode "original";
    New "decoded" "szse.Extend100201";
    Decode "decoded";
    AssertEquals "original" "decoded" ]%string = true.
Proof. vm_compute. reflexivity. Qed.

(* szse-bin/src/test/java/com/finproto/szse/bin/messages/Extend100301Test.java:11-23 testEncodeDecode *)
Example szse_Extend100301Test_testEncodeDecode : test_passes
  [ New "original" "szse.Extend100301";
    Call "original" "setStopPx" (Lit (VInt 8));
    Call "original" "setMinQty" (Lit (VInt 8));
    Call "original" "setMaxPriceLevels" (Lit (VInt 2));
    Call "original" "setTimeInForce" (Lit (VStr [49]));
    Encode "original";
    New "decoded" "szse.Extend100301";
    Decode "decoded";
    AssertEquals "original" "decoded" ]%string = true.
Proof. vm_compute. reflexivity. Qed.

(* szse-bin/src/test/java/com/finproto/szse/bin/messages/Extend100501Test.java:11-21 testEncodeDecode *)
Example szse_Extend100501Test_testEncodeDecode : test_passes
  [ New "original" "szse.Extend100501";
    Call "original" "setConfirmId" (Lit (VStr [49; 49; 49; 49; 49; 49; 49; 49]));
    Call "original" "setCashMargin" (Lit (VStr [49]));
    Encode "original";
    New "decoded" "szse.Extend100501";
    Decode "decoded";
    AssertEquals "original" "decoded" ]%string = true.
Proof. vm_compute. reflexivity. Qed.

(* szse-bin/src/test/java/com/finproto/szse/bin/messages/Extend100601Test.java:11-20 testEncodeDecode *)
Example szse_Extend100601Test_testEncodeDecode : test_passes
  [ New "original" "szse.Extend100601";
    Call "original" "setCashMargin" (Lit (VStr [49]));
    Encode "original";
    New "decoded" "szse.Extend100601";
    Decode "decoded";
    AssertEquals "original" "decoded" ]%string = true.
Proof. vm_compute. reflexivity. Qed.

(* szse-bin/src/test/java/com/finproto/szse/bin/messages/Extend100701Test.java:11-22 testEncodeDecode *)
Example szse_Extend100701Test_testEncodeDecode : test_passes
  [ New "original" "szse.Extend100701";
    Call "original" "setExpirationDays" (Lit (VInt 2));
    Call "original" "setExpirationType" (Lit (VInt 1));
    Call "original" "setShareProperty" (Lit (VStr [49; 49]));
    Encode "original";
    New "decoded" "szse.Extend100701";
    Decode "decoded";
    AssertEquals "original" "decoded" ]%string = true.
Proof. vm_compute. reflexivity. Qed.

(* szse-bin/src/test/java/com/finproto/szse/bin/messages/Extend101401Test.java:11-27 testEncodeDecode *)
Example szse_Extend101401Test_testEncodeDecode : test_passes
  [ New "original" "szse.Extend101401";
    Call "original" "setStopPx" (Lit (VInt 8));
    Call "original" "setMinQty" (Lit (VInt 8));
    Call "original" "setMaxPriceLevels" (Lit (VInt 2));
    Call "original" "setTimeInForce" (Lit (VStr [49]));
    Call "original" "setPositionEffect" (Lit (VStr [49]));
    Call "original" "setCoveredOrUncovered" (Lit (VInt 1));
    Call "original" "setContractAccountCode" (Lit (VStr [49; 49; 49; 49; 49; 49]));
    Call "original" "setSecondaryOrderId" (Lit (VStr [49; 49; 49; 49; 49; 49; 49; 49; 49; 49; 49; 49; 49; 49; 49; 49]));
    Encode "original";
    New "decoded" "szse.Extend101401";
    Decode "decoded";
    AssertEquals "original" "decoded" ]%string = true.
Proof. vm_compute. reflexivity. Qed.

(* szse-bin/src/test/java/com/finproto/szse/bin/messages/Extend101501Test.java:11-20 testEncodeDecode *)
Example szse_Extend101501Test_testEncodeDecode : test_passes
  [ New "original" "szse.Extend101501";
    Call "original" "setShareProperty" (Lit (VStr [49; 49]));
    Encode "original";
    New "decoded" "szse.Extend101501";
    Decode "decoded";
    AssertEquals "original" "decoded" ]%string = true.
Proof. vm_compute. reflexivity. Qed.

(* szse-bin/src/test/java/com/finproto/szse/bin/messages/Extend101601Test.java:11-20 testEncodeDecode *)
Example szse_Extend101601Test_testEncodeDecode : test_passes
  [ New "original" "szse.Extend101601";
    Call "original" "setContractAccountCode" (Lit (VStr [49; 49; 49; 49; 49; 49]));
    Encode "original";
    New "decoded" "szse.Extend101601";
    Decode "decoded";
    AssertEquals "original" "decoded" ]%string = true.
Proof. vm_compute. reflexivity. Qed.

(* szse-bin/src/test/java/com/finproto/szse/bin/messages/Extend101701Test.java:11-20 testEncodeDecode *)
Example szse_Extend101701Test_testEncodeDecode : test_passes
  [ New "original" "szse.Extend101701";
    Call "original" "setCashOrderQty" (Lit (VInt 8));
    Encode "original";
    New "decoded" "szse.Extend101701";
    Decode "decoded";
    AssertEquals "original" "decoded" ]%string = true.
Proof. vm_compute. reflexivity. Qed.

(* szse-bin/src/test/java/com/finproto/szse/bin/messages/Extend101801Test.java:11-20 testEncodeDecode *)
Example szse_Extend101801Test_testEncodeDecode : test_passes
  [ New "original" "szse.Extend101801";
    Call "original" "setTenderer" (Lit (VStr [49; 49; 49; 49; 49; 49]));
    Encode "original";
    New "decoded" "szse.Extend101801";
    Decode "decoded";
    AssertEquals "original" "decoded" ]%string = true.
Proof. vm_compute. reflexivity. Qed.

(* szse-bin/src/test/java/com/finproto/szse/bin/messages/Extend102701Test.java:11-21 testEncodeDecode *)
Example szse_Extend102701Test_testEncodeDecode : test_passes
  [ New "original" "szse.Extend102701";
    Call "original" "setDisposalPbu" (Lit (VStr [49; 49; 49; 49; 49; 49]));
    Call "original" "setDisposalAccountId" (Lit (VStr [49; 49; 49; 49; 49; 49; 49; 49; 49; 49; 49; 49]));
    Encode "original";
    New "decoded" "szse.Extend102701";
    Decode "decoded";
    AssertEquals "original" "decoded" ]%string = true.
Proof. vm_compute. reflexivity. Qed.

(* szse-bin/src/test/java/com/finproto/szse/bin/messages/Extend102801Test.java:11-21 testEncodeDecode *)
Example szse_Extend102801Test_testEncodeDecode : test_passes
  [ New "original" "szse.Extend102801";
    Call "original" "setLenderPbu" (Lit (VStr [49; 49; 49; 49; 49; 49]));
    Call "original" "setLenderAccountId" (Lit (VStr [49; 49; 49; 49; 49; 49; 49; 49; 49; 49; 49; 49]));
    Encode "original";
    New "decoded" "szse.Extend102801";
    Decode "decoded";
    AssertEquals "original" "decoded" ]%string = true.
Proof. vm_compute. reflexivity. Qed.

(* szse-bin/src/test/java/com/finproto/szse/bin/messages/Extend102901Test.java:11-21 testEncodeDecode *)
Example szse_Extend102901Test_testEncodeDecode : test_passes
  [ New "original" "szse.Extend102901";
    Call "original" "setDeductionPbu" (Lit (VStr [49; 49; 49; 49; 49; 49]));
    Call "original" "setDeductionAccountId" (Lit (VStr [49; 49; 49; 49; 49; 49; 49; 49; 49; 49; 49; 49]));
    Encode "original";
    New "decoded" "szse.Extend102901";
    Decode "decoded";
    AssertEquals "original" "decoded" ]%string = true.
Proof. vm_compute. reflexivity. Qed.

(* szse-bin/src/test/java/com/finproto/szse/bin/messages/Extend103501Test.java:11-20 testEncodeDecode *)
Example szse_Extend103501Test_testEncodeDecode : test_passes
  [ New "original" "szse.Extend103501";
    Call "original" "setContractAccountCode" (Lit (VStr [49; 49; 49; 49; 49; 49]));
    Encode "original";
    New "decoded" "szse.Extend103501";
    Decode "decoded";
    AssertEquals "original" "decoded" ]%string = true.
Proof. vm_compute. reflexivity. Qed.

(* szse-bin/src/test/java/com/finproto/szse/bin/messages/Extend103701Test.java:11-20 testEncodeDecode *)
Example szse_Extend103701Test_testEncodeDecode : test_passes
  [ New "original" "szse.Extend103701";
    Call "original" "setCashMargin" (Lit (VStr [49]));
    Encode "original";
    New "decoded" "szse.Extend103701";
    Decode "decoded";
    AssertEquals "original" "decoded" ]%string = true.
Proof. vm_compute. reflexivity. Qed.

(* szse-bin/src/test/java/com/finproto/szse/bin/messages/Extend104101Test.java:11-24 testEncodeDecode *)
Example szse_Extend104101Test_testEncodeDecode : test_passes
  [ New "original" "szse.Extend104101";
    Call "original" "setStopPx" (Lit (VInt 8));
    Call "original" "setMinQty" (Lit (VInt 8));
    Call "original" "setMaxPriceLevels" (Lit (VInt 2));
    Call "original" "setTimeInForce" (Lit (VStr [49]));
    Call "original" "setCashMargin" (Lit (VStr [49]));
    Encode "original";
    New "decoded" "szse.Extend104101";
    Decode "decoded";
    AssertEquals "original" "decoded" ]%string = true.
Proof. vm_compute. reflexivity. Qed.

(* szse-bin/src/test/java/com/finproto/szse/bin/messages/Extend104128Test.java:11-38 testEncodeDecode *)
Example szse_Extend104128Test_testEncodeDecode : test_passes
  [ New "original" "szse.Extend104128";
    Call "original" "setMemberId" (Lit (VStr [49; 49; 49; 49; 49; 49]));
    Call "original" "setInvestorType" (Lit (VStr [49; 49]));
    Call "original" "setInvestorId" (Lit (VStr [49; 49; 49; 49; 49; 49; 49; 49; 49; 49]));
    Call "original" "setInvestorName" (Lit (VStr [49; 49; 49; 49; 49; 49; 49; 49; 49; 49; 49; 49; 49; 49; 49; 49; 49; 49; 49; 49; 49; 49; 49; 49; 49; 49; 49; 49; 49; 49; 49; 49; 49; 49; 49; 49; 49; 49; 49; 49; 49; 49; 49; 49; 49; 49; 49; 49; 49; 49; 49; 49; 49; 49; 49; 49; 49; 49; 49; 49; 49; 49; 49; 49; 49; 49; 49; 49; 49; 49; 49; 49; 49; 49; 49; 49; 49; 49; 49; 49; 49; 49; 49; 49; 49; 49; 49; 49; 49; 49; 49; 49; 49; 49; 49; 49; 49; 49; 49; 49; 49; 49; 49; 49; 49; 49; 49; 49; 49; 49; 49; 49; 49; 49; 49; 49; 49; 49; 49; 49]));
    Call "original" "setTraderCode" (Lit (VStr [49; 49; 49; 49; 49; 49; 49; 49]));
    Call "original" "setSecondaryOrderId" (Lit (VStr [49; 49; 49; 49; 49; 49; 49; 49; 49; 49; 49; 49; 49; 49; 49; 49]));
    Call "original" "setBidTransType" (Lit (VInt 2));
    Call "original" "setBidExecInstType" (Lit (VInt 2));
    Call "original" "setLowLimitPrice" (Lit (VInt 8));
    Call "original" "setHighLimitPrice" (Lit (VInt 8));
    Call "original" "setMinQty" (Lit (VInt 8));
    Call "original" "setTradeDate" (Lit (VInt 4));
    Call "original" "setSettlType" (Lit (VInt 2));
    Call "original" "setSettlPeriod" (Lit (VInt 1));
    Call "original" "setPreTradeAnonymity" (Lit (VInt 1));
    Call "original" "setCashMargin" (Lit (VStr [49]));
    Call "original" "setMemo" (Lit (VStr [49; 49; 49; 49; 49; 49; 49; 49; 49; 49; 49; 49; 49; 49; 49; 49; 49; 49; 49; 49; 49; 49; 49; 49; 49; 49; 49; 49; 49; 49; 49; 49; 49; 49; 49; 49; 49; 49; 49; 49; 49; 49; 49; 49; 49; 49; 49; 49; 49; 49; 49; 49; 49; 49; 49; 49; 49; 49; 49; 49; 49; 49; 49; 49; 49; 49; 49; 49; 49; 49; 49; 49; 49; 49; 49; 49; 49; 49; 49; 49; 49; 49; 49; 49; 49; 49; 49; 49; 49; 49; 49; 49; 49; 49; 49; 49; 49; 49; 49; 49; 49; 49; 49; 49; 49; 49; 49; 49; 49; 49; 49; 49; 49; 49; 49; 49; 49; 49; 49; 49; 49; 49; 49; 49; 49; 49; 49; 49; 49; 49; 49; 49; 49; 49; 49; 49; 49; 49; 49; 49; 49; 49; 49; 49; 49; 49; 49; 49; 49; 49; 49; 49; 49; 49; 49; 49; 49; 49; 49; 49]));
    Encode "original";
    New "decoded" "szse.Extend104128";
    Decode "decoded";
    AssertEquals "original" "decoded" ]%string = true.
Proof. vm_compute. reflexivity. Qed.

(* szse-bin/src/test/java/com/finproto/szse/bin/messages/Extend104701Test.java:11-20 testEncodeDecode *)
Example szse_Extend104701Test_testEncodeDecode : test_passes
  [ New "original" "szse.Extend104701";
    Call "original" "setSecondaryOrderId" (Lit (VStr [49; 49; 49; 49; 49; 49; 49; 49; 49; 49; 49; 49; 49; 49; 49; 49]));
    Encode "original";
    New "decoded" "szse.Extend104701";
    Decode "decoded";
    AssertEquals "original" "decoded" ]%string = true.
Proof. vm_compute. reflexivity. Qed.

(* szse-bin/src/test/java/com/finproto/szse/bin/messages/Extend106301Test.java:11-24 testEncodeDecode *)
Example szse_Extend106301Test_testEncodeDecode : test_passes
  [ New "original" "szse.Extend106301";
    Call "original" "setStopPx" (Lit (VInt 8));
    Call "original" "setMinQty" (Lit (VInt 8));
    Call "original" "setMaxPriceLevels" (Lit (VInt 2));
    Call "original" "setTimeInForce" (Lit (VStr [49]));
    Call "original" "setLotType" (Lit (VStr [49]));
    Encode "original";
    New "decoded" "szse.Extend106301";
    Decode "decoded";
    AssertEquals "original" "decoded" ]%string = true.
Proof. vm_compute. reflexivity. Qed.

(* szse-bin/src/test/java/com/finproto/szse/bin/messages/Extend200102Test.java:11-24 testEncodeDecode *)
Example szse_Extend200102Test_testEncodeDecode : test_passes
  [ New "original" "szse.Extend200102";
    Call "original" "setStopPx" (Lit (VInt 8));
    Call "original" "setMinQty" (Lit (VInt 8));
    Call "original" "setMaxPriceLevels" (Lit (VInt 2));
    Call "original" "setTimeInForce" (Lit (VStr [49]));
    Call "original" "setCashMargin" (Lit (VStr [49]));
    Encode "original";
    New "decoded" "szse.Extend200102";
    Decode "decoded";
    AssertEquals "original" "decoded" ]%string = true.
Proof. vm_compute. reflexivity. Qed.

(* szse-bin/src/test/java/com/finproto/szse/bin/messages/Extend200115Test.java:11-20 testEncodeDecode *)
Example szse_Extend200115Test_testEncodeDecode : test_passes
  [ New "original" "szse.Extend200115";
    Call "original" "setCashMargin" (Lit (VStr [49]));
    Encode "original";
    New "decoded" "szse.Extend200115";
    Decode "decoded";
    AssertEquals "original" "decoded" ]%string = true.
Proof. vm_compute. reflexivity. Qed.

(* szse-bin/src/test/java/com/finproto/szse/bin/messages/Extend200202Test.java:11-23 testEncodeDecode *)
Example szse_Extend200202Test_testEncodeDecode : test_passes
  [ New "original" "szse.Extend200202";
    Call "original" "setStopPx" (Lit (VInt 8));
    Call "original" "setMinQty" (Lit (VInt 8));
    Call "original" "setMaxPriceLevels" (Lit (VInt 2));
    Call "original" "setTimeInForce" (Lit (VStr [49]));
    Encode "original";
    New "decoded" "szse.Extend200202";
    Decode "decoded";
    AssertEquals "original" "decoded" ]%string = true.
Proof. vm_compute. reflexivity. Qed.

(* szse-bin/src/test/java/com/finproto/szse/bin/messages/Extend200215Test.java:11-20 testEncodeDecode *)
Example szse_Extend200215Test_testEncodeDecode : test_passes
  [ New "original" "szse.Extend200215";
    Call "original" "setMaturityDate" (Lit (VInt 4));
    Encode "original";
    New "decoded" "szse.Extend200215";
    Decode "decoded";
    AssertEquals "original" "decoded" ]%string = true.
Proof. vm_compute. reflexivity. Qed.

(* szse-bin/src/test/java/com/finproto/szse/bin/messages/Extend200302Test.java:11-23 testEncodeDecode *)
Example szse_Extend200302Test_testEncodeDecode : test_passes
  [ New "original" "szse.Extend200302";
    Call "original" "setStopPx" (Lit (VInt 8));
    Call "original" "setMinQty" (Lit (VInt 8));
    Call "original" "setMaxPriceLevels" (Lit (VInt 2));
    Call "original" "setTimeInForce" (Lit (VStr [49]));
    Encode "original";
    New "decoded" "szse.Extend200302";
    Decode "decoded";
    AssertEquals "original" "decoded" ]%string = true.
Proof. vm_compute. reflexivity. Qed.

(* szse-bin/src/test/java/com/finproto/szse/bin/messages/Extend200315Test.java:11-20 testEncodeDecode *)
Example szse_Extend200315Test_testEncodeDecode : test_passes
  [ New "original" "szse.Extend200315";
    Call "original" "setMaturityDate" (Lit (VInt 4));
    Encode "original";
    New "decoded" "szse.Extend200315";
    Decode "decoded";
    AssertEquals "original" "decoded" ]%string = true.
Proof. vm_compute. reflexivity. Qed.

(* szse-bin/src/test/java/com/finproto/szse/bin/messages/Extend200402Test.java:11-27 testEncodeDecode *)
Example szse_Extend200402Test_testEncodeDecode : test_passes
  [ New "original" "szse.Extend200402";
    Call "original" "setStopPx" (Lit (VInt 8));
    Call "original" "setMinQty" (Lit (VInt 8));
    Call "original" "setMaxPriceLevels" (Lit (VInt 2));
    Call "original" "setTimeInForce" (Lit (VStr [49]));
    Call "original" "setPositionEffect" (Lit (VStr [49]));
    Call "original" "setCoveredOrUncovered" (Lit (VInt 1));
    Call "original" "setContractAccountCode" (Lit (VStr [49; 49; 49; 49; 49; 49]));
    Call "original" "setSecondaryOrderId" (Lit (VStr [49; 49; 49; 49; 49; 49; 49; 49; 49; 49; 49; 49; 49; 49; 49; 49]));
    Encode "original";
    New "decoded" "szse.Extend200402";
    Decode "decoded";
    AssertEquals "original" "decoded" ]%string = true.
Proof. vm_compute. reflexivity. Qed.

(* szse-bin/src/test/java/com/finproto/szse/bin/messages/Extend200415Test.java:11-23 testEncodeDecode *)
Example szse_Extend200415Test_testEncodeDecode : test_passes
  [ New "original" "szse.Extend200415";
    Call "original" "setPositionEffect" (Lit (VStr [49]));
    Call "original" "setCoveredOrUncovered" (Lit (VInt 1));
    Call "original" "setContractAccountCode" (Lit (VStr [49; 49; 49; 49; 49; 49]));
    Call "original" "setSecondaryOrderId" (Lit (VStr [49; 49; 49; 49; 49; 49; 49; 49; 49; 49; 49; 49; 49; 49; 49; 49]));
    Encode "original";
    New "decoded" "szse.Extend200415";
    Decode "decoded";
    AssertEquals "original" "decoded" ]%string = true.
Proof. vm_compute. reflexivity. Qed.

(* szse-bin/src/test/java/com/finproto/szse/bin/messages/Extend200502Test.java:11-21 testEncodeDecode *)
Example szse_Extend200502Test_testEncodeDecode : test_passes
  [ New "original" "szse.Extend200502";
    Call "original" "setConfirmId" (Lit (VStr [49; 49; 49; 49; 49; 49; 49; 49]));
    Call "original" "setCashMargin" (Lit (VStr [49]));
    Encode "original";
    New "decoded" "szse.Extend200502";
    Decode "decoded";
    AssertEquals "original" "decoded" ]%string = true.
Proof. vm_compute. reflexivity. Qed.

(* szse-bin/src/test/java/com/finproto/szse/bin/messages/Extend200515Test.java:11-21 testEncodeDecode *)
Example szse_Extend200515Test_testEncodeDecode : test_passes
  [ New "original" "szse.Extend200515";
    Call "original" "setConfirmId" (Lit (VStr [49; 49; 49; 49; 49; 49; 49; 49]));
    Call "original" "setCashMargin" (Lit (VStr [49]));
    Encode "original";
    New "decoded" "szse.Extend200515";
    Decode "decoded";
    AssertEquals "original" "decoded" ]%string = true.
Proof. vm_compute. reflexivity. Qed.

(* szse-bin/src/test/java/com/finproto/szse/bin/messages/Extend200602Test.java:11-20 testEncodeDecode *)
Example szse_Extend200602Test_testEncodeDecode : test_passes
  [ New "original" "szse.Extend200602";
    Call "original" "setCashMargin" (Lit (VStr [49]));
    Encode "original";
    New "decoded" "szse.Extend200602";
    Decode "decoded";
    AssertEquals "original" "decoded" ]%string = true.
Proof. vm_compute. reflexivity. Qed.

(* szse-bin/src/test/java/com/finproto/szse/bin/messages/Extend200615Test.java:11-20 testEncodeDecode *)
Example szse_Extend200615Test_testEncodeDecode : test_passes
  [ New "original" "szse.Extend200615";
    Call "original" "setCashMargin" (Lit (VStr [49]));
    Encode "original";
    New "decoded" "szse.Extend200615";
    Decode "decoded";
    AssertEquals "original" "decoded" ]%string = true.
Proof. vm_compute. reflexivity. Qed.

(* szse-bin/src/test/java/com/finproto/szse/bin/messages/Extend200702Test.java:11-22 testEncodeDecode *)
Example szse_Extend200702Test_testEncodeDecode : test_passes
  [ New "original" "szse.Extend200702";
    Call "original" "setExpirationDays" (Lit (VInt 2));
    Call "original" "setExpirationType" (Lit (VInt 1));
    Call "original" "setShareProperty" (Lit (VStr [49; 49]));
    Encode "original";
    New "decoded" "szse.Extend200702";
    Decode "decoded";
    AssertEquals "original" "decoded" ]%string = true.
Proof. vm_compute. reflexivity. Qed.

(* szse-bin/src/test/java/com/finproto/szse/bin/messages/Extend200715Test.java:11-23 testEncodeDecode *)
Example szse_Extend200715Test_testEncodeDecode : test_passes
  [ New "original" "szse.Extend200715";
    Call "original" "setExpirationDays" (Lit (VInt 2));
    Call "original" "setExpirationType" (Lit (VInt 1));
    Call "original" "setMaturityDate" (Lit (VInt 4));
    Call "original" "setShareProperty" (Lit (VStr [49; 49]));
    Encode "original";
    New "decoded" "szse.Extend200715";
    Decode "decoded";
    AssertEquals "original" "decoded" ]%string = true.
Proof. vm_compute. reflexivity. Qed.

(* szse-bin/src/test/java/com/finproto/szse/bin/messages/Extend201202Test.java:11-25 testEncodeDecode *)
Example szse_Extend201202Test_testEncodeDecode : test_passes
  [ New "original" "szse.Extend201202";
    Call "original" "setInsufficientSecurityId" (Lit (VStr [49; 49; 49; 49; 49; 49; 49; 49]));
    Call "original" "setNoSecurity" (Lit (VInt 4));
    Call "original" "setUnderlyingSecurityId" (Lit (VStr [49; 49; 49; 49; 49; 49; 49; 49]));
    Call "original" "setUnderlyingSecurityIdsource" (Lit (VStr [49; 49; 49; 49]));
    Call "original" "setDeliveryQty" (Lit (VInt 8));
    Call "original" "setSubstCash" (Lit (VInt 8));
    Encode "original";
    New "decoded" "szse.Extend201202";
    Decode "decoded";
    AssertEquals "original" "decoded" ]%string = true.
Proof. vm_compute. reflexivity. Qed.

(* szse-bin/src/test/java/com/finproto/szse/bin/messages/Extend201502Test.java:11-20 testEncodeDecode *)
Example szse_Extend201502Test_testEncodeDecode : test_passes
  [ New "original" "szse.Extend201502";
    Call "original" "setShareProperty" (Lit (VStr [49; 49]));
    Encode "original";
    New "decoded" "szse.Extend201502";
    Decode "decoded";
    AssertEquals "original" "decoded" ]%string = true.
Proof. vm_compute. reflexivity. Qed.

(* szse-bin/src/test/java/com/finproto/szse/bin/messages/Extend201602Test.java:11-20 testEncodeDecode *)
Example szse_Extend201602Test_testEncodeDecode : test_passes
  [ New "original" "szse.Extend201602";
    Call "original" "setContractAccountCode" (Lit (VStr [49; 49; 49; 49; 49; 49]));
    Encode "original";
    New "decoded" "szse.Extend201602";
    Decode "decoded";
    AssertEquals "original" "decoded" ]%string = true.
Proof. vm_compute. reflexivity. Qed.

(* szse-bin/src/test/java/com/finproto/szse/bin/messages/Extend201702Test.java:11-20 testEncodeDecode *)
Example szse_Extend201702Test_testEncodeDecode : test_passes
  [ New "original" "szse.Extend201702";
    Call "original" "setCashOrderQty" (Lit (VInt 8));
    Encode "original";
    New "decoded" "szse.Extend201702";
    Decode "decoded";
    AssertEquals "original" "decoded" ]%string = true.
Proof. vm_compute. reflexivity. Qed.

(* szse-bin/src/test/java/com/finproto/szse/bin/messages/Extend201802Test.java:11-20 testEncodeDecode *)
Example szse_Extend201802Test_testEncodeDecode : test_passes
  [ New "original" "szse.Extend201802";
    Call "original" "setTenderer" (Lit (VStr [49; 49; 49; 49; 49; 49]));
    Encode "original";
    New "decoded" "szse.Extend201802";
    Decode "decoded";
    AssertEquals "original" "decoded" ]%string = true.
Proof. vm_compute. reflexivity. Qed.

(* szse-bin/src/test/java/com/finproto/szse/bin/messages/Extend202702Test.java:11-21 testEncodeDecode *)
Example szse_Extend202702Test_testEncodeDecode : test_passes
  [ New "original" "szse.Extend202702";
    Call "original" "setDisposalPbu" (Lit (VStr [49; 49; 49; 49; 49; 49]));
    Call "original" "setDisposalAccountId" (Lit (VStr [49; 49; 49; 49; 49; 49; 49; 49; 49; 49; 49; 49]));
    Encode "original";
    New "decoded" "szse.Extend202702";
    Decode "decoded";
    AssertEquals "original" "decoded" ]%string = true.
Proof. vm_compute. reflexivity. Qed.

(* szse-bin/src/test/java/com/finproto/szse/bin/messages/Extend202802Test.java:11-21 testEncodeDecode *)
Example szse_Extend202802Test_testEncodeDecode : test_passes
  [ New "original" "szse.Extend202802";
    Call "original" "setLenderPbu" (Lit (VStr [49; 49; 49; 49; 49; 49]));
    Call "original" "setLenderAccountId" (Lit (VStr [49; 49; 49; 49; 49; 49; 49; 49; 49; 49; 49; 49]));
    Encode "original";
    New "decoded" "szse.Extend202802";
    Decode "decoded";
    AssertEquals "original" "decoded" ]%string = true.
Proof. vm_compute. reflexivity. Qed.

(* szse-bin/src/test/java/com/finproto/szse/bin/messages/Extend202902Test.java:11-21 testEncodeDecode *)
Example szse_Extend202902Test_testEncodeDecode : test_passes
  [ New "original" "szse.Extend202902";
    Call "original" "setDeductionPbu" (Lit (VStr [49; 49; 49; 49; 49; 49]));
    Call "original" "setDeductionAccountId" (Lit (VStr [49; 49; 49; 49; 49; 49; 49; 49; 49; 49; 49; 49]));
    Encode "original";
    New "decoded" "szse.Extend202902";
    Decode "decoded";
    AssertEquals "original" "decoded" ]%string = true.
Proof. vm_compute. reflexivity. Qed.

(* szse-bin/src/test/java/com/finproto/szse/bin/messages/Extend203102Test.java:11-24 testEncodeDecode *)
Example szse_Extend203102Test_testEncodeDecode : test_passes
  [ New "original" "szse.Extend203102";
    Call "original" "setInsufficientSecurityId" (Lit (VStr [49; 49; 49; 49; 49; 49; 49; 49]));
    Call "original" "setNoSecurity" (Lit (VInt 4));
    Call "original" "setUnderlyingSecurityId" (Lit (VStr [49; 49; 49; 49; 49; 49; 49; 49]));
    Call "original" "setUnderlyingSecurityIdsource" (Lit (VStr [49; 49; 49; 49]));
    Call "original" "setDeliveryQty" (Lit (VInt 8));
    Encode "original";
    New "decoded" "szse.Extend203102";
    Decode "decoded";
    AssertEquals "original" "decoded" ]%string = true.
Proof. vm_compute. reflexivity. Qed.

(* szse-bin/src/test/java/com/finproto/szse/bin/messages/Extend203502Test.java:11-20 testEncodeDecode *)
Example szse_Extend203502Test_testEncodeDecode : test_passes
  [ New "original" "szse.Extend203502";
    Call "original" "setContractAccountCode" (Lit (VStr [49; 49; 49; 49; 49; 49]));
    Encode "original";
    New "decoded" "szse.Extend203502";
    Decode "decoded";
    AssertEquals "original" "decoded" ]%string = true.
Proof. vm_compute. reflexivity. Qed.

(* szse-bin/src/test/java/com/finproto/szse/bin/messages/Extend203702Test.java:11-20 testEncodeDecode *)
Example szse_Extend203702Test_testEncodeDecode : test_passes
  [ New "original" "szse.Extend203702";
    Call "original" "setCashMargin" (Lit (VStr [49]));
    Encode "original";
    New "decoded" "szse.Extend203702";
    Decode "decoded";
    AssertEquals "original" "decoded" ]%string = true.
Proof. vm_compute. reflexivity. Qed.

(* szse-bin/src/test/java/com/finproto/szse/bin/messages/Extend203715Test.java:11-20 testEncodeDecode *)
Example szse_Extend203715Test_testEncodeDecode : test_passes
  [ New "original" "szse.Extend203715";
    Call "original" "setCashMargin" (Lit (VStr [49]));
    Encode "original";
    New "decoded" "szse.Extend203715";
    Decode "decoded";
    AssertEquals "original" "decoded" ]%string = true.
Proof. vm_compute. reflexivity. Qed.

(* szse-bin/src/test/java/com/finproto/szse/bin/messages/Extend204102Test.java:11-24 testEncodeDecode *)
Example szse_Extend204102Test_testEncodeDecode : test_passes
  [ New "original" "szse.Extend204102";
    Call "original" "setStopPx" (Lit (VInt 8));
    Call "original" "setMinQty" (Lit (VInt 8));
    Call "original" "setMaxPriceLevels" (Lit (VInt 2));
    Call "original" "setTimeInForce" (Lit (VStr [49]));
    Call "original" "setCashMargin" (Lit (VStr [49]));
    Encode "original";
    New "decoded" "szse.Extend204102";
    Decode "decoded";
    AssertEquals "original" "decoded" ]%string = true.
Proof. vm_compute. reflexivity. Qed.

(* szse-bin/src/test/java/com/finproto/szse/bin/messages/Extend204115Test.java:11-28 testEncodeDecode *)
Example szse_Extend204115Test_testEncodeDecode : test_passes
  [ New "original" "szse.Extend204115";
    Call "original" "setCashMargin" (Lit (VStr [49]));
    Call "original" "setSettlType" (Lit (VInt 2));
    Call "original" "setSettlPeriod" (Lit (VInt 1));
    Call "original" "setCounterpartyMemberId" (Lit (VStr [49; 49; 49; 49; 49; 49]));
    Call "original" "setCounterpartyInvestorType" (Lit (VStr [49; 49]));
    Call "original" "setCounterpartyInvestorId" (Lit (VStr [49; 49; 49; 49; 49; 49; 49; 49; 49; 49]));
    Call "original" "setCounterpartyInvestorName" (Lit (VStr [49; 49; 49; 49; 49; 49; 49; 49; 49; 49; 49; 49; 49; 49; 49; 49; 49; 49; 49; 49; 49; 49; 49; 49; 49; 49; 49; 49; 49; 49; 49; 49; 49; 49; 49; 49; 49; 49; 49; 49; 49; 49; 49; 49; 49; 49; 49; 49; 49; 49; 49; 49; 49; 49; 49; 49; 49; 49; 49; 49; 49; 49; 49; 49; 49; 49; 49; 49; 49; 49; 49; 49; 49; 49; 49; 49; 49; 49; 49; 49; 49; 49; 49; 49; 49; 49; 49; 49; 49; 49; 49; 49; 49; 49; 49; 49; 49; 49; 49; 49; 49; 49; 49; 49; 49; 49; 49; 49; 49; 49; 49; 49; 49; 49; 49; 49; 49; 49; 49; 49]));
    Call "original" "setCounterpartyTraderCode" (Lit (VStr [49; 49; 49; 49; 49; 49; 49; 49]));
    Encode "original";
    New "decoded" "szse.Extend204115";
    Decode "decoded";
    AssertEquals "original" "decoded" ]%string = true.
Proof. vm_compute. reflexivity. Qed.

(* szse-bin/src/test/java/com/finproto/szse/bin/messages/Extend204129Test.java:11-38 testEncodeDecode *)
Example szse_Extend204129Test_testEncodeDecode : test_passes
  [ New "original" "szse.Extend204129";
    Call "original" "setMemberId" (Lit (VStr [49; 49; 49; 49; 49; 49]));
    Call "original" "setInvestorType" (Lit (VStr [49; 49]));
    Call "original" "setInvestorId" (Lit (VStr [49; 49; 49; 49; 49; 49; 49; 49; 49; 49]));
    Call "original" "setInvestorName" (Lit (VStr [49; 49; 49; 49; 49; 49; 49; 49; 49; 49; 49; 49; 49; 49; 49; 49; 49; 49; 49; 49; 49; 49; 49; 49; 49; 49; 49; 49; 49; 49; 49; 49; 49; 49; 49; 49; 49; 49; 49; 49; 49; 49; 49; 49; 49; 49; 49; 49; 49; 49; 49; 49; 49; 49; 49; 49; 49; 49; 49; 49; 49; 49; 49; 49; 49; 49; 49; 49; 49; 49; 49; 49; 49; 49; 49; 49; 49; 49; 49; 49; 49; 49; 49; 49; 49; 49; 49; 49; 49; 49; 49; 49; 49; 49; 49; 49; 49; 49; 49; 49; 49; 49; 49; 49; 49; 49; 49; 49; 49; 49; 49; 49; 49; 49; 49; 49; 49; 49; 49; 49]));
    Call "original" "setTraderCode" (Lit (VStr [49; 49; 49; 49; 49; 49; 49; 49]));
    Call "original" "setSecondaryOrderId" (Lit (VStr [49; 49; 49; 49; 49; 49; 49; 49; 49; 49; 49; 49; 49; 49; 49; 49]));
    Call "original" "setBidTransType" (Lit (VInt 2));
    Call "original" "setBidExecInstType" (Lit (VInt 2));
    Call "original" "setLowLimitPrice" (Lit (VInt 8));
    Call "original" "setHighLimitPrice" (Lit (VInt 8));
    Call "original" "setMinQty" (Lit (VInt 8));
    Call "original" "setTradeDate" (Lit (VInt 4));
    Call "original" "setSettlType" (Lit (VInt 2));
    Call "original" "setSettlPeriod" (Lit (VInt 1));
    Call "original" "setPreTradeAnonymity" (Lit (VInt 1));
    Call "original" "setCashMargin" (Lit (VStr [49]));
    Call "original" "setMemo" (Lit (VStr [49; 49; 49; 49; 49; 49; 49; 49; 49; 49; 49; 49; 49; 49; 49; 49; 49; 49; 49; 49; 49; 49; 49; 49; 49; 49; 49; 49; 49; 49; 49; 49; 49; 49; 49; 49; 49; 49; 49; 49; 49; 49; 49; 49; 49; 49; 49; 49; 49; 49; 49; 49; 49; 49; 49; 49; 49; 49; 49; 49; 49; 49; 49; 49; 49; 49; 49; 49; 49; 49; 49; 49; 49; 49; 49; 49; 49; 49; 49; 49; 49; 49; 49; 49; 49; 49; 49; 49; 49; 49; 49; 49; 49; 49; 49; 49; 49; 49; 49; 49; 49; 49; 49; 49; 49; 49; 49; 49; 49; 49; 49; 49; 49; 49; 49; 49; 49; 49; 49; 49; 49; 49; 49; 49; 49; 49; 49; 49; 49; 49; 49; 49; 49; 49; 49; 49; 49; 49; 49; 49; 49; 49; 49; 49; 49; 49; 49; 49; 49; 49; 49; 49; 49; 49; 49; 49; 49; 49; 49; 49]));
    Encode "original";
    New "decoded" "szse.Extend204129";
    Decode "decoded";
    AssertEquals "original" "decoded" ]%string = true.
Proof. vm_compute. reflexivity. Qed.

(* szse-bin/src/test/java/com/finproto/szse/bin/messages/Extend204130Test.java:11-39 testEncodeDecode *)
Example szse_Extend204130Test_testEncodeDecode : test_passes
  [ New "original" "szse.Extend204130";
    Call "original" "setMemberId" (Lit (VStr [49; 49; 49; 49; 49; 49]));
    Call "original" "setInvestorType" (Lit (VStr [49; 49]));
    Call "original" "setInvestorId" (Lit (VStr [49; 49; 49; 49; 49; 49; 49; 49; 49; 49]));
    Call "original" "setInvestorName" (Lit (VStr [49; 49; 49; 49; 49; 49; 49; 49; 49; 49; 49; 49; 49; 49; 49; 49; 49; 49; 49; 49; 49; 49; 49; 49; 49; 49; 49; 49; 49; 49; 49; 49; 49; 49; 49; 49; 49; 49; 49; 49; 49; 49; 49; 49; 49; 49; 49; 49; 49; 49; 49; 49; 49; 49; 49; 49; 49; 49; 49; 49; 49; 49; 49; 49; 49; 49; 49; 49; 49; 49; 49; 49; 49; 49; 49; 49; 49; 49; 49; 49; 49; 49; 49; 49; 49; 49; 49; 49; 49; 49; 49; 49; 49; 49; 49; 49; 49; 49; 49; 49; 49; 49; 49; 49; 49; 49; 49; 49; 49; 49; 49; 49; 49; 49; 49; 49; 49; 49; 49; 49]));
    Call "original" "setTraderCode" (Lit (VStr [49; 49; 49; 49; 49; 49; 49; 49]));
    Call "original" "setCounterpartyMemberId" (Lit (VStr [49; 49; 49; 49; 49; 49]));
    Call "original" "setCounterpartyInvestorType" (Lit (VStr [49; 49]));
    Call "original" "setCounterpartyInvestorId" (Lit (VStr [49; 49; 49; 49; 49; 49; 49; 49; 49; 49]));
    Call "original" "setCounterpartyInvestorName" (Lit (VStr [49; 49; 49; 49; 49; 49; 49; 49; 49; 49; 49; 49; 49; 49; 49; 49; 49; 49; 49; 49; 49; 49; 49; 49; 49; 49; 49; 49; 49; 49; 49; 49; 49; 49; 49; 49; 49; 49; 49; 49; 49; 49; 49; 49; 49; 49; 49; 49; 49; 49; 49; 49; 49; 49; 49; 49; 49; 49; 49; 49; 49; 49; 49; 49; 49; 49; 49; 49; 49; 49; 49; 49; 49; 49; 49; 49; 49; 49; 49; 49; 49; 49; 49; 49; 49; 49; 49; 49; 49; 49; 49; 49; 49; 49; 49; 49; 49; 49; 49; 49; 49; 49; 49; 49; 49; 49; 49; 49; 49; 49; 49; 49; 49; 49; 49; 49; 49; 49; 49; 49]));
    Call "original" "setCounterpartyTraderCode" (Lit (VStr [49; 49; 49; 49; 49; 49; 49; 49]));
    Call "original" "setSecondaryOrderId" (Lit (VStr [49; 49; 49; 49; 49; 49; 49; 49; 49; 49; 49; 49; 49; 49; 49; 49]));
    Call "original" "setBidTransType" (Lit (VInt 2));
    Call "original" "setBidExecInstType" (Lit (VInt 2));
    Call "original" "setSettlType" (Lit (VInt 2));
    Call "original" "setSettlPeriod" (Lit (VInt 1));
    Call "original" "setCashMargin" (Lit (VStr [49]));
    Call "original" "setMemo" (Lit (VStr [49; 49; 49; 49; 49; 49; 49; 49; 49; 49; 49; 49; 49; 49; 49; 49; 49; 49; 49; 49; 49; 49; 49; 49; 49; 49; 49; 49; 49; 49; 49; 49; 49; 49; 49; 49; 49; 49; 49; 49; 49; 49; 49; 49; 49; 49; 49; 49; 49; 49; 49; 49; 49; 49; 49; 49; 49; 49; 49; 49; 49; 49; 49; 49; 49; 49; 49; 49; 49; 49; 49; 49; 49; 49; 49; 49; 49; 49; 49; 49; 49; 49; 49; 49; 49; 49; 49; 49; 49; 49; 49; 49; 49; 49; 49; 49; 49; 49; 49; 49; 49; 49; 49; 49; 49; 49; 49; 49; 49; 49; 49; 49; 49; 49; 49; 49; 49; 49; 49; 49; 49; 49; 49; 49; 49; 49; 49; 49; 49; 49; 49; 49; 49; 49; 49; 49; 49; 49; 49; 49; 49; 49; 49; 49; 49; 49; 49; 49; 49; 49; 49; 49; 49; 49; 49; 49; 49; 49; 49; 49]));
    Encode "original";
    New "decoded" "szse.Extend204130";
    Decode "decoded";
    AssertEquals "original" "decoded" ]%string = true.
Proof. vm_compute. reflexivity. Qed.

(* szse-bin/src/test/java/com/finproto/szse/bin/messages/Extend204702Test.java:11-20 testEncodeDecode *)
Example szse_Extend204702Test_testEncodeDecode : test_passes
  [ New "original" "szse.Extend204702";
    Call "original" "setSecondaryOrderId" (Lit (VStr [49; 49; 49; 49; 49; 49; 49; 49; 49; 49; 49; 49; 49; 49; 49; 49]));
    Encode "original";
    New "decoded" "szse.Extend204702";
    Decode "decoded";
    AssertEquals "original" "decoded" ]%string = true.
Proof. vm_compute. reflexivity. Qed.

(* szse-bin/src/test/java/com/finproto/szse/bin/messages/Extend204715Test.java:11-23 testEncodeDecode *)
Example szse_Extend204715Test_testEncodeDecode : test_passes
  [ New "original" "szse.Extend204715";
    Call "original" "setExpirationDays" (Lit (VInt 2));
    Call "original" "setExpirationType" (Lit (VInt 1));
    Call "original" "setMaturityDate" (Lit (VInt 4));
    Call "original" "setShareProperty" (Lit (VStr [49; 49]));
    Encode "original";
    New "decoded" "szse.Extend204715";
    Decode "decoded";
    AssertEquals "original" "decoded" ]%string = true.
Proof. vm_compute. reflexivity. Qed.

(* szse-bin/src/test/java/com/finproto/szse/bin/messages/Extend206302Test.java:11-27 testEncodeDecode *)
Example szse_Extend206302Test_testEncodeDecode : test_passes
  [ New "original" "szse.Extend206302";
    Call "original" "setRejectText" (Lit (VStr [49; 49; 49; 49; 49; 49; 49; 49; 49; 49; 49; 49; 49; 49; 49; 49]));
    Call "original" "setStopPx" (Lit (VInt 8));
    Call "original" "setMinQty" (Lit (VInt 8));
    Call "original" "setMaxPriceLevels" (Lit (VInt 2));
    Call "original" "setTimeInForce" (Lit (VStr [49]));
    Call "original" "setLotType" (Lit (VStr [49]));
    Call "original" "setImcrejectTextLen" (Lit (VInt 4));
    Call "original" "setImcrejectText" (Lit (VStr [101; 120; 97; 109; 112; 108; 101]));
    Encode "original";
    New "decoded" "szse.Extend206302";
    Decode "decoded";
    AssertEquals "original" "decoded" ]%string = true.
Proof. vm_compute. reflexivity. Qed.

(* szse-bin/src/test/java/com/finproto/szse/bin/messages/Extend206315Test.java:11-20 testEncodeDecode *)
Example szse_Extend206315Test_testEncodeDecode : test_passes
  [ New "original" "szse.Extend206315";
    Call "original" "setCashMargin" (Lit (VStr [49]));
    Encode "original";
    New "decoded" "szse.Extend206315";
    Decode "decoded";
    AssertEquals "original" "decoded" ]%string = true.
Proof. vm_compute. reflexivity. Qed.

(* szse-bin/src/test/java/com/finproto/szse/bin/messages/HeartbeatTest.java:11-19 testEncodeDecode *)
Example szse_HeartbeatTest_testEncodeDecode : test_passes
  [ New "original" "szse.Heartbeat";
    Encode "original";
    New "decoded" "szse.Heartbeat";
    Decode "decoded";
    AssertEquals "original" "decoded" ]%string = true.
Proof. vm_compute. reflexivity. Qed.

(* szse-bin/src/test/java/com/finproto/szse/bin/messages/LogonTest.java:11-24 testEncodeDecode *)
Example szse_LogonTest_testEncodeDecode : test_passes
  [ New "original" "szse.Logon";
    Call "original" "setSenderCompId" (Lit (VStr [49; 49; 49; 49; 49; 49; 49; 49; 49; 49; 49; 49; 49; 49; 49; 49; 49; 49; 49; 49]));
    Call "original" "setTargetCompId" (Lit (VStr [49; 49; 49; 49; 49; 49; 49; 49; 49; 49; 49; 49; 49; 49; 49; 49; 49; 49; 49; 49]));
    Call "original" "setHeartBtint" (Lit (VInt 4));
    Call "original" "setPassword" (Lit (VStr [49; 49; 49; 49; 49; 49; 49; 49; 49; 49; 49; 49; 49; 49; 49; 49]));
    Call "original" "setDefaultApplVerId" (Lit (VStr [49; 49; 49; 49; 49; 49; 49; 49; 49; 49; 49; 49; 49; 49; 49; 49; 49; 49; 49; 49; 49; 49; 49; 49; 49; 49; 49; 49; 49; 49; 49; 49]));
    Encode "original";
    New "decoded" "szse.Logon";
    Decode "decoded";
    AssertEquals "original" "decoded" ]%string = true.
Proof. vm_compute. reflexivity. Qed.

(* szse-bin/src/test/java/com/finproto/szse/bin/messages/LogoutTest.java:11-22 testEncodeDecode *)
Example szse_LogoutTest_testEncodeDecode : test_passes
  [ New "original" "szse.Logout";
    Call "original" "setSessionStatus" (Lit (VInt 4));
    Call "original" "setText" (Lit (VStr [49; 49; 49; 49; 49; 49; 49; 49; 49; 49; 49; 49; 49; 49; 49; 49; 49; 49; 49; 49; 49; 49; 49; 49; 49; 49; 49; 49; 49; 49; 49; 49; 49; 49; 49; 49; 49; 49; 49; 49; 49; 49; 49; 49; 49; 49; 49; 49; 49; 49; 49; 49; 49; 49; 49; 49; 49; 49; 49; 49; 49; 49; 49; 49; 49; 49; 49; 49; 49; 49; 49; 49; 49; 49; 49; 49; 49; 49; 49; 49; 49; 49; 49; 49; 49; 49; 49; 49; 49; 49; 49; 49; 49; 49; 49; 49; 49; 49; 49; 49; 49; 49; 49; 49; 49; 49; 49; 49; 49; 49; 49; 49; 49; 49; 49; 49; 49; 49; 49; 49; 49; 49; 49; 49; 49; 49; 49; 49; 49; 49; 49; 49; 49; 49; 49; 49; 49; 49; 49; 49; 49; 49; 49; 49; 49; 49; 49; 49; 49; 49; 49; 49; 49; 49; 49; 49; 49; 49; 49; 49; 49; 49; 49; 49; 49; 49; 49; 49; 49; 49; 49; 49; 49; 49; 49; 49; 49; 49; 49; 49; 49; 49; 49; 49; 49; 49; 49; 49; 49; 49; 49; 49; 49; 49; 49; 49; 49; 49; 49; 49]));
    Encode "original";
    New "decoded" "szse.Logout";
    Decode "decoded";
    AssertEquals "original" "decoded" ]%string = true.
Proof. vm_compute. reflexivity. Qed.

(* szse-bin/src/test/java/com/finproto/szse/bin/messages/NewOrderTest.java:11-42 testEncodeDecode *)
Example szse_NewOrderTest_testEncodeDecode : test_passes
  [ New "original" "szse.NewOrder";
    Call "original" "setSubmittingPbuid" (Lit (VStr [49; 49; 49; 49; 49; 49]));
    Call "original" "setSecurityId" (Lit (VStr [49; 49; 49; 49; 49; 49; 49; 49]));
    Call "original" "setSecurityIdsource" (Lit (VStr [49; 49; 49; 49]));
    Call "original" "setOwnerType" (Lit (VInt 2));
    Call "original" "setClearingFirm" (Lit (VStr [49; 49]));
    Call "original" "setTransactTime" (Lit (VInt 8));
    Call "original" "setUserInfo" (Lit (VStr [49; 49; 49; 49; 49; 49; 49; 49]));
    Call "original" "setClOrdId" (Lit (VStr [49; 49; 49; 49; 49; 49; 49; 49; 49; 49]));
    Call "original" "setAccountId" (Lit (VStr [49; 49; 49; 49; 49; 49; 49; 49; 49; 49; 49; 49]));
    Call "original" "setBranchId" (Lit (VStr [49; 49; 49; 49]));
    Call "original" "setOrderRestrictions" (Lit (VStr [49; 49; 49; 49]));
    Call "original" "setSide" (Lit (VStr [49]));
    Call "original" "setOrdType" (Lit (VStr [49]));
    Call "original" "setOrderQty" (Lit (VInt 8));
    Call "original" "setPrice" (Lit (VInt 8));
    Call "original" "setApplId" (Lit (VStr [48; 49; 48]));
    New "extend100101" "szse.Extend100101";
    Call "extend100101" "setStopPx" (Lit (VInt 8));
    Call "extend100101" "setMinQty" (Lit (VInt 8));
    Call "extend100101" "setMaxPriceLevels" (Lit (VInt 2));
    Call "extend100101" "setTimeInForce" (Lit (VStr [49]));
    Call "extend100101" "setCashMargin" (Lit (VStr [49]));
    Call "original" "setApplExtend" (Var "extend100101");
    Encode "original";
    New "decoded" "szse.NewOrder";
    Decode "decoded";
    AssertEquals "original" "decoded" ]%string = true.
Proof. vm_compute. reflexivity. Qed.

(* szse-bin/src/test/java/com/finproto/szse/bin/messages/OrderCancelRequestTest.java:11-32 testEncodeDecode *)
Example szse_OrderCancelRequestTest_testEncodeDecode : test_passes
  [ New "original" "szse.OrderCancelRequest";
    Call "original" "setApplId" (Lit (VStr [49; 49; 49]));
    Call "original" "setSubmittingPbuid" (Lit (VStr [49; 49; 49; 49; 49; 49]));
    Call "original" "setSecurityId" (Lit (VStr [49; 49; 49; 49; 49; 49; 49; 49]));
    Call "original" "setSecurityIdsource" (Lit (VStr [49; 49; 49; 49]));
    Call "original" "setOwnerType" (Lit (VInt 2));
    Call "original" "setClearingFirm" (Lit (VStr [49; 49]));
    Call "original" "setTransactTime" (Lit (VInt 8));
    Call "original" "setUserInfo" (Lit (VStr [49; 49; 49; 49; 49; 49; 49; 49]));
    Call "original" "setClOrdId" (Lit (VStr [49; 49; 49; 49; 49; 49; 49; 49; 49; 49]));
    Call "original" "setOrigClOrdId" (Lit (VStr [49; 49; 49; 49; 49; 49; 49; 49; 49; 49]));
    Call "original" "setSide" (Lit (VStr [49]));
    Call "original" "setOrderId" (Lit (VStr [49; 49; 49; 49; 49; 49; 49; 49; 49; 49; 49; 49; 49; 49; 49; 49]));
    Call "original" "setOrderQty" (Lit (VInt 8));
    Encode "original";
    New "decoded" "szse.OrderCancelRequest";
    Decode "decoded";
    AssertEquals "original" "decoded" ]%string = true.
Proof. vm_compute. reflexivity. Qed.

(* szse-bin/src/test/java/com/finproto/szse/bin/messages/PartitionReportTest.java:11-21 testEncodeDecode *)
Example szse_PartitionReportTest_testEncodeDecode : test_passes
  [ New "original" "szse.PartitionReport";
    Call "original" "setPartitionNo" (Lit (VInt 4));
    Call "original" "setReportIndex" (Lit (VInt 8));
    Encode "original";
    New "decoded" "szse.PartitionReport";
    Decode "decoded";
    AssertEquals "original" "decoded" ]%string = true.
Proof. vm_compute. reflexivity. Qed.

(* szse-bin/src/test/java/com/finproto/szse/bin/messages/PlatformInfoTest.java:12-24 testEncodeDecode *)
Example szse_PlatformInfoTest_testEncodeDecode : test_passes
  [ New "original" "szse.PlatformInfo";
    Call "original" "setPlatformId" (Lit (VInt 2));
    New "platformPartition0" "szse.PlatformPartition";
    Call "platformPartition0" "setPartitionNo" (Lit (VInt 4));
    Call "original" "setPlatformPartition" (AsList [(Var "platformPartition0")]);
    Encode "original";
    New "decoded" "szse.PlatformInfo";
    Decode "decoded";
    AssertEquals "original" "decoded" ]%string = true.
Proof. vm_compute. reflexivity. Qed.

(* szse-bin/src/test/java/com/finproto/szse/bin/messages/PlatformPartitionTest.java:11-20 testEncodeDecode *)
Example szse_PlatformPartitionTest_testEncodeDecode : test_passes
  [ New "original" "szse.PlatformPartition";
    Call "original" "setPartitionNo" (Lit (VInt 4));
    Encode "original";
    New "decoded" "szse.PlatformPartition";
    Decode "decoded";
    AssertEquals "original" "decoded" ]%string = true.
Proof. vm_compute. reflexivity. Qed.

(* szse-bin/src/test/java/com/finproto/szse/bin/messages/PlatformStateInfoTest.java:11-21 testEncodeDecode *)
Example szse_PlatformStateInfoTest_testEncodeDecode : test_passes
  [ New "original" "szse.PlatformStateInfo";
    Call "original" "setPlatformId" (Lit (VInt 2));
    Call "original" "setPlatformState" (Lit (VInt 2));
    Encode "original";
    New "decoded" "szse.PlatformStateInfo";
    Decode "decoded";
    AssertEquals "original" "decoded" ]%string = true.
Proof. vm_compute. reflexivity. Qed.

(* szse-bin/src/test/java/com/finproto/szse/bin/messages/ReportFinishedTest.java:11-22 testEncodeDecode *)
Example szse_ReportFinishedTest_testEncodeDecode : test_passes
  [ New "original" "szse.ReportFinished";
    Call "original" "setPartitionNo" (Lit (VInt 4));
    Call "original" "setReportIndex" (Lit (VInt 8));
    Call "original" "setPlatformId" (Lit (VInt 2));
    Encode "original";
    New "decoded" "szse.ReportFinished";
    Decode "decoded";
    AssertEquals "original" "decoded" ]%string = true.
Proof. vm_compute. reflexivity. Qed.

(* szse-bin/src/test/java/com/finproto/szse/bin/messages/ReportSynchronizationTest.java:12-24 testEncodeDecode *)
Example szse_ReportSynchronizationTest_testEncodeDecode : test_passes
  [ New "original" "szse.ReportSynchronization";
    New "partitionReport0" "szse.PartitionReport";
    Call "partitionReport0" "setPartitionNo" (Lit (VInt 4));
    Call "partitionReport0" "setReportIndex" (Lit (VInt 8));
    Call "original" "setPartitionReport" (AsList [(Var "partitionReport0")]);
    Encode "original";
    New "decoded" "szse.ReportSynchronization";
    Decode "decoded";
    AssertEquals "original" "decoded" ]%string = true.
Proof. vm_compute. reflexivity. Qed.

(* szse-bin/src/test/java/com/finproto/szse/bin/messages/SzseBinaryTest.java:11-28 testEncodeDecode *)
Example szse_SzseBinaryTest_testEncodeDecode : test_passes
  [ New "original" "szse.SzseBinary";
    Call "original" "setMsgType" (Lit (VInt 1));
    New "logon" "szse.Logon";
    Call "logon" "setSenderCompId" (Lit (VStr [49; 49; 49; 49; 49; 49; 49; 49; 49; 49; 49; 49; 49; 49; 49; 49; 49; 49; 49; 49]));
    Call "logon" "setTargetCompId" (Lit (VStr [49; 49; 49; 49; 49; 49; 49; 49; 49; 49; 49; 49; 49; 49; 49; 49; 49; 49; 49; 49]));
    Call "logon" "setHeartBtint" (Lit (VInt 4));
    Call "logon" "setPassword" (Lit (VStr [49; 49; 49; 49; 49; 49; 49; 49; 49; 49; 49; 49; 49; 49; 49; 49]));
    Call "logon" "setDefaultApplVerId" (Lit (VStr [49; 49; 49; 49; 49; 49; 49; 49; 49; 49; 49; 49; 49; 49; 49; 49; 49; 49; 49; 49; 49; 49; 49; 49; 49; 49; 49; 49; 49; 49; 49; 49]));
    Call "original" "setBody" (Var "logon");
    Call "original" "setChecksum" (Lit (VInt 4));
    Encode "original";
    New "decoded" "szse.SzseBinary";
    Decode "decoded";
    AssertEquals "original" "decoded" ]%string = true.
Proof. vm_compute. reflexivity. Qed.

(* szse-bin/src/test/java/com/finproto/szse/bin/messages/TradingSessionStatusTest.java:11-26 testEncodeDecode *)
Example szse_TradingSessionStatusTest_testEncodeDecode : test_passes
  [ New "original" "szse.TradingSessionStatus";
    Call "original" "setMarketId" (Lit (VStr [49; 49; 49; 49; 49; 49; 49; 49]));
    Call "original" "setMarketSegmentId" (Lit (VStr [49; 49; 49; 49; 49; 49; 49; 49]));
    Call "original" "setTradingSessionId" (Lit (VStr [49; 49; 49; 49]));
    Call "original" "setTradingSessionSubId" (Lit (VStr [49; 49; 49; 49]));
    Call "original" "setTradSesStatus" (Lit (VInt 2));
    Call "original" "setTradSesStartTime" (Lit (VInt 8));
    Call "original" "setTradSesEndTime" (Lit (VInt 8));
    Encode "original";
    New "decoded" "szse.TradingSessionStatus";
    Decode "decoded";
    AssertEquals "original" "decoded" ]%string = true.
Proof. vm_compute. reflexivity. Qed.
