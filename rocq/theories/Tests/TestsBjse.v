(* GENERATED by tools/testgen.py from the tests of bjse-bin.  Do not edit. *)
From Coq Require Import ZArith List String.
From Verif.Model Require Import Ast.
From Verif.Tests Require Import Script.
Import ListNotations.
Open Scope Z_scope.

(* bjse-bin/src/test/java/com/finproto/bjse/trade/messages/AllegeQuoteExtend070Test.java:11-21 testEncodeDecode *)
Example bjse_AllegeQuoteExtend070Test_testEncodeDecode : test_passes
  [ New "original" "bjse.AllegeQuoteExtend070";
    Call "original" "setCashMargin" (Lit (VStr [49]));
    Call "original" "setCounterPartyPbuid" (Lit (VStr [49; 49; 49; 49; 49; 49]));
    Encode "original";
    New "decoded" "bjse.AllegeQuoteExtend070";
    Decode "decoded";
    AssertEquals "original" "decoded" ]%string = true.
Proof. vm_compute. reflexivity. Qed.

(* bjse-bin/src/test/java/com/finproto/bjse/trade/messages/AllegeQuoteResponseTest.java:11-43 testEncodeDecode *)
Example bjse_AllegeQuoteResponseTest_testEncodeDecode : test_passes
  [ New "original" "bjse.AllegeQuoteResponse";
    Call "original" "setPartitionNo" (Lit (VInt 4));
    Call "original" "setReportIndex" (Lit (VInt 8));
    Call "original" "setApplId" (Lit (VStr [49; 49; 49]));
    Call "original" "setReportingPbuid" (Lit (VStr [49; 49; 49; 49; 49; 49]));
    Call "original" "setSubmittingPbuid" (Lit (VStr [49; 49; 49; 49; 49; 49]));
    Call "original" "setSecurityId" (Lit (VStr [49; 49; 49; 49; 49; 49; 49; 49]));
    Call "original" "setSecurityIdsource" (Lit (VStr [49; 49; 49; 49]));
    Call "original" "setOwnerType" (Lit (VInt 2));
    Call "original" "setClearingFirm" (Lit (VStr [49; 49]));
    Call "original" "setTransactTime" (Lit (VInt 8));
    Call "original" "setUserInfo" (Lit (VStr [49; 49; 49; 49; 49; 49; 49; 49; 49; 49; 49; 49; 49; 49; 49; 49; 49; 49; 49; 49; 49; 49; 49; 49; 49; 49; 49; 49; 49; 49; 49; 49]));
    Call "original" "setOrderId" (Lit (VStr [49; 49; 49; 49; 49; 49; 49; 49; 49; 49; 49; 49; 49; 49; 49; 49]));
    Call "original" "setExecId" (Lit (VStr [49; 49; 49; 49; 49; 49; 49; 49; 49; 49; 49; 49; 49; 49; 49; 49]));
    Call "original" "setClOrdId" (Lit (VStr [49; 49; 49; 49; 49; 49; 49; 49; 49; 49]));
    Call "original" "setAccountId" (Lit (VStr [49; 49; 49; 49; 49; 49; 49; 49; 49; 49]));
    Call "original" "setQuoteId" (Lit (VStr [49; 49; 49; 49; 49; 49; 49; 49; 49; 49]));
    Call "original" "setQuoteRespId" (Lit (VStr [49; 49; 49; 49; 49; 49; 49; 49; 49; 49]));
    Call "original" "setQuoteRespType" (Lit (VInt 1));
    Call "original" "setPrivateQuote" (Lit (VInt 1));
    Call "original" "setOrderQty" (Lit (VInt 8));
    Call "original" "setPrice" (Lit (VInt 8));
    Call "original" "setValidUntilTime" (Lit (VInt 8));
    Call "original" "setQuoteType" (Lit (VInt 1));
    Call "original" "setPriceType" (Lit (VInt 1));
    Encode "original";
    New "decoded" "bjse.AllegeQuoteResponse";
    Decode "decoded";
    AssertEquals "original" "decoded" ]%string = true.
Proof. vm_compute. reflexivity. Qed.

(* bjse-bin/src/test/java/com/finproto/bjse/trade/messages/AllegeQuoteTest.java:11-51 testEncodeDecode *)
Example bjse_AllegeQuoteTest_testEncodeDecode : test_passes
  [ New "original" "bjse.AllegeQuote";
    Call "original" "setPartitionNo" (Lit (VInt 4));
    Call "original" "setReportIndex" (Lit (VInt 8));
    Call "original" "setReportingPbuid" (Lit (VStr [49; 49; 49; 49; 49; 49]));
    Call "original" "setSubmittingPbuid" (Lit (VStr [49; 49; 49; 49; 49; 49]));
    Call "original" "setSecurityId" (Lit (VStr [49; 49; 49; 49; 49; 49; 49; 49]));
    Call "original" "setSecurityIdsource" (Lit (VStr [49; 49; 49; 49]));
    Call "original" "setOwnerType" (Lit (VInt 2));
    Call "original" "setClearingFirm" (Lit (VStr [49; 49]));
    Call "original" "setTransactTime" (Lit (VInt 8));
    Call "original" "setUserInfo" (Lit (VStr [49; 49; 49; 49; 49; 49; 49; 49; 49; 49; 49; 49; 49; 49; 49; 49; 49; 49; 49; 49; 49; 49; 49; 49; 49; 49; 49; 49; 49; 49; 49; 49]));
    Call "original" "setOrderId" (Lit (VStr [49; 49; 49; 49; 49; 49; 49; 49; 49; 49; 49; 49; 49; 49; 49; 49]));
    Call "original" "setExecId" (Lit (VStr [49; 49; 49; 49; 49; 49; 49; 49; 49; 49; 49; 49; 49; 49; 49; 49]));
    Call "original" "setClOrdId" (Lit (VStr [49; 49; 49; 49; 49; 49; 49; 49; 49; 49]));
    Call "original" "setAccountId" (Lit (VStr [49; 49; 49; 49; 49; 49; 49; 49; 49; 49]));
    Call "original" "setQuoteReqId" (Lit (VStr [49; 49; 49; 49; 49; 49; 49; 49; 49; 49]));
    Call "original" "setQuoteId" (Lit (VStr [49; 49; 49; 49; 49; 49; 49; 49; 49; 49]));
    Call "original" "setQuoteRespId" (Lit (VStr [49; 49; 49; 49; 49; 49; 49; 49; 49; 49]));
    Call "original" "setQuoteType" (Lit (VInt 1));
    Call "original" "setBidPx" (Lit (VInt 8));
    Call "original" "setOfferPx" (Lit (VInt 8));
    Call "original" "setBidSize" (Lit (VInt 8));
    Call "original" "setOfferSize" (Lit (VInt 8));
    Call "original" "setPrivateQuote" (Lit (VInt 1));
    Call "original" "setValidUntilTime" (Lit (VInt 8));
    Call "original" "setPriceType" (Lit (VInt 1));
    Call "original" "setMemo" (Lit (VStr [49; 49; 49; 49; 49; 49; 49; 49; 49; 49; 49; 49; 49; 49; 49; 49; 49; 49; 49; 49; 49; 49; 49; 49; 49; 49; 49; 49; 49; 49; 49; 49; 49; 49; 49; 49; 49; 49; 49; 49; 49; 49; 49; 49; 49; 49; 49; 49; 49; 49; 49; 49; 49; 49; 49; 49; 49; 49; 49; 49; 49; 49; 49; 49; 49; 49; 49; 49; 49; 49; 49; 49; 49; 49; 49; 49; 49; 49; 49; 49; 49; 49; 49; 49; 49; 49; 49; 49; 49; 49; 49; 49; 49; 49; 49; 49; 49; 49; 49; 49; 49; 49; 49; 49; 49; 49; 49; 49; 49; 49; 49; 49; 49; 49; 49; 49; 49; 49; 49; 49]));
    Call "original" "setApplId" (Lit (VStr [48; 55; 48]));
    New "allegeQuoteExtend070" "bjse.AllegeQuoteExtend070";
    Call "allegeQuoteExtend070" "setCashMargin" (Lit (VStr [49]));
    Call "allegeQuoteExtend070" "setCounterPartyPbuid" (Lit (VStr [49; 49; 49; 49; 49; 49]));
    Call "original" "setApplExtend" (Var "allegeQuoteExtend070");
    Encode "original";
    New "decoded" "bjse.AllegeQuote";
    Decode "decoded";
    AssertEquals "original" "decoded" ]%string = true.
Proof. vm_compute. reflexivity. Qed.

(* bjse-bin/src/test/java/com/finproto/bjse/trade/messages/BjseBinaryTest.java:11-29 testEncodeDecode *)
Example bjse_BjseBinaryTest_testEncodeDecode : test_passes
  [ New "original" "bjse.BjseBinary";
    Call "original" "setBodyLength" (Lit (VInt 4));
    Call "original" "setMsgType" (Lit (VInt 1));
    New "logon" "bjse.Logon";
    Call "logon" "setSenderCompId" (Lit (VStr [49; 49; 49; 49; 49; 49; 49; 49; 49; 49; 49; 49; 49; 49; 49; 49; 49; 49; 49; 49]));
    Call "logon" "setTargetCompId" (Lit (VStr [49; 49; 49; 49; 49; 49; 49; 49; 49; 49; 49; 49; 49; 49; 49; 49; 49; 49; 49; 49]));
    Call "logon" "setHeartBtInt" (Lit (VInt 4));
    Call "logon" "setPassword" (Lit (VStr [49; 49; 49; 49; 49; 49; 49; 49; 49; 49; 49; 49; 49; 49; 49; 49]));
    Call "logon" "setDefaultApplVerId" (Lit (VStr [49; 49; 49; 49; 49; 49; 49; 49; 49; 49; 49; 49; 49; 49; 49; 49; 49; 49; 49; 49; 49; 49; 49; 49; 49; 49; 49; 49; 49; 49; 49; 49]));
    Call "original" "setBody" (Var "logon");
    Call "original" "setChecksum" (Lit (VInt 4));
    Encode "original";
    New "decoded" "bjse.BjseBinary";
    Decode "decoded";
    AssertEquals "original" "decoded" ]%string = true.
Proof. vm_compute. reflexivity. Qed.

(* bjse-bin/src/test/java/com/finproto/bjse/trade/messages/BusinessRejectTest.java:11-29 testEncodeDecode *)
Example bjse_BusinessRejectTest_testEncodeDecode : test_passes
  [ New "original" "bjse.BusinessReject";
    Call "original" "setApplId" (Lit (VStr [49; 49; 49]));
    Call "original" "setTransactTime" (Lit (VInt 8));
    Call "original" "setSubmittingPbuid" (Lit (VStr [49; 49; 49; 49; 49; 49]));
    Call "original" "setSecurityId" (Lit (VStr [49; 49; 49; 49; 49; 49; 49; 49]));
    Call "original" "setSecurityIdsource" (Lit (VStr [49; 49; 49; 49]));
    Call "original" "setRefSeqNum" (Lit (VInt 8));
    Call "original" "setRefMsgType" (Lit (VInt 4));
    Call "original" "setBusinessRejectRefId" (Lit (VStr [49; 49; 49; 49; 49; 49; 49; 49; 49; 49]));
    Call "original" "setBusinessRejectReason" (Lit (VInt 2));
    Call "original" "setBusinessRejectText" (Lit (VStr [49; 49; 49; 49; 49; 49; 49; 49; 49; 49; 49; 49; 49; 49; 49; 49; 49; 49; 49; 49; 49; 49; 49; 49; 49; 49; 49; 49; 49; 49; 49; 49; 49; 49; 49; 49; 49; 49; 49; 49; 49; 49; 49; 49; 49; 49; 49; 49; 49; 49]));
    Encode "original";
    New "decoded" "bjse.BusinessReject";
    Decode "decoded";
    AssertEquals "original" "decoded" ]%string = true.
Proof. vm_compute. reflexivity. Qed.

(* bjse-bin/src/test/java/com/finproto/bjse/trade/messages/CancelRejectTest.java:11-38 testEncodeDecode *)
Example bjse_CancelRejectTest_testEncodeDecode : test_passes
  [ New "original" "bjse.CancelReject";
    Call "original" "setPartitionNo" (Lit (VInt 4));
    Call "original" "setReportIndex" (Lit (VInt 8));
    Call "original" "setApplId" (Lit (VStr [49; 49; 49]));
    Call "original" "setReportingPbuid" (Lit (VStr [49; 49; 49; 49; 49; 49]));
    Call "original" "setSubmittingPbuid" (Lit (VStr [49; 49; 49; 49; 49; 49]));
    Call "original" "setSecurityId" (Lit (VStr [49; 49; 49; 49; 49; 49; 49; 49]));
    Call "original" "setSecurityIdsource" (Lit (VStr [49; 49; 49; 49]));
    Call "original" "setOwnerType" (Lit (VInt 2));
    Call "original" "setClearingFirm" (Lit (VStr [49; 49]));
    Call "original" "setTransactTime" (Lit (VInt 8));
    Call "original" "setUserInfo" (Lit (VStr [49; 49; 49; 49; 49; 49; 49; 49; 49; 49; 49; 49; 49; 49; 49; 49; 49; 49; 49; 49; 49; 49; 49; 49; 49; 49; 49; 49; 49; 49; 49; 49]));
    Call "original" "setClOrdId" (Lit (VStr [49; 49; 49; 49; 49; 49; 49; 49; 49; 49]));
    Call "original" "setOrigClOrdId" (Lit (VStr [49; 49; 49; 49; 49; 49; 49; 49; 49; 49]));
    Call "original" "setAccountId" (Lit (VStr [49; 49; 49; 49; 49; 49; 49; 49; 49; 49]));
    Call "original" "setBranchId" (Lit (VStr [49; 49]));
    Call "original" "setOrdStatus" (Lit (VStr [49]));
    Call "original" "setCxlRejReason" (Lit (VInt 2));
    Call "original" "setRejectText" (Lit (VStr [49; 49; 49; 49; 49; 49; 49; 49; 49; 49; 49; 49; 49; 49; 49; 49]));
    Call "original" "setOrderId" (Lit (VStr [49; 49; 49; 49; 49; 49; 49; 49; 49; 49; 49; 49; 49; 49; 49; 49]));
    Encode "original";
    New "decoded" "bjse.CancelReject";
    Decode "decoded";
    AssertEquals "original" "decoded" ]%string = true.
Proof. vm_compute. reflexivity. Qed.

(* bjse-bin/src/test/java/com/finproto/bjse/trade/messages/ConfirmExtend010Test.java:11-24 testEncodeDecode *)
Example bjse_ConfirmExtend010Test_testEncodeDecode : test_passes
  [ New "original" "bjse.ConfirmExtend010";
    Call "original" "setStopPx" (Lit (VInt 8));
    Call "original" "setMinQty" (Lit (VInt 8));
    Call "original" "setMaxPriceLevels" (Lit (VInt 2));
    Call "original" "setTimeInForce" (Lit (VStr [49]));
    Call "original" "setCashMargin" (Lit (VStr [49]));
    Encode "original";
    New "decoded" "bjse.ConfirmExtend010";
    Decode "decoded";
    AssertEquals "original" "decoded" ]%string = true.
Proof. vm_compute. reflexivity. Qed.

(* bjse-bin/src/test/java/com/finproto/bjse/trade/messages/ConfirmExtend040Test.java:11-24 testEncodeDecode *)
Example bjse_ConfirmExtend040Test_testEncodeDecode : test_passes
  [ New "original" "bjse.ConfirmExtend040";
    Call "original" "setStopPx" (Lit (VInt 8));
    Call "original" "setMinQty" (Lit (VInt 8));
    Call "original" "setMaxPriceLevels" (Lit (VInt 2));
    Call "original" "setTimeInForce" (Lit (VStr [49]));
    Call "original" "setCashMargin" (Lit (VStr [49]));
    Encode "original";
    New "decoded" "bjse.ConfirmExtend040";
    Decode "decoded";
    AssertEquals "original" "decoded" ]%string = true.
Proof. vm_compute. reflexivity. Qed.

(* bjse-bin/src/test/java/com/finproto/bjse/trade/messages/ConfirmExtend041Test.java:11-19 testEncodeDecode *)
Example bjse_ConfirmExtend041Test_testEncodeDecode : test_passes
  [ New "original" "bjse.ConfirmExtend041";
    Encode "original";
    New "decoded" "bjse.ConfirmExtend041";
    Decode "decoded";
    AssertEquals "original" "decoded" ]%string = true.
Proof. vm_compute. reflexivity. Qed.

(* bjse-bin/src/test/java/com/finproto/bjse/trade/messages/ConfirmExtend042Test.java:11-19 testEncodeDecode *)
Example bjse_ConfirmExtend042Test_testEncodeDecode : test_passes
  [ New "original" "bjse.ConfirmExtend042";
    Encode "original";
    New "decoded" "bjse.ConfirmExtend042";
    Decode "decoded";
    AssertEquals "original" "decoded" ]%string = true.
Proof. vm_compute. reflexivity. Qed.

(* bjse-bin/src/test/java/com/finproto/bjse/trade/messages/ConfirmExtend043Test.java:11-19 testEncodeDecode *)
Example bjse_ConfirmExtend043Test_testEncodeDecode : test_passes
  [ New "original" "bjse.ConfirmExtend043";
    Encode "original";
    New "decoded" "bjse.ConfirmExtend043";
    Decode "decoded";
    AssertEquals "original" "decoded" ]%string = true.
Proof. vm_compute. reflexivity. Qed.

(* bjse-bin/src/test/java/com/finproto/bjse/trade/messages/ConfirmExtend044Test.java:11-19 testEncodeDecode *)
Example bjse_ConfirmExtend044Test_testEncodeDecode : test_passes
  [ New "original" "bjse.ConfirmExtend044";
    Encode "original";
    New "decoded" "bjse.ConfirmExtend044";
    Decode "decoded";
    AssertEquals "original" "decoded" ]%string = true.
Proof. vm_compute. reflexivity. Qed.

(* bjse-bin/src/test/java/com/finproto/bjse/trade/messages/ConfirmExtend045Test.java:11-19 testEncodeDecode *)
Example bjse_ConfirmExtend045Test_testEncodeDecode : test_passes
  [ New "original" "bjse.ConfirmExtend045";
    Encode "original";
    New "decoded" "bjse.ConfirmExtend045";
    Decode "decoded";
    AssertEquals "original" "decoded" ]%string = true.
Proof. vm_compute. reflexivity. Qed.

(* bjse-bin/src/test/java/com/finproto/bjse/trade/messages/ConfirmExtend050Test.java:11-22 testEncodeDecode *)
Example bjse_ConfirmExtend050Test_testEncodeDecode : test_passes
  [ New "original" "bjse.ConfirmExtend050";
    Call "original" "setExpirationDays" (Lit (VInt 2));
    Call "original" "setExpirationType" (Lit (VInt 1));
    Call "original" "setShareProperty" (Lit (VStr [49; 49]));
    Encode "original";
    New "decoded" "bjse.ConfirmExtend050";
    Decode "decoded";
    AssertEquals "original" "decoded" ]%string = true.
Proof. vm_compute. reflexivity. Qed.

(* bjse-bin/src/test/java/com/finproto/bjse/trade/messages/ExecutionConfirmTest.java:11-53 testEncodeDecode *)
Example bjse_ExecutionConfirmTest_testEncodeDecode : test_passes
  [ New "original" "bjse.ExecutionConfirm";
    Call "original" "setPartitionNo" (Lit (VInt 4));
    Call "original" "setReportIndex" (Lit (VInt 8));
    Call "original" "setReportingPbuid" (Lit (VStr [49; 49; 49; 49; 49; 49]));
    Call "original" "setSubmittingPbuid" (Lit (VStr [49; 49; 49; 49; 49; 49]));
    Call "original" "setSecurityId" (Lit (VStr [49; 49; 49; 49; 49; 49; 49; 49]));
    Call "original" "setSecurityIdsource" (Lit (VStr [49; 49; 49; 49]));
    Call "original" "setOwnerType" (Lit (VInt 2));
    Call "original" "setClearingFirm" (Lit (VStr [49; 49]));
    Call "original" "setTransactTime" (Lit (VInt 8));
    Call "original" "setUserInfo" (Lit (VStr [49; 49; 49; 49; 49; 49; 49; 49; 49; 49; 49; 49; 49; 49; 49; 49; 49; 49; 49; 49; 49; 49; 49; 49; 49; 49; 49; 49; 49; 49; 49; 49]));
    Call "original" "setOrderId" (Lit (VStr [49; 49; 49; 49; 49; 49; 49; 49; 49; 49; 49; 49; 49; 49; 49; 49]));
    Call "original" "setClOrdId" (Lit (VStr [49; 49; 49; 49; 49; 49; 49; 49; 49; 49]));
    Call "original" "setOrigClOrdId" (Lit (VStr [49; 49; 49; 49; 49; 49; 49; 49; 49; 49]));
    Call "original" "setExecId" (Lit (VStr [49; 49; 49; 49; 49; 49; 49; 49; 49; 49; 49; 49; 49; 49; 49; 49]));
    Call "original" "setExecType" (Lit (VStr [49]));
    Call "original" "setOrdStatus" (Lit (VStr [49]));
    Call "original" "setOrdRejReason" (Lit (VInt 2));
    Call "original" "setLeavesQty" (Lit (VInt 8));
    Call "original" "setCumQty" (Lit (VInt 8));
    Call "original" "setSide" (Lit (VStr [49]));
    Call "original" "setOrdType" (Lit (VStr [49]));
    Call "original" "setOrderQty" (Lit (VInt 8));
    Call "original" "setPrice" (Lit (VInt 8));
    Call "original" "setAccountId" (Lit (VStr [49; 49; 49; 49; 49; 49; 49; 49; 49; 49]));
    Call "original" "setBranchId" (Lit (VStr [49; 49]));
    Call "original" "setOrderRestrictions" (Lit (VStr [49; 49; 49; 49]));
    Call "original" "setApplId" (Lit (VStr [48; 49; 48]));
    New "confirmExtend010" "bjse.ConfirmExtend010";
    Call "confirmExtend010" "setStopPx" (Lit (VInt 8));
    Call "confirmExtend010" "setMinQty" (Lit (VInt 8));
    Call "confirmExtend010" "setMaxPriceLevels" (Lit (VInt 2));
    Call "confirmExtend010" "setTimeInForce" (Lit (VStr [49]));
    Call "confirmExtend010" "setCashMargin" (Lit (VStr [49]));
    Call "original" "setApplExtend" (Var "confirmExtend010");
    Encode "original";
    New "decoded" "bjse.ExecutionConfirm";
    Decode "decoded";
    AssertEquals "original" "decoded" ]%string = true.
Proof. vm_compute. reflexivity. Qed.

(* bjse-bin/src/test/java/com/finproto/bjse/trade/messages/ExecutionReportTest.java:11-47 testEncodeDecode *)
Example bjse_ExecutionReportTest_testEncodeDecode : test_passes
  [ New "original" "bjse.ExecutionReport";
    Call "original" "setPartitionNo" (Lit (VInt 4));
    Call "original" "setReportIndex" (Lit (VInt 8));
    Call "original" "setReportingPbuid" (Lit (VStr [49; 49; 49; 49; 49; 49]));
    Call "original" "setSubmittingPbuid" (Lit (VStr [49; 49; 49; 49; 49; 49]));
    Call "original" "setSecurityId" (Lit (VStr [49; 49; 49; 49; 49; 49; 49; 49]));
    Call "original" "setSecurityIdsource" (Lit (VStr [49; 49; 49; 49]));
    Call "original" "setOwnerType" (Lit (VInt 2));
    Call "original" "setClearingFirm" (Lit (VStr [49; 49]));
    Call "original" "setTransactTime" (Lit (VInt 8));
    Call "original" "setUserInfo" (Lit (VStr [49; 49; 49; 49; 49; 49; 49; 49; 49; 49; 49; 49; 49; 49; 49; 49; 49; 49; 49; 49; 49; 49; 49; 49; 49; 49; 49; 49; 49; 49; 49; 49]));
    Call "original" "setOrderId" (Lit (VStr [49; 49; 49; 49; 49; 49; 49; 49; 49; 49; 49; 49; 49; 49; 49; 49]));
    Call "original" "setClOrdId" (Lit (VStr [49; 49; 49; 49; 49; 49; 49; 49; 49; 49]));
    Call "original" "setExecId" (Lit (VStr [49; 49; 49; 49; 49; 49; 49; 49; 49; 49; 49; 49; 49; 49; 49; 49]));
    Call "original" "setExecType" (Lit (VStr [49]));
    Call "original" "setOrdStatus" (Lit (VStr [49]));
    Call "original" "setLastPx" (Lit (VInt 8));
    Call "original" "setLastQty" (Lit (VInt 8));
    Call "original" "setLeavesQty" (Lit (VInt 8));
    Call "original" "setCumQty" (Lit (VInt 8));
    Call "original" "setSide" (Lit (VStr [49]));
    Call "original" "setAccountId" (Lit (VStr [49; 49; 49; 49; 49; 49; 49; 49; 49; 49]));
    Call "original" "setBranchId" (Lit (VStr [49; 49]));
    Call "original" "setApplId" (Lit (VStr [48; 49; 48]));
    New "reportExtend010" "bjse.ReportExtend010";
    Call "reportExtend010" "setCashMargin" (Lit (VStr [49]));
    Call "reportExtend010" "setSettlType" (Lit (VStr [49]));
    Call "reportExtend010" "setSettlPeriod" (Lit (VStr [49]));
    Call "original" "setApplExtend" (Var "reportExtend010");
    Encode "original";
    New "decoded" "bjse.ExecutionReport";
    Decode "decoded";
    AssertEquals "original" "decoded" ]%string = true.
Proof. vm_compute. reflexivity. Qed.

(* bjse-bin/src/test/java/com/finproto/bjse/trade/messages/Extend010Test.java:11-26 testEncodeDecode *)
Example bjse_Extend010Test_testEncodeDecode : test_passes
  [ New "original" "bjse.Extend010";
    Call "original" "setStopPx" (Lit (VInt 8));
    Call "original" "setMinQty" (Lit (VInt 8));
    Call "original" "setMaxPriceLevels" (Lit (VInt 2));
    Call "original" "setTimeInForce" (Lit (VInt 1));
    Call "original" "setCashMargin" (Lit (VInt 1));
    Call "original" "setSettlType" (Lit (VInt 1));
    Call "original" "setSettlPeriod" (Lit (VInt 1));
    Encode "original";
    New "decoded" "bjse.Extend010";
    Decode "decoded";
    AssertEquals "original" "decoded" ]%string = true.
Proof. vm_compute. reflexivity. Qed.

(* bjse-bin/src/test/java/com/finproto/bjse/trade/messages/Extend040Test.java:11-24 testEncodeDecode *)
Example bjse_Extend040Test_testEncodeDecode : test_passes
  [ New "original" "bjse.Extend040";
    Call "original" "setStopPx" (Lit (VInt 8));
    Call "original" "setMinQty" (Lit (VInt 8));
    Call "original" "setMaxPriceLevels" (Lit (VInt 2));
    Call "original" "setTimeInForce" (Lit (VInt 1));
    Call "original" "setCashMargin" (Lit (VInt 1));
    Encode "original";
    New "decoded" "bjse.Extend040";
    Decode "decoded";
    AssertEquals "original" "decoded" ]%string = true.
Proof. vm_compute. reflexivity. Qed.

(* bjse-bin/src/test/java/com/finproto/bjse/trade/messages/Extend041Test.java:11-19 testEncodeDecode *)
Example bjse_Extend041Test_testEncodeDecode : test_passes
  [ New "original" "bjse.Extend041";
    Encode "original";
    New "decoded" "bjse.Extend041";
    Decode "decoded";
    AssertEquals "original" "decoded" ]%string = true.
Proof. vm_compute. reflexivity. Qed.

(* bjse-bin/src/test/java/com/finproto/bjse/trade/messages/Extend042Test.java:11-19 testEncodeDecode *)
Example bjse_Extend042Test_testEncodeDecode : test_passes
  [ New "original" "bjse.Extend042";
    Encode "original";
    New "decoded" "bjse.Extend042";
    Decode "decoded";
    AssertEquals "original" "decoded" ]%string = true.
Proof. vm_compute. reflexivity. Qed.

(* bjse-bin/src/test/java/com/finproto/bjse/trade/messages/Extend043Test.java:11-19 testEncodeDecode *)
Example bjse_Extend043Test_testEncodeDecode : test_passes
  [ New "original" "bjse.Extend043";
    Encode "original";
    New "decoded" "bjse.Extend043";
    Decode "decoded";
    AssertEquals "original" "decoded" ]%string = true.
Proof. vm_compute. reflexivity. Qed.

(* bjse-bin/src/test/java/com/finproto/bjse/trade/messages/Extend044Test.java:11-19 testEncodeDecode *)
Example bjse_Extend044Test_testEncodeDecode : test_passes
  [ New "original" "bjse.Extend044";
    Encode "original";
    New "decoded" "bjse.Extend044";
    Decode "decoded";
    AssertEquals "original" "decoded" ]%string = true.
Proof. vm_compute. reflexivity. Qed.

(* bjse-bin/src/test/java/com/finproto/bjse/trade/messages/Extend045Test.java:11-19 testEncodeDecode *)
Example bjse_Extend045Test_testEncodeDecode : test_passes
  [ New "original" "bjse.Extend045";
    Encode "original";
    New "decoded" "bjse.Extend045";
    Decode "decoded";
    AssertEquals "original" "decoded" ]%string = true.
Proof. vm_compute. reflexivity. Qed.

(* bjse-bin/src/test/java/com/finproto/bjse/trade/messages/Extend050Test.java:11-22 testEncodeDecode *)
Example bjse_Extend050Test_testEncodeDecode : test_passes
  [ New "original" "bjse.Extend050";
    Call "original" "setExpirationDays" (Lit (VInt 2));
    Call "original" "setExpirationType" (Lit (VInt 1));
    Call "original" "setShareProperty" (Lit (VStr [49; 49]));
    Encode "original";
    New "decoded" "bjse.Extend050";
    Decode "decoded";
    AssertEquals "original" "decoded" ]%string = true.
Proof. vm_compute. reflexivity. Qed.

(* bjse-bin/src/test/java/com/finproto/bjse/trade/messages/ExtendNewOrder010Test.java:11-26 testEncodeDecode *)
Example bjse_ExtendNewOrder010Test_testEncodeDecode : test_passes
  [ New "original" "bjse.ExtendNewOrder010";
    Call "original" "setStopPx" (Lit (VInt 8));
    Call "original" "setMinQty" (Lit (VInt 8));
    Call "original" "setMaxPriceLevels" (Lit (VInt 2));
    Call "original" "setTimeInForce" (Lit (VStr [49]));
    Call "original" "setCashMargin" (Lit (VStr [49]));
    Call "original" "setSettlType" (Lit (VStr [49]));
    Call "original" "setSettlPeriod" (Lit (VStr [49]));
    Encode "original";
    New "decoded" "bjse.ExtendNewOrder010";
    Decode "decoded";
    AssertEquals "original" "decoded" ]%string = true.
Proof. vm_compute. reflexivity. Qed.

(* bjse-bin/src/test/java/com/finproto/bjse/trade/messages/ExtendNewOrder040Test.java:11-24 testEncodeDecode *)
Example bjse_ExtendNewOrder040Test_testEncodeDecode : test_passes
  [ New "original" "bjse.ExtendNewOrder040";
    Call "original" "setStopPx" (Lit (VInt 8));
    Call "original" "setMinQty" (Lit (VInt 8));
    Call "original" "setMaxPriceLevels" (Lit (VInt 2));
    Call "original" "setTimeInForce" (Lit (VStr [49]));
    Call "original" "setCashMargin" (Lit (VStr [49]));
    Encode "original";
    New "decoded" "bjse.ExtendNewOrder040";
    Decode "decoded";
    AssertEquals "original" "decoded" ]%string = true.
Proof. vm_compute. reflexivity. Qed.

(* bjse-bin/src/test/java/com/finproto/bjse/trade/messages/ExtendNewOrder041Test.java:11-19 testEncodeDecode *)
Example bjse_ExtendNewOrder041Test_testEncodeDecode : test_passes
  [ New "original" "bjse.ExtendNewOrder041";
    Encode "original";
    New "decoded" "bjse.ExtendNewOrder041";
    Decode "decoded";
    AssertEquals "original" "decoded" ]%string = true.
Proof. vm_compute. reflexivity. Qed.

(* bjse-bin/src/test/java/com/finproto/bjse/trade/messages/ExtendNewOrder042Test.java:11-19 testEncodeDecode *)
Example bjse_ExtendNewOrder042Test_testEncodeDecode : test_passes
  [ New "original" "bjse.ExtendNewOrder042";
    Encode "original";
    New "decoded" "bjse.ExtendNewOrder042";
    Decode "decoded";
    AssertEquals "original" "decoded" ]%string = true.
Proof. vm_compute. reflexivity. Qed.

(* bjse-bin/src/test/java/com/finproto/bjse/trade/messages/ExtendNewOrder043Test.java:11-19 testEncodeDecode *)
Example bjse_ExtendNewOrder043Test_testEncodeDecode : test_passes
  [ New "original" "bjse.ExtendNewOrder043";
    Encode "original";
    New "decoded" "bjse.ExtendNewOrder043";
    Decode "decoded";
    AssertEquals "original" "decoded" ]%string = true.
Proof. vm_compute. reflexivity. Qed.

(* bjse-bin/src/test/java/com/finproto/bjse/trade/messages/ExtendNewOrder044Test.java:11-19 testEncodeDecode *)
Example bjse_ExtendNewOrder044Test_testEncodeDecode : test_passes
  [ New "original" "bjse.ExtendNewOrder044";
    Encode "original";
    New "decoded" "bjse.ExtendNewOrder044";
    Decode "decoded";
    AssertEquals "original" "decoded" ]%string = true.
Proof. vm_compute. reflexivity. Qed.

(* bjse-bin/src/test/java/com/finproto/bjse/trade/messages/ExtendNewOrder045Test.java:11-19 testEncodeDecode *)
Example bjse_ExtendNewOrder045Test_testEncodeDecode : test_passes
  [ New "original" "bjse.ExtendNewOrder045";
    Encode "original";
    New "decoded" "bjse.ExtendNewOrder045";
    Decode "decoded";
    AssertEquals "original" "decoded" ]%string = true.
Proof. vm_compute. reflexivity. Qed.

(* bjse-bin/src/test/java/com/finproto/bjse/trade/messages/ExtendNewOrder050Test.java:11-22 testEncodeDecode *)
Example bjse_ExtendNewOrder050Test_testEncodeDecode : test_passes
  [ New "original" "bjse.ExtendNewOrder050";
    Call "original" "setExpirationDays" (Lit (VInt 2));
    Call "original" "setExpirationType" (Lit (VInt 1));
    Call "original" "setShareProperty" (Lit (VStr [49; 49]));
    Encode "original";
    New "decoded" "bjse.ExtendNewOrder050";
    Decode "decoded";
    AssertEquals "original" "decoded" ]%string = true.
Proof. vm_compute. reflexivity. Qed.

(* bjse-bin/src/test/java/com/finproto/bjse/trade/messages/HeartbeatTest.java:11-19 testEncodeDecode *)
Example bjse_HeartbeatTest_testEncodeDecode : test_passes
  [ New "original" "bjse.Heartbeat";
    Encode "original";
    New "decoded" "bjse.Heartbeat";
    Decode "decoded";
    AssertEquals "original" "decoded" ]%string = true.
Proof. vm_compute. reflexivity. Qed.

(* bjse-bin/src/test/java/com/finproto/bjse/trade/messages/LogonTest.java:11-24 testEncodeDecode *)
Example bjse_LogonTest_testEncodeDecode : test_passes
  [ New "original" "bjse.Logon";
    Call "original" "setSenderCompId" (Lit (VStr [49; 49; 49; 49; 49; 49; 49; 49; 49; 49; 49; 49; 49; 49; 49; 49; 49; 49; 49; 49]));
    Call "original" "setTargetCompId" (Lit (VStr [49; 49; 49; 49; 49; 49; 49; 49; 49; 49; 49; 49; 49; 49; 49; 49; 49; 49; 49; 49]));
    Call "original" "setHeartBtInt" (Lit (VInt 4));
    Call "original" "setPassword" (Lit (VStr [49; 49; 49; 49; 49; 49; 49; 49; 49; 49; 49; 49; 49; 49; 49; 49]));
    Call "original" "setDefaultApplVerId" (Lit (VStr [49; 49; 49; 49; 49; 49; 49; 49; 49; 49; 49; 49; 49; 49; 49; 49; 49; 49; 49; 49; 49; 49; 49; 49; 49; 49; 49; 49; 49; 49; 49; 49]));
    Encode "original";
    New "decoded" "bjse.Logon";
    Decode "decoded";
    AssertEquals "original" "decoded" ]%string = true.
Proof. vm_compute. reflexivity. Qed.

(* bjse-bin/src/test/java/com/finproto/bjse/trade/messages/LogoutTest.java:11-22 testEncodeDecode *)
Example bjse_LogoutTest_testEncodeDecode : test_passes
  [ New "original" "bjse.Logout";
    Call "original" "setSessionStatus" (Lit (VInt 4));
    Call "original" "setText" (Lit (VStr [49; 49; 49; 49; 49; 49; 49; 49; 49; 49; 49; 49; 49; 49; 49; 49; 49; 49; 49; 49; 49; 49; 49; 49; 49; 49; 49; 49; 49; 49; 49; 49; 49; 49; 49; 49; 49; 49; 49; 49; 49; 49; 49; 49; 49; 49; 49; 49; 49; 49; 49; 49; 49; 49; 49; 49; 49; 49; 49; 49; 49; 49; 49; 49; 49; 49; 49; 49; 49; 49; 49; 49; 49; 49; 49; 49; 49; 49; 49; 49; 49; 49; 49; 49; 49; 49; 49; 49; 49; 49; 49; 49; 49; 49; 49; 49; 49; 49; 49; 49; 49; 49; 49; 49; 49; 49; 49; 49; 49; 49; 49; 49; 49; 49; 49; 49; 49; 49; 49; 49; 49; 49; 49; 49; 49; 49; 49; 49; 49; 49; 49; 49; 49; 49; 49; 49; 49; 49; 49; 49; 49; 49; 49; 49; 49; 49; 49; 49; 49; 49; 49; 49; 49; 49; 49; 49; 49; 49; 49; 49; 49; 49; 49; 49; 49; 49; 49; 49; 49; 49; 49; 49; 49; 49; 49; 49; 49; 49; 49; 49; 49; 49; 49; 49; 49; 49; 49; 49; 49; 49; 49; 49; 49; 49; 49; 49; 49; 49; 49; 49]));
    Encode "original";
    New "decoded" "bjse.Logout";
    Decode "decoded";
    AssertEquals "original" "decoded" ]%string = true.
Proof. vm_compute. reflexivity. Qed.

(* bjse-bin/src/test/java/com/finproto/bjse/trade/messages/NewOrderTest.java:11-44 testEncodeDecode *)
Example bjse_NewOrderTest_testEncodeDecode : test_passes
  [ New "original" "bjse.NewOrder";
    Call "original" "setSubmittingPbuid" (Lit (VStr [49; 49; 49; 49; 49; 49]));
    Call "original" "setSecurityId" (Lit (VStr [49; 49; 49; 49; 49; 49; 49; 49]));
    Call "original" "setSecurityIdsource" (Lit (VStr [49; 49; 49; 49]));
    Call "original" "setOwnerType" (Lit (VInt 2));
    Call "original" "setClearingFirm" (Lit (VStr [49; 49]));
    Call "original" "setTransactTime" (Lit (VInt 8));
    Call "original" "setUserInfo" (Lit (VStr [49; 49; 49; 49; 49; 49; 49; 49; 49; 49; 49; 49; 49; 49; 49; 49; 49; 49; 49; 49; 49; 49; 49; 49; 49; 49; 49; 49; 49; 49; 49; 49]));
    Call "original" "setClOrdId" (Lit (VStr [49; 49; 49; 49; 49; 49; 49; 49; 49; 49]));
    Call "original" "setAccountId" (Lit (VStr [49; 49; 49; 49; 49; 49; 49; 49; 49; 49]));
    Call "original" "setBranchId" (Lit (VStr [49; 49]));
    Call "original" "setOrderRestrictions" (Lit (VStr [49; 49; 49; 49]));
    Call "original" "setSide" (Lit (VStr [49]));
    Call "original" "setOrdType" (Lit (VStr [49]));
    Call "original" "setOrderQty" (Lit (VInt 8));
    Call "original" "setPrice" (Lit (VInt 8));
    Call "original" "setApplId" (Lit (VStr [48; 49; 48]));
    New "extendNewOrder010" "bjse.ExtendNewOrder010";
    Call "extendNewOrder010" "setStopPx" (Lit (VInt 8));
    Call "extendNewOrder010" "setMinQty" (Lit (VInt 8));
    Call "extendNewOrder010" "setMaxPriceLevels" (Lit (VInt 2));
    Call "extendNewOrder010" "setTimeInForce" (Lit (VStr [49]));
    Call "extendNewOrder010" "setCashMargin" (Lit (VStr [49]));
    Call "extendNewOrder010" "setSettlType" (Lit (VStr [49]));
    Call "extendNewOrder010" "setSettlPeriod" (Lit (VStr [49]));
    Call "original" "setApplExtend" (Var "extendNewOrder010");
    Encode "original";
    New "decoded" "bjse.NewOrder";
    Decode "decoded";
    AssertEquals "original" "decoded" ]%string = true.
Proof. vm_compute. reflexivity. Qed.

(* bjse-bin/src/test/java/com/finproto/bjse/trade/messages/OrderCancelRequestTest.java:11-33 testEncodeDecode *)
Example bjse_OrderCancelRequestTest_testEncodeDecode : test_passes
  [ New "original" "bjse.OrderCancelRequest";
    Call "original" "setApplId" (Lit (VStr [49; 49; 49]));
    Call "original" "setSubmittingPbuid" (Lit (VStr [49; 49; 49; 49; 49; 49]));
    Call "original" "setSecurityId" (Lit (VStr [49; 49; 49; 49; 49; 49; 49; 49]));
    Call "original" "setSecurityIdsource" (Lit (VStr [49; 49; 49; 49]));
    Call "original" "setOwnerType" (Lit (VInt 2));
    Call "original" "setClearingFirm" (Lit (VStr [49; 49]));
    Call "original" "setTransactTime" (Lit (VInt 8));
    Call "original" "setUserInfo" (Lit (VStr [49; 49; 49; 49; 49; 49; 49; 49; 49; 49; 49; 49; 49; 49; 49; 49; 49; 49; 49; 49; 49; 49; 49; 49; 49; 49; 49; 49; 49; 49; 49; 49]));
    Call "original" "setClOrdId" (Lit (VStr [49; 49; 49; 49; 49; 49; 49; 49; 49; 49]));
    Call "original" "setOrigClOrdId" (Lit (VStr [49; 49; 49; 49; 49; 49; 49; 49; 49; 49]));
    Call "original" "setAccountId" (Lit (VStr [49; 49; 49; 49; 49; 49; 49; 49; 49; 49]));
    Call "original" "setBranchId" (Lit (VStr [49; 49]));
    Call "original" "setOrderId" (Lit (VStr [49; 49; 49; 49; 49; 49; 49; 49; 49; 49; 49; 49; 49; 49; 49; 49]));
    Call "original" "setOrderQty" (Lit (VInt 8));
    Encode "original";
    New "decoded" "bjse.OrderCancelRequest";
    Decode "decoded";
    AssertEquals "original" "decoded" ]%string = true.
Proof. vm_compute. reflexivity. Qed.

(* bjse-bin/src/test/java/com/finproto/bjse/trade/messages/PlatformInfoTest.java:12-25 testEncodeDecode *)
Example bjse_PlatformInfoTest_testEncodeDecode : test_passes
  [ New "original" "bjse.PlatformInfo";
    Call "original" "setPlatformId" (Lit (VInt 2));
    New "noPartitions" "bjse.PlatformInfo.NoPartitions";
    Call "noPartitions" "setPartitionNo" (Lit (VInt 4));
    Call "noPartitions" "setPartitionName" (Lit (VStr [49; 49; 49; 49; 49; 49; 49; 49; 49; 49; 49; 49; 49; 49; 49; 49; 49; 49; 49; 49]));
    Call "original" "setNoPartitions" (AsList [(Var "noPartitions")]);
    Encode "original";
    New "decoded" "bjse.PlatformInfo";
    Decode "decoded";
    AssertEquals "original" "decoded" ]%string = true.
Proof. vm_compute. reflexivity. Qed.

(* bjse-bin/src/test/java/com/finproto/bjse/trade/messages/PlatformStateInfoTest.java:11-21 testEncodeDecode *)
Example bjse_PlatformStateInfoTest_testEncodeDecode : test_passes
  [ New "original" "bjse.PlatformStateInfo";
    Call "original" "setPlatformId" (Lit (VInt 2));
    Call "original" "setPlatformState" (Lit (VInt 2));
    Encode "original";
    New "decoded" "bjse.PlatformStateInfo";
    Decode "decoded";
    AssertEquals "original" "decoded" ]%string = true.
Proof. vm_compute. reflexivity. Qed.

(* bjse-bin/src/test/java/com/finproto/bjse/trade/messages/QuoteExtend070Test.java:11-29 testEncodeDecode *)
Example bjse_QuoteExtend070Test_testEncodeDecode : test_passes
  [ New "original" "bjse.QuoteExtend070";
    Call "original" "setBranchId" (Lit (VStr [49; 49]));
    Call "original" "setQuoteId" (Lit (VStr [49; 49; 49; 49; 49; 49; 49; 49; 49; 49]));
    Call "original" "setQuoteRespId" (Lit (VStr [49; 49; 49; 49; 49; 49; 49; 49; 49; 49]));
    Call "original" "setPrivateQuote" (Lit (VInt 1));
    Call "original" "setValidUntilTime" (Lit (VInt 8));
    Call "original" "setPriceType" (Lit (VInt 1));
    Call "original" "setCashMargin" (Lit (VStr [49]));
    Call "original" "setCounterPartyPbuid" (Lit (VStr [49; 49; 49; 49; 49; 49]));
    Call "original" "setMemo" (Lit (VStr [49; 49; 49; 49; 49; 49; 49; 49; 49; 49; 49; 49; 49; 49; 49; 49; 49; 49; 49; 49; 49; 49; 49; 49; 49; 49; 49; 49; 49; 49; 49; 49; 49; 49; 49; 49; 49; 49; 49; 49; 49; 49; 49; 49; 49; 49; 49; 49; 49; 49; 49; 49; 49; 49; 49; 49; 49; 49; 49; 49; 49; 49; 49; 49; 49; 49; 49; 49; 49; 49; 49; 49; 49; 49; 49; 49; 49; 49; 49; 49; 49; 49; 49; 49; 49; 49; 49; 49; 49; 49; 49; 49; 49; 49; 49; 49; 49; 49; 49; 49; 49; 49; 49; 49; 49; 49; 49; 49; 49; 49; 49; 49; 49; 49; 49; 49; 49; 49; 49; 49]));
    Encode "original";
    New "decoded" "bjse.QuoteExtend070";
    Decode "decoded";
    AssertEquals "original" "decoded" ]%string = true.
Proof. vm_compute. reflexivity. Qed.

(* bjse-bin/src/test/java/com/finproto/bjse/trade/messages/QuoteExtend071Test.java:11-19 testEncodeDecode *)
Example bjse_QuoteExtend071Test_testEncodeDecode : test_passes
  [ New "original" "bjse.QuoteExtend071";
    Encode "original";
    New "decoded" "bjse.QuoteExtend071";
    Decode "decoded";
    AssertEquals "original" "decoded" ]%string = true.
Proof. vm_compute. reflexivity. Qed.

(* bjse-bin/src/test/java/com/finproto/bjse/trade/messages/QuoteResponseExtend070Test.java:11-20 testEncodeDecode *)
Example bjse_QuoteResponseExtend070Test_testEncodeDecode : test_passes
  [ New "original" "bjse.QuoteResponseExtend070";
    Call "original" "setCashMargin" (Lit (VStr [49]));
    Encode "original";
    New "decoded" "bjse.QuoteResponseExtend070";
    Decode "decoded";
    AssertEquals "original" "decoded" ]%string = true.
Proof. vm_compute. reflexivity. Qed.

(* bjse-bin/src/test/java/com/finproto/bjse/trade/messages/QuoteResponseTest.java:12-46 testEncodeDecode *)
Example bjse_QuoteResponseTest_testEncodeDecode : test_passes
  [ New "original" "bjse.QuoteResponse";
    Call "original" "setReportingPbuid" (Lit (VStr [49; 49; 49; 49; 49; 49]));
    Call "original" "setSubmittingPbuid" (Lit (VStr [49; 49; 49; 49; 49; 49]));
    Call "original" "setSecurityId" (Lit (VStr [49; 49; 49; 49; 49; 49; 49; 49]));
    Call "original" "setSecurityIdsource" (Lit (VStr [49; 49; 49; 49]));
    Call "original" "setOwnerType" (Lit (VInt 2));
    Call "original" "setClearingFirm" (Lit (VStr [49; 49]));
    Call "original" "setTransactTime" (Lit (VInt 8));
    Call "original" "setUserInfo" (Lit (VStr [49; 49; 49; 49; 49; 49; 49; 49; 49; 49; 49; 49; 49; 49; 49; 49; 49; 49; 49; 49; 49; 49; 49; 49; 49; 49; 49; 49; 49; 49; 49; 49]));
    Call "original" "setClOrdId" (Lit (VStr [49; 49; 49; 49; 49; 49; 49; 49; 49; 49]));
    Call "original" "setAccountId" (Lit (VStr [49; 49; 49; 49; 49; 49; 49; 49; 49; 49]));
    Call "original" "setBranchId" (Lit (VStr [49; 49]));
    Call "original" "setQuoteRespId" (Lit (VStr [49; 49; 49; 49; 49; 49; 49; 49; 49; 49]));
    Call "original" "setQuoteRespType" (Lit (VInt 1));
    Call "original" "setSide" (Lit (VStr [49]));
    Call "original" "setValidUntilTime" (Lit (VInt 8));
    Call "original" "setQuoteType" (Lit (VInt 1));
    Call "original" "setPriceType" (Lit (VInt 1));
    New "quote2" "bjse.QuoteResponse.Quote2";
    Call "quote2" "setQuoteId" (Lit (VStr [49; 49; 49; 49; 49; 49; 49; 49; 49; 49]));
    Call "quote2" "setQuotePrice" (Lit (VInt 8));
    Call "quote2" "setQuoteQty" (Lit (VInt 8));
    Call "original" "setQuote2" (AsList [(Var "quote2")]);
    Call "original" "setApplId" (Lit (VStr [48; 55; 48]));
    New "quoteResponseExtend070" "bjse.QuoteResponseExtend070";
    Call "quoteResponseExtend070" "setCashMargin" (Lit (VStr [49]));
    Call "original" "setApplExtend" (Var "quoteResponseExtend070");
    Encode "original";
    New "decoded" "bjse.QuoteResponse";
    Decode "decoded";
    AssertEquals "original" "decoded" ]%string = true.
Proof. vm_compute. reflexivity. Qed.

(* bjse-bin/src/test/java/com/finproto/bjse/trade/messages/QuoteStatusReportExtend070Test.java:12-37 testEncodeDecode *)
Example bjse_QuoteStatusReportExtend070Test_testEncodeDecode : test_passes
  [ New "original" "bjse.QuoteStatusReportExtend070";
    Call "original" "setBranchId" (Lit (VStr [49; 49]));
    Call "original" "setOrderId" (Lit (VStr [49; 49; 49; 49; 49; 49; 49; 49; 49; 49; 49; 49; 49; 49; 49; 49]));
    Call "original" "setExecId" (Lit (VStr [49; 49; 49; 49; 49; 49; 49; 49; 49; 49; 49; 49; 49; 49; 49; 49]));
    Call "original" "setQuoteRespId" (Lit (VStr [49; 49; 49; 49; 49; 49; 49; 49; 49; 49]));
    Call "original" "setPrivateQuote" (Lit (VInt 1));
    Call "original" "setSide" (Lit (VStr [49]));
    Call "original" "setPriceType" (Lit (VInt 1));
    Call "original" "setValidUntilTime" (Lit (VInt 8));
    Call "original" "setCashMargin" (Lit (VStr [49]));
    Call "original" "setCounterPartyPbuid" (Lit (VStr [49; 49; 49; 49; 49; 49]));
    Call "original" "setMemo" (Lit (VStr [49; 49; 49; 49; 49; 49; 49; 49; 49; 49; 49; 49; 49; 49; 49; 49; 49; 49; 49; 49; 49; 49; 49; 49; 49; 49; 49; 49; 49; 49; 49; 49; 49; 49; 49; 49; 49; 49; 49; 49; 49; 49; 49; 49; 49; 49; 49; 49; 49; 49; 49; 49; 49; 49; 49; 49; 49; 49; 49; 49; 49; 49; 49; 49; 49; 49; 49; 49; 49; 49; 49; 49; 49; 49; 49; 49; 49; 49; 49; 49; 49; 49; 49; 49; 49; 49; 49; 49; 49; 49; 49; 49; 49; 49; 49; 49; 49; 49; 49; 49; 49; 49; 49; 49; 49; 49; 49; 49; 49; 49; 49; 49; 49; 49; 49; 49; 49; 49; 49; 49]));
    New "quote1" "bjse.QuoteStatusReportExtend070.Quote1";
    Call "quote1" "setQuoteId" (Lit (VStr [49; 49; 49; 49; 49; 49; 49; 49; 49; 49]));
    Call "quote1" "setQuotePrice" (Lit (VInt 8));
    Call "quote1" "setQuoteQty" (Lit (VInt 8));
    Call "original" "setQuote1" (AsList [(Var "quote1")]);
    Encode "original";
    New "decoded" "bjse.QuoteStatusReportExtend070";
    Decode "decoded";
    AssertEquals "original" "decoded" ]%string = true.
Proof. vm_compute. reflexivity. Qed.

(* bjse-bin/src/test/java/com/finproto/bjse/trade/messages/QuoteStatusReportTest.java:12-59 testEncodeDecode *)
Example bjse_QuoteStatusReportTest_testEncodeDecode : test_passes
  [ New "original" "bjse.QuoteStatusReport";
    Call "original" "setPartitionNo" (Lit (VInt 4));
    Call "original" "setReportIndex" (Lit (VInt 8));
    Call "original" "setReportingPbuid" (Lit (VStr [49; 49; 49; 49; 49; 49]));
    Call "original" "setSubmittingPbuid" (Lit (VStr [49; 49; 49; 49; 49; 49]));
    Call "original" "setSecurityId" (Lit (VStr [49; 49; 49; 49; 49; 49; 49; 49]));
    Call "original" "setSecurityIdsource" (Lit (VStr [49; 49; 49; 49]));
    Call "original" "setOwnerType" (Lit (VInt 2));
    Call "original" "setClearingFirm" (Lit (VStr [49; 49]));
    Call "original" "setTransactTime" (Lit (VInt 8));
    Call "original" "setUserInfo" (Lit (VStr [49; 49; 49; 49; 49; 49; 49; 49; 49; 49; 49; 49; 49; 49; 49; 49; 49; 49; 49; 49; 49; 49; 49; 49; 49; 49; 49; 49; 49; 49; 49; 49]));
    Call "original" "setQuoteMsgId" (Lit (VStr [49; 49; 49; 49; 49; 49; 49; 49; 49; 49]));
    Call "original" "setAccountId" (Lit (VStr [49; 49; 49; 49; 49; 49; 49; 49; 49; 49]));
    Call "original" "setQuoteReqId" (Lit (VStr [49; 49; 49; 49; 49; 49; 49; 49; 49; 49]));
    Call "original" "setQuoteRjectReason" (Lit (VInt 8));
    Call "original" "setQuoteType" (Lit (VInt 1));
    Call "original" "setBidPx" (Lit (VInt 8));
    Call "original" "setOfferPx" (Lit (VInt 8));
    Call "original" "setBidSize" (Lit (VInt 8));
    Call "original" "setOfferSize" (Lit (VInt 8));
    Call "original" "setApplId" (Lit (VStr [48; 55; 48]));
    New "quoteStatusReportExtend070" "bjse.QuoteStatusReportExtend070";
    Call "quoteStatusReportExtend070" "setBranchId" (Lit (VStr [49; 49]));
    Call "quoteStatusReportExtend070" "setOrderId" (Lit (VStr [49; 49; 49; 49; 49; 49; 49; 49; 49; 49; 49; 49; 49; 49; 49; 49]));
    Call "quoteStatusReportExtend070" "setExecId" (Lit (VStr [49; 49; 49; 49; 49; 49; 49; 49; 49; 49; 49; 49; 49; 49; 49; 49]));
    Call "quoteStatusReportExtend070" "setQuoteRespId" (Lit (VStr [49; 49; 49; 49; 49; 49; 49; 49; 49; 49]));
    Call "quoteStatusReportExtend070" "setPrivateQuote" (Lit (VInt 1));
    Call "quoteStatusReportExtend070" "setSide" (Lit (VStr [49]));
    Call "quoteStatusReportExtend070" "setPriceType" (Lit (VInt 1));
    Call "quoteStatusReportExtend070" "setValidUntilTime" (Lit (VInt 8));
    Call "quoteStatusReportExtend070" "setCashMargin" (Lit (VStr [49]));
    Call "quoteStatusReportExtend070" "setCounterPartyPbuid" (Lit (VStr [49; 49; 49; 49; 49; 49]));
    Call "quoteStatusReportExtend070" "setMemo" (Lit (VStr [49; 49; 49; 49; 49; 49; 49; 49; 49; 49; 49; 49; 49; 49; 49; 49; 49; 49; 49; 49; 49; 49; 49; 49; 49; 49; 49; 49; 49; 49; 49; 49; 49; 49; 49; 49; 49; 49; 49; 49; 49; 49; 49; 49; 49; 49; 49; 49; 49; 49; 49; 49; 49; 49; 49; 49; 49; 49; 49; 49; 49; 49; 49; 49; 49; 49; 49; 49; 49; 49; 49; 49; 49; 49; 49; 49; 49; 49; 49; 49; 49; 49; 49; 49; 49; 49; 49; 49; 49; 49; 49; 49; 49; 49; 49; 49; 49; 49; 49; 49; 49; 49; 49; 49; 49; 49; 49; 49; 49; 49; 49; 49; 49; 49; 49; 49; 49; 49; 49; 49]));
    New "quote1" "bjse.QuoteStatusReportExtend070.Quote1";
    Call "quote1" "setQuoteId" (Lit (VStr [49; 49; 49; 49; 49; 49; 49; 49; 49; 49]));
    Call "quote1" "setQuotePrice" (Lit (VInt 8));
    Call "quote1" "setQuoteQty" (Lit (VInt 8));
    Call "quoteStatusReportExtend070" "setQuote1" (AsList [(Var "quote1")]);
    Call "original" "setApplExtend" (Var "quoteStatusReportExtend070");
    Encode "original";
    New "decoded" "bjse.QuoteStatusReport";
    Decode "decoded";
    AssertEquals "original" "decoded" ]%string = true.
Proof. vm_compute. reflexivity. Qed.

(* bjse-bin/src/test/java/com/finproto/bjse/trade/messages/QuoteTest.java:11-47 testEncodeDecode *)
Example bjse_QuoteTest_testEncodeDecode : test_passes
  [ New "original" "bjse.Quote";
    Call "original" "setSubmittingPbuid" (Lit (VStr [49; 49; 49; 49; 49; 49]));
    Call "original" "setSecurityId" (Lit (VStr [49; 49; 49; 49; 49; 49; 49; 49]));
    Call "original" "setSecurityIdsource" (Lit (VStr [49; 49; 49; 49]));
    Call "original" "setOwnerType" (Lit (VInt 2));
    Call "original" "setClearingFirm" (Lit (VStr [49; 49]));
    Call "original" "setTransactTime" (Lit (VInt 8));
    Call "original" "setUserInfo" (Lit (VStr [49; 49; 49; 49; 49; 49; 49; 49; 49; 49; 49; 49; 49; 49; 49; 49; 49; 49; 49; 49; 49; 49; 49; 49; 49; 49; 49; 49; 49; 49; 49; 49]));
    Call "original" "setQuoteMsgId" (Lit (VStr [49; 49; 49; 49; 49; 49; 49; 49; 49; 49]));
    Call "original" "setAccountId" (Lit (VStr [49; 49; 49; 49; 49; 49; 49; 49; 49; 49]));
    Call "original" "setQuoteReqId" (Lit (VStr [49; 49; 49; 49; 49; 49; 49; 49; 49; 49]));
    Call "original" "setQuoteType" (Lit (VInt 1));
    Call "original" "setBidPx" (Lit (VInt 8));
    Call "original" "setOfferPx" (Lit (VInt 8));
    Call "original" "setBidSize" (Lit (VInt 8));
    Call "original" "setOfferSize" (Lit (VInt 8));
    Call "original" "setApplId" (Lit (VStr [48; 55; 48]));
    New "quoteExtend070" "bjse.QuoteExtend070";
    Call "quoteExtend070" "setBranchId" (Lit (VStr [49; 49]));
    Call "quoteExtend070" "setQuoteId" (Lit (VStr [49; 49; 49; 49; 49; 49; 49; 49; 49; 49]));
    Call "quoteExtend070" "setQuoteRespId" (Lit (VStr [49; 49; 49; 49; 49; 49; 49; 49; 49; 49]));
    Call "quoteExtend070" "setPrivateQuote" (Lit (VInt 1));
    Call "quoteExtend070" "setValidUntilTime" (Lit (VInt 8));
    Call "quoteExtend070" "setPriceType" (Lit (VInt 1));
    Call "quoteExtend070" "setCashMargin" (Lit (VStr [49]));
    Call "quoteExtend070" "setCounterPartyPbuid" (Lit (VStr [49; 49; 49; 49; 49; 49]));
    Call "quoteExtend070" "setMemo" (Lit (VStr [49; 49; 49; 49; 49; 49; 49; 49; 49; 49; 49; 49; 49; 49; 49; 49; 49; 49; 49; 49; 49; 49; 49; 49; 49; 49; 49; 49; 49; 49; 49; 49; 49; 49; 49; 49; 49; 49; 49; 49; 49; 49; 49; 49; 49; 49; 49; 49; 49; 49; 49; 49; 49; 49; 49; 49; 49; 49; 49; 49; 49; 49; 49; 49; 49; 49; 49; 49; 49; 49; 49; 49; 49; 49; 49; 49; 49; 49; 49; 49; 49; 49; 49; 49; 49; 49; 49; 49; 49; 49; 49; 49; 49; 49; 49; 49; 49; 49; 49; 49; 49; 49; 49; 49; 49; 49; 49; 49; 49; 49; 49; 49; 49; 49; 49; 49; 49; 49; 49; 49]));
    Call "original" "setApplExtend" (Var "quoteExtend070");
    Encode "original";
    New "decoded" "bjse.Quote";
    Decode "decoded";
    AssertEquals "original" "decoded" ]%string = true.
Proof. vm_compute. reflexivity. Qed.

(* bjse-bin/src/test/java/com/finproto/bjse/trade/messages/ReportExtend010Test.java:11-22 testEncodeDecode *)
Example bjse_ReportExtend010Test_testEncodeDecode : test_passes
  [ New "original" "bjse.ReportExtend010";
    Call "original" "setCashMargin" (Lit (VStr [49]));
    Call "original" "setSettlType" (Lit (VStr [49]));
    Call "original" "setSettlPeriod" (Lit (VStr [49]));
    Encode "original";
    New "decoded" "bjse.ReportExtend010";
    Decode "decoded";
    AssertEquals "original" "decoded" ]%string = true.
Proof. vm_compute. reflexivity. Qed.

(* bjse-bin/src/test/java/com/finproto/bjse/trade/messages/ReportExtend040Test.java:11-20 testEncodeDecode *)
Example bjse_ReportExtend040Test_testEncodeDecode : test_passes
  [ New "original" "bjse.ReportExtend040";
    Call "original" "setCashMargin" (Lit (VStr [49]));
    Encode "original";
    New "decoded" "bjse.ReportExtend040";
    Decode "decoded";
    AssertEquals "original" "decoded" ]%string = true.
Proof. vm_compute. reflexivity. Qed.

(* bjse-bin/src/test/java/com/finproto/bjse/trade/messages/ReportExtend050Test.java:11-23 testEncodeDecode *)
Example bjse_ReportExtend050Test_testEncodeDecode : test_passes
  [ New "original" "bjse.ReportExtend050";
    Call "original" "setExpirationDays" (Lit (VInt 2));
    Call "original" "setExpirationType" (Lit (VInt 1));
    Call "original" "setMaturityDate" (Lit (VInt 4));
    Call "original" "setShareProperty" (Lit (VStr [49; 49]));
    Encode "original";
    New "decoded" "bjse.ReportExtend050";
    Decode "decoded";
    AssertEquals "original" "decoded" ]%string = true.
Proof. vm_compute. reflexivity. Qed.

(* bjse-bin/src/test/java/com/finproto/bjse/trade/messages/ReportFinishedTest.java:11-22 testEncodeDecode *)
Example bjse_ReportFinishedTest_testEncodeDecode : test_passes
  [ New "original" "bjse.ReportFinished";
    Call "original" "setPartitionNo" (Lit (VInt 4));
    Call "original" "setReportIndex" (Lit (VInt 8));
    Call "original" "setPlatformId" (Lit (VInt 2));
    Encode "original";
    New "decoded" "bjse.ReportFinished";
    Decode "decoded";
    AssertEquals "original" "decoded" ]%string = true.
Proof. vm_compute. reflexivity. Qed.

(* bjse-bin/src/test/java/com/finproto/bjse/trade/messages/ReportSynchronizationTest.java:12-25 testEncodeDecode *)
Example bjse_ReportSynchronizationTest_testEncodeDecode : test_passes
  [ New "original" "bjse.ReportSynchronization";
    New "reportPartitionSync" "bjse.ReportSynchronization.ReportPartitionSync";
    Call "reportPartitionSync" "setPartitionNo" (Lit (VInt 4));
    Call "reportPartitionSync" "setReportIndex" (Lit (VInt 8));
    Call "original" "setReportPartitionSync" (AsList [(Var "reportPartitionSync")]);
    Encode "original";
    New "decoded" "bjse.ReportSynchronization";
    Decode "decoded";
    AssertEquals "original" "decoded" ]%string = true.
Proof. vm_compute. reflexivity. Qed.

(* bjse-bin/src/test/java/com/finproto/bjse/trade/messages/TradeCaptureCofirmExtend031Test.java:11-28 testEncodeDecode *)
Example bjse_TradeCaptureCofirmExtend031Test_testEncodeDecode : test_passes
  [ New "original" "bjse.TradeCaptureCofirmExtend031";
    Call "original" "setMemberId" (Lit (VStr [49; 49; 49; 49; 49; 49]));
    Call "original" "setTraderCode" (Lit (VStr [49; 49; 49; 49; 49]));
    Call "original" "setCounterPartyMemberId" (Lit (VStr [49; 49; 49; 49; 49; 49]));
    Call "original" "setCounterPartyTraderCode" (Lit (VStr [49; 49; 49; 49; 49]));
    Call "original" "setSettlType" (Lit (VInt 1));
    Call "original" "setSettlPeriod" (Lit (VInt 1));
    Call "original" "setCashMargin" (Lit (VInt 1));
    Call "original" "setMemo" (Lit (VStr [49; 49; 49; 49; 49; 49; 49; 49; 49; 49; 49; 49; 49; 49; 49; 49; 49; 49; 49; 49; 49; 49; 49; 49; 49; 49; 49; 49; 49; 49; 49; 49; 49; 49; 49; 49; 49; 49; 49; 49; 49; 49; 49; 49; 49; 49; 49; 49; 49; 49; 49; 49; 49; 49; 49; 49; 49; 49; 49; 49; 49; 49; 49; 49; 49; 49; 49; 49; 49; 49; 49; 49; 49; 49; 49; 49; 49; 49; 49; 49; 49; 49; 49; 49; 49; 49; 49; 49; 49; 49; 49; 49; 49; 49; 49; 49; 49; 49; 49; 49; 49; 49; 49; 49; 49; 49; 49; 49; 49; 49; 49; 49; 49; 49; 49; 49; 49; 49; 49; 49]));
    Encode "original";
    New "decoded" "bjse.TradeCaptureCofirmExtend031";
    Decode "decoded";
    AssertEquals "original" "decoded" ]%string = true.
Proof. vm_compute. reflexivity. Qed.

(* bjse-bin/src/test/java/com/finproto/bjse/trade/messages/TradeCaptureCofirmExtend051Test.java:11-23 testEncodeDecode *)
Example bjse_TradeCaptureCofirmExtend051Test_testEncodeDecode : test_passes
  [ New "original" "bjse.TradeCaptureCofirmExtend051";
    Call "original" "setExpirationDays" (Lit (VInt 2));
    Call "original" "setExpirationType" (Lit (VInt 1));
    Call "original" "setMaturityDate" (Lit (VInt 4));
    Call "original" "setShareProperty" (Lit (VStr [49; 49]));
    Encode "original";
    New "decoded" "bjse.TradeCaptureCofirmExtend051";
    Decode "decoded";
    AssertEquals "original" "decoded" ]%string = true.
Proof. vm_compute. reflexivity. Qed.

(* bjse-bin/src/test/java/com/finproto/bjse/trade/messages/TradeCaptureCofirmExtend060Test.java:11-19 testEncodeDecode *)
Example bjse_TradeCaptureCofirmExtend060Test_testEncodeDecode : test_passes
  [ New "original" "bjse.TradeCaptureCofirmExtend060";
    Encode "original";
    New "decoded" "bjse.TradeCaptureCofirmExtend060";
    Decode "decoded";
    AssertEquals "original" "decoded" ]%string = true.
Proof. vm_compute. reflexivity. Qed.

(* bjse-bin/src/test/java/com/finproto/bjse/trade/messages/TradeCaptureCofirmExtend061Test.java:11-19 testEncodeDecode *)
Example bjse_TradeCaptureCofirmExtend061Test_testEncodeDecode : test_passes
  [ New "original" "bjse.TradeCaptureCofirmExtend061";
    Encode "original";
    New "decoded" "bjse.TradeCaptureCofirmExtend061";
    Decode "decoded";
    AssertEquals "original" "decoded" ]%string = true.
Proof. vm_compute. reflexivity. Qed.

(* bjse-bin/src/test/java/com/finproto/bjse/trade/messages/TradeCaptureCofirmExtend062Test.java:11-20 testEncodeDecode *)
Example bjse_TradeCaptureCofirmExtend062Test_testEncodeDecode : test_passes
  [ New "original" "bjse.TradeCaptureCofirmExtend062";
    Call "original" "setCashMargin" (Lit (VInt 1));
    Encode "original";
    New "decoded" "bjse.TradeCaptureCofirmExtend062";
    Decode "decoded";
    AssertEquals "original" "decoded" ]%string = true.
Proof. vm_compute. reflexivity. Qed.

(* bjse-bin/src/test/java/com/finproto/bjse/trade/messages/TradeCaptureCofirmTest.java:11-59 testEncodeDecode *)
Example bjse_TradeCaptureCofirmTest_testEncodeDecode : test_passes
  [ New "original" "bjse.TradeCaptureCofirm";
    Call "original" "setPartitionNo" (Lit (VInt 4));
    Call "original" "setReportIndex" (Lit (VInt 8));
    Call "original" "setReportingPbuid" (Lit (VStr [49; 49; 49; 49; 49; 49]));
    Call "original" "setSubmittingPbuid" (Lit (VStr [49; 49; 49; 49; 49; 49]));
    Call "original" "setSecurityId" (Lit (VStr [49; 49; 49; 49; 49; 49; 49; 49]));
    Call "original" "setSecurityIdsource" (Lit (VStr [49; 49; 49; 49]));
    Call "original" "setOwnerType" (Lit (VInt 2));
    Call "original" "setClearingFirm" (Lit (VStr [49; 49]));
    Call "original" "setTransactTime" (Lit (VInt 8));
    Call "original" "setUserInfo" (Lit (VStr [49; 49; 49; 49; 49; 49; 49; 49; 49; 49; 49; 49; 49; 49; 49; 49; 49; 49; 49; 49; 49; 49; 49; 49; 49; 49; 49; 49; 49; 49; 49; 49]));
    Call "original" "setTradeId" (Lit (VStr [49; 49; 49; 49; 49; 49; 49; 49; 49; 49; 49; 49; 49; 49; 49; 49]));
    Call "original" "setTradeReportId" (Lit (VStr [49; 49; 49; 49; 49; 49; 49; 49; 49; 49]));
    Call "original" "setTradeReportType" (Lit (VInt 1));
    Call "original" "setTradeReportTransType" (Lit (VInt 1));
    Call "original" "setTradeHandlingInstr" (Lit (VInt 1));
    Call "original" "setLastPx" (Lit (VInt 8));
    Call "original" "setLastQty" (Lit (VInt 8));
    Call "original" "setTrdType" (Lit (VInt 2));
    Call "original" "setTrdSubType" (Lit (VInt 2));
    Call "original" "setConfirmId" (Lit (VInt 4));
    Call "original" "setExecId" (Lit (VStr [49; 49; 49; 49; 49; 49; 49; 49; 49; 49; 49; 49; 49; 49; 49; 49]));
    Call "original" "setSide" (Lit (VInt 1));
    Call "original" "setPbuid" (Lit (VStr [49; 49; 49; 49; 49; 49]));
    Call "original" "setAccountId" (Lit (VStr [49; 49; 49; 49; 49; 49; 49; 49; 49; 49]));
    Call "original" "setBranchId" (Lit (VStr [49; 49]));
    Call "original" "setCounterPartyPbuid" (Lit (VStr [49; 49; 49; 49; 49; 49]));
    Call "original" "setCounterPartyAccountId" (Lit (VStr [49; 49; 49; 49; 49; 49; 49; 49; 49; 49]));
    Call "original" "setCounterPartyBranchId" (Lit (VStr [49; 49]));
    Call "original" "setApplId" (Lit (VStr [48; 51; 49]));
    New "tradeCaptureCofirmExtend031" "bjse.TradeCaptureCofirmExtend031";
    Call "tradeCaptureCofirmExtend031" "setMemberId" (Lit (VStr [49; 49; 49; 49; 49; 49]));
    Call "tradeCaptureCofirmExtend031" "setTraderCode" (Lit (VStr [49; 49; 49; 49; 49]));
    Call "tradeCaptureCofirmExtend031" "setCounterPartyMemberId" (Lit (VStr [49; 49; 49; 49; 49; 49]));
    Call "tradeCaptureCofirmExtend031" "setCounterPartyTraderCode" (Lit (VStr [49; 49; 49; 49; 49]));
    Call "tradeCaptureCofirmExtend031" "setSettlType" (Lit (VInt 1));
    Call "tradeCaptureCofirmExtend031" "setSettlPeriod" (Lit (VInt 1));
    Call "tradeCaptureCofirmExtend031" "setCashMargin" (Lit (VInt 1));
    Call "tradeCaptureCofirmExtend031" "setMemo" (Lit (VStr [49; 49; 49; 49; 49; 49; 49; 49; 49; 49; 49; 49; 49; 49; 49; 49; 49; 49; 49; 49; 49; 49; 49; 49; 49; 49; 49; 49; 49; 49; 49; 49; 49; 49; 49; 49; 49; 49; 49; 49; 49; 49; 49; 49; 49; 49; 49; 49; 49; 49; 49; 49; 49; 49; 49; 49; 49; 49; 49; 49; 49; 49; 49; 49; 49; 49; 49; 49; 49; 49; 49; 49; 49; 49; 49; 49; 49; 49; 49; 49; 49; 49; 49; 49; 49; 49; 49; 49; 49; 49; 49; 49; 49; 49; 49; 49; 49; 49; 49; 49; 49; 49; 49; 49; 49; 49; 49; 49; 49; 49; 49; 49; 49; 49; 49; 49; 49; 49; 49; 49]));
    Call "original" "setApplExtend" (Var "tradeCaptureCofirmExtend031");
    Encode "original";
    New "decoded" "bjse.TradeCaptureCofirm";
    Decode "decoded";
    AssertEquals "original" "decoded" ]%string = true.
Proof. vm_compute. reflexivity. Qed.

(* bjse-bin/src/test/java/com/finproto/bjse/trade/messages/TradeCaptureConfirmExtend031Test.java:11-28 testEncodeDecode *)
Example bjse_TradeCaptureConfirmExtend031Test_testEncodeDecode : test_passes
  [ New "original" "bjse.TradeCaptureConfirmExtend031";
    Call "original" "setMemberId" (Lit (VStr [49; 49; 49; 49; 49; 49]));
    Call "original" "setTraderCode" (Lit (VStr [49; 49; 49; 49; 49]));
    Call "original" "setCounterPartyMemberId" (Lit (VStr [49; 49; 49; 49; 49; 49]));
    Call "original" "setCounterPartyTraderCode" (Lit (VStr [49; 49; 49; 49; 49]));
    Call "original" "setSettlType" (Lit (VStr [49]));
    Call "original" "setSettlPeriod" (Lit (VStr [49]));
    Call "original" "setCashMargin" (Lit (VStr [49]));
    Call "original" "setMemo" (Lit (VStr [49; 49; 49; 49; 49; 49; 49; 49; 49; 49; 49; 49; 49; 49; 49; 49; 49; 49; 49; 49; 49; 49; 49; 49; 49; 49; 49; 49; 49; 49; 49; 49; 49; 49; 49; 49; 49; 49; 49; 49; 49; 49; 49; 49; 49; 49; 49; 49; 49; 49; 49; 49; 49; 49; 49; 49; 49; 49; 49; 49; 49; 49; 49; 49; 49; 49; 49; 49; 49; 49; 49; 49; 49; 49; 49; 49; 49; 49; 49; 49; 49; 49; 49; 49; 49; 49; 49; 49; 49; 49; 49; 49; 49; 49; 49; 49; 49; 49; 49; 49; 49; 49; 49; 49; 49; 49; 49; 49; 49; 49; 49; 49; 49; 49; 49; 49; 49; 49; 49; 49]));
    Encode "original";
    New "decoded" "bjse.TradeCaptureConfirmExtend031";
    Decode "decoded";
    AssertEquals "original" "decoded" ]%string = true.
Proof. vm_compute. reflexivity. Qed.

(* bjse-bin/src/test/java/com/finproto/bjse/trade/messages/TradeCaptureConfirmExtend051Test.java:11-23 testEncodeDecode *)
Example bjse_TradeCaptureConfirmExtend051Test_testEncodeDecode : test_passes
  [ New "original" "bjse.TradeCaptureConfirmExtend051";
    Call "original" "setExpirationDays" (Lit (VInt 2));
    Call "original" "setExpirationType" (Lit (VInt 1));
    Call "original" "setMaturityDate" (Lit (VInt 4));
    Call "original" "setShareProperty" (Lit (VStr [49; 49]));
    Encode "original";
    New "decoded" "bjse.TradeCaptureConfirmExtend051";
    Decode "decoded";
    AssertEquals "original" "decoded" ]%string = true.
Proof. vm_compute. reflexivity. Qed.

(* bjse-bin/src/test/java/com/finproto/bjse/trade/messages/TradeCaptureConfirmExtend060Test.java:11-19 testEncodeDecode *)
Example bjse_TradeCaptureConfirmExtend060Test_testEncodeDecode : test_passes
  [ New "original" "bjse.TradeCaptureConfirmExtend060";
    Encode "original";
    New "decoded" "bjse.TradeCaptureConfirmExtend060";
    Decode "decoded";
    AssertEquals "original" "decoded" ]%string = true.
Proof. vm_compute. reflexivity. Qed.

(* bjse-bin/src/test/java/com/finproto/bjse/trade/messages/TradeCaptureConfirmExtend061Test.java:11-19 testEncodeDecode *)
Example bjse_TradeCaptureConfirmExtend061Test_testEncodeDecode : test_passes
  [ New "original" "bjse.TradeCaptureConfirmExtend061";
    Encode "original";
    New "decoded" "bjse.TradeCaptureConfirmExtend061";
    Decode "decoded";
    AssertEquals "original" "decoded" ]%string = true.
Proof. vm_compute. reflexivity. Qed.

(* bjse-bin/src/test/java/com/finproto/bjse/trade/messages/TradeCaptureConfirmExtend062Test.java:11-20 testEncodeDecode *)
Example bjse_TradeCaptureConfirmExtend062Test_testEncodeDecode : test_passes
  [ New "original" "bjse.TradeCaptureConfirmExtend062";
    Call "original" "setCashMargin" (Lit (VStr [49]));
    Encode "original";
    New "decoded" "bjse.TradeCaptureConfirmExtend062";
    Decode "decoded";
    AssertEquals "original" "decoded" ]%string = true.
Proof. vm_compute. reflexivity. Qed.

(* bjse-bin/src/test/java/com/finproto/bjse/trade/messages/TradeCaptureConfirmTest.java:11-59 testEncodeDecode *)
Example bjse_TradeCaptureConfirmTest_testEncodeDecode : test_passes
  [ New "original" "bjse.TradeCaptureConfirm";
    Call "original" "setPartitionNo" (Lit (VInt 4));
    Call "original" "setReportIndex" (Lit (VInt 8));
    Call "original" "setReportingPbuid" (Lit (VStr [49; 49; 49; 49; 49; 49]));
    Call "original" "setSubmittingPbuid" (Lit (VStr [49; 49; 49; 49; 49; 49]));
    Call "original" "setSecurityId" (Lit (VStr [49; 49; 49; 49; 49; 49; 49; 49]));
    Call "original" "setSecurityIdsource" (Lit (VStr [49; 49; 49; 49]));
    Call "original" "setOwnerType" (Lit (VInt 2));
    Call "original" "setClearingFirm" (Lit (VStr [49; 49]));
    Call "original" "setTransactTime" (Lit (VInt 8));
    Call "original" "setUserInfo" (Lit (VStr [49; 49; 49; 49; 49; 49; 49; 49; 49; 49; 49; 49; 49; 49; 49; 49; 49; 49; 49; 49; 49; 49; 49; 49; 49; 49; 49; 49; 49; 49; 49; 49]));
    Call "original" "setTradeId" (Lit (VStr [49; 49; 49; 49; 49; 49; 49; 49; 49; 49; 49; 49; 49; 49; 49; 49]));
    Call "original" "setTradeReportId" (Lit (VStr [49; 49; 49; 49; 49; 49; 49; 49; 49; 49]));
    Call "original" "setTradeReportType" (Lit (VInt 1));
    Call "original" "setTradeReportTransType" (Lit (VInt 1));
    Call "original" "setTradeHandlingInstr" (Lit (VStr [49]));
    Call "original" "setLastPx" (Lit (VInt 8));
    Call "original" "setLastQty" (Lit (VInt 8));
    Call "original" "setTrdType" (Lit (VInt 2));
    Call "original" "setTrdSubType" (Lit (VInt 2));
    Call "original" "setConfirmId" (Lit (VInt 4));
    Call "original" "setExecId" (Lit (VStr [49; 49; 49; 49; 49; 49; 49; 49; 49; 49; 49; 49; 49; 49; 49; 49]));
    Call "original" "setSide" (Lit (VStr [49]));
    Call "original" "setPbuid" (Lit (VStr [49; 49; 49; 49; 49; 49]));
    Call "original" "setAccountId" (Lit (VStr [49; 49; 49; 49; 49; 49; 49; 49; 49; 49]));
    Call "original" "setBranchId" (Lit (VStr [49; 49]));
    Call "original" "setCounterPartyPbuid" (Lit (VStr [49; 49; 49; 49; 49; 49]));
    Call "original" "setCounterPartyAccountId" (Lit (VStr [49; 49; 49; 49; 49; 49; 49; 49; 49; 49]));
    Call "original" "setCounterPartyBranchId" (Lit (VStr [49; 49]));
    Call "original" "setApplId" (Lit (VStr [48; 51; 49]));
    New "tradeCaptureConfirmExtend031" "bjse.TradeCaptureConfirmExtend031";
    Call "tradeCaptureConfirmExtend031" "setMemberId" (Lit (VStr [49; 49; 49; 49; 49; 49]));
    Call "tradeCaptureConfirmExtend031" "setTraderCode" (Lit (VStr [49; 49; 49; 49; 49]));
    Call "tradeCaptureConfirmExtend031" "setCounterPartyMemberId" (Lit (VStr [49; 49; 49; 49; 49; 49]));
    Call "tradeCaptureConfirmExtend031" "setCounterPartyTraderCode" (Lit (VStr [49; 49; 49; 49; 49]));
    Call "tradeCaptureConfirmExtend031" "setSettlType" (Lit (VStr [49]));
    Call "tradeCaptureConfirmExtend031" "setSettlPeriod" (Lit (VStr [49]));
    Call "tradeCaptureConfirmExtend031" "setCashMargin" (Lit (VStr [49]));
    Call "tradeCaptureConfirmExtend031" "setMemo" (Lit (VStr [49; 49; 49; 49; 49; 49; 49; 49; 49; 49; 49; 49; 49; 49; 49; 49; 49; 49; 49; 49; 49; 49; 49; 49; 49; 49; 49; 49; 49; 49; 49; 49; 49; 49; 49; 49; 49; 49; 49; 49; 49; 49; 49; 49; 49; 49; 49; 49; 49; 49; 49; 49; 49; 49; 49; 49; 49; 49; 49; 49; 49; 49; 49; 49; 49; 49; 49; 49; 49; 49; 49; 49; 49; 49; 49; 49; 49; 49; 49; 49; 49; 49; 49; 49; 49; 49; 49; 49; 49; 49; 49; 49; 49; 49; 49; 49; 49; 49; 49; 49; 49; 49; 49; 49; 49; 49; 49; 49; 49; 49; 49; 49; 49; 49; 49; 49; 49; 49; 49; 49]));
    Call "original" "setApplExtend" (Var "tradeCaptureConfirmExtend031");
    Encode "original";
    New "decoded" "bjse.TradeCaptureConfirm";
    Decode "decoded";
    AssertEquals "original" "decoded" ]%string = true.
Proof. vm_compute. reflexivity. Qed.

(* bjse-bin/src/test/java/com/finproto/bjse/trade/messages/TradeCaptureReportAckExtend031Test.java:11-28 testEncodeDecode *)
Example bjse_TradeCaptureReportAckExtend031Test_testEncodeDecode : test_passes
  [ New "original" "bjse.TradeCaptureReportAckExtend031";
    Call "original" "setMemberId" (Lit (VStr [49; 49; 49; 49; 49; 49]));
    Call "original" "setTraderCode" (Lit (VStr [49; 49; 49; 49; 49]));
    Call "original" "setCounterPartyMemberId" (Lit (VStr [49; 49; 49; 49; 49; 49]));
    Call "original" "setCounterPartyTraderCode" (Lit (VStr [49; 49; 49; 49; 49]));
    Call "original" "setSettlType" (Lit (VStr [49]));
    Call "original" "setSettlPeriod" (Lit (VStr [49]));
    Call "original" "setCashMargin" (Lit (VStr [49]));
    Call "original" "setMemo" (Lit (VStr [49; 49; 49; 49; 49; 49; 49; 49; 49; 49; 49; 49; 49; 49; 49; 49; 49; 49; 49; 49; 49; 49; 49; 49; 49; 49; 49; 49; 49; 49; 49; 49; 49; 49; 49; 49; 49; 49; 49; 49; 49; 49; 49; 49; 49; 49; 49; 49; 49; 49; 49; 49; 49; 49; 49; 49; 49; 49; 49; 49; 49; 49; 49; 49; 49; 49; 49; 49; 49; 49; 49; 49; 49; 49; 49; 49; 49; 49; 49; 49; 49; 49; 49; 49; 49; 49; 49; 49; 49; 49; 49; 49; 49; 49; 49; 49; 49; 49; 49; 49; 49; 49; 49; 49; 49; 49; 49; 49; 49; 49; 49; 49; 49; 49; 49; 49; 49; 49; 49; 49]));
    Encode "original";
    New "decoded" "bjse.TradeCaptureReportAckExtend031";
    Decode "decoded";
    AssertEquals "original" "decoded" ]%string = true.
Proof. vm_compute. reflexivity. Qed.

(* bjse-bin/src/test/java/com/finproto/bjse/trade/messages/TradeCaptureReportAckExtend051Test.java:11-22 testEncodeDecode *)
Example bjse_TradeCaptureReportAckExtend051Test_testEncodeDecode : test_passes
  [ New "original" "bjse.TradeCaptureReportAckExtend051";
    Call "original" "setExpirationDays" (Lit (VInt 2));
    Call "original" "setExpirationType" (Lit (VInt 1));
    Call "original" "setShareProperty" (Lit (VStr [49; 49]));
    Encode "original";
    New "decoded" "bjse.TradeCaptureReportAckExtend051";
    Decode "decoded";
    AssertEquals "original" "decoded" ]%string = true.
Proof. vm_compute. reflexivity. Qed.

(* bjse-bin/src/test/java/com/finproto/bjse/trade/messages/TradeCaptureReportAckExtend060Test.java:11-19 testEncodeDecode *)
Example bjse_TradeCaptureReportAckExtend060Test_testEncodeDecode : test_passes
  [ New "original" "bjse.TradeCaptureReportAckExtend060";
    Encode "original";
    New "decoded" "bjse.TradeCaptureReportAckExtend060";
    Decode "decoded";
    AssertEquals "original" "decoded" ]%string = true.
Proof. vm_compute. reflexivity. Qed.

(* bjse-bin/src/test/java/com/finproto/bjse/trade/messages/TradeCaptureReportAckExtend061Test.java:11-19 testEncodeDecode *)
Example bjse_TradeCaptureReportAckExtend061Test_testEncodeDecode : test_passes
  [ New "original" "bjse.TradeCaptureReportAckExtend061";
    Encode "original";
    New "decoded" "bjse.TradeCaptureReportAckExtend061";
    Decode "decoded";
    AssertEquals "original" "decoded" ]%string = true.
Proof. vm_compute. reflexivity. Qed.

(* bjse-bin/src/test/java/com/finproto/bjse/trade/messages/TradeCaptureReportAckExtend062Test.java:11-20 testEncodeDecode *)
Example bjse_TradeCaptureReportAckExtend062Test_testEncodeDecode : test_passes
  [ New "original" "bjse.TradeCaptureReportAckExtend062";
    Call "original" "setCashMargin" (Lit (VStr [49]));
    Encode "original";
    New "decoded" "bjse.TradeCaptureReportAckExtend062";
    Decode "decoded";
    AssertEquals "original" "decoded" ]%string = true.
Proof. vm_compute. reflexivity. Qed.

(* bjse-bin/src/test/java/com/finproto/bjse/trade/messages/TradeCaptureReportAckTest.java:11-64 testEncodeDecode *)
Example bjse_TradeCaptureReportAckTest_testEncodeDecode : test_passes
  [ New "original" "bjse.TradeCaptureReportAck";
    Call "original" "setPartitionNo" (Lit (VInt 4));
    Call "original" "setReportIndex" (Lit (VInt 8));
    Call "original" "setReportingPbuid" (Lit (VStr [49; 49; 49; 49; 49; 49]));
    Call "original" "setSubmittingPbuid" (Lit (VStr [49; 49; 49; 49; 49; 49]));
    Call "original" "setSecurityId" (Lit (VStr [49; 49; 49; 49; 49; 49; 49; 49]));
    Call "original" "setSecurityIdsource" (Lit (VStr [49; 49; 49; 49]));
    Call "original" "setOwnerType" (Lit (VInt 2));
    Call "original" "setClearingFirm" (Lit (VStr [49; 49]));
    Call "original" "setTransactTime" (Lit (VInt 8));
    Call "original" "setUserInfo" (Lit (VStr [49; 49; 49; 49; 49; 49; 49; 49; 49; 49; 49; 49; 49; 49; 49; 49; 49; 49; 49; 49; 49; 49; 49; 49; 49; 49; 49; 49; 49; 49; 49; 49]));
    Call "original" "setTradeId" (Lit (VStr [49; 49; 49; 49; 49; 49; 49; 49; 49; 49; 49; 49; 49; 49; 49; 49]));
    Call "original" "setTradeReportId" (Lit (VStr [49; 49; 49; 49; 49; 49; 49; 49; 49; 49]));
    Call "original" "setTradeReportType" (Lit (VInt 1));
    Call "original" "setTradeReportTransType" (Lit (VInt 1));
    Call "original" "setTradeHandlingInstr" (Lit (VStr [49]));
    Call "original" "setTradeReportRefId" (Lit (VStr [49; 49; 49; 49; 49; 49; 49; 49; 49; 49]));
    Call "original" "setTrdAckStatus" (Lit (VInt 1));
    Call "original" "setTrdRptStatus" (Lit (VInt 1));
    Call "original" "setTradeReportRejectReason" (Lit (VInt 2));
    Call "original" "setLastPx" (Lit (VInt 8));
    Call "original" "setLastQty" (Lit (VInt 8));
    Call "original" "setTrdType" (Lit (VInt 2));
    Call "original" "setTrdSubType" (Lit (VInt 2));
    Call "original" "setConfirmId" (Lit (VInt 4));
    Call "original" "setExecId" (Lit (VStr [49; 49; 49; 49; 49; 49; 49; 49; 49; 49; 49; 49; 49; 49; 49; 49]));
    Call "original" "setSide" (Lit (VStr [49]));
    Call "original" "setPbuid" (Lit (VStr [49; 49; 49; 49; 49; 49]));
    Call "original" "setAccountId" (Lit (VStr [49; 49; 49; 49; 49; 49; 49; 49; 49; 49]));
    Call "original" "setBranchId" (Lit (VStr [49; 49]));
    Call "original" "setCounterPartyPbuid" (Lit (VStr [49; 49; 49; 49; 49; 49]));
    Call "original" "setCounterPartyAccountId" (Lit (VStr [49; 49; 49; 49; 49; 49; 49; 49; 49; 49]));
    Call "original" "setCounterPartyBranchId" (Lit (VStr [49; 49]));
    Call "original" "setApplId" (Lit (VStr [48; 51; 49]));
    New "tradeCaptureReportAckExtend031" "bjse.TradeCaptureReportAckExtend031";
    Call "tradeCaptureReportAckExtend031" "setMemberId" (Lit (VStr [49; 49; 49; 49; 49; 49]));
    Call "tradeCaptureReportAckExtend031" "setTraderCode" (Lit (VStr [49; 49; 49; 49; 49]));
    Call "tradeCaptureReportAckExtend031" "setCounterPartyMemberId" (Lit (VStr [49; 49; 49; 49; 49; 49]));
    Call "tradeCaptureReportAckExtend031" "setCounterPartyTraderCode" (Lit (VStr [49; 49; 49; 49; 49]));
    Call "tradeCaptureReportAckExtend031" "setSettlType" (Lit (VStr [49]));
    Call "tradeCaptureReportAckExtend031" "setSettlPeriod" (Lit (VStr [49]));
    Call "tradeCaptureReportAckExtend031" "setCashMargin" (Lit (VStr [49]));
    Call "tradeCaptureReportAckExtend031" "setMemo" (Lit (VStr [49; 49; 49; 49; 49; 49; 49; 49; 49; 49; 49; 49; 49; 49; 49; 49; 49; 49; 49; 49; 49; 49; 49; 49; 49; 49; 49; 49; 49; 49; 49; 49; 49; 49; 49; 49; 49; 49; 49; 49; 49; 49; 49; 49; 49; 49; 49; 49; 49; 49; 49; 49; 49; 49; 49; 49; 49; 49; 49; 49; 49; 49; 49; 49; 49; 49; 49; 49; 49; 49; 49; 49; 49; 49; 49; 49; 49; 49; 49; 49; 49; 49; 49; 49; 49; 49; 49; 49; 49; 49; 49; 49; 49; 49; 49; 49; 49; 49; 49; 49; 49; 49; 49; 49; 49; 49; 49; 49; 49; 49; 49; 49; 49; 49; 49; 49; 49; 49; 49; 49]));
    Call "original" "setApplExtend" (Var "tradeCaptureReportAckExtend031");
    Encode "original";
    New "decoded" "bjse.TradeCaptureReportAck";
    Decode "decoded";
    AssertEquals "original" "decoded" ]%string = true.
Proof. vm_compute. reflexivity. Qed.

(* bjse-bin/src/test/java/com/finproto/bjse/trade/messages/TradeCaptureReportExtend031Test.java:11-28 testEncodeDecode *)
Example bjse_TradeCaptureReportExtend031Test_testEncodeDecode : test_passes
  [ New "original" "bjse.TradeCaptureReportExtend031";
    Call "original" "setMemberId" (Lit (VStr [49; 49; 49; 49; 49; 49]));
    Call "original" "setTraderCode" (Lit (VStr [49; 49; 49; 49; 49]));
    Call "original" "setCounterPartyMemberId" (Lit (VStr [49; 49; 49; 49; 49; 49]));
    Call "original" "setCounterPartyTraderCode" (Lit (VStr [49; 49; 49; 49; 49]));
    Call "original" "setSettlType" (Lit (VStr [49]));
    Call "original" "setSettlPeriod" (Lit (VStr [49]));
    Call "original" "setCashMargin" (Lit (VStr [49]));
    Call "original" "setMemo" (Lit (VStr [49; 49; 49; 49; 49; 49; 49; 49; 49; 49; 49; 49; 49; 49; 49; 49; 49; 49; 49; 49; 49; 49; 49; 49; 49; 49; 49; 49; 49; 49; 49; 49; 49; 49; 49; 49; 49; 49; 49; 49; 49; 49; 49; 49; 49; 49; 49; 49; 49; 49; 49; 49; 49; 49; 49; 49; 49; 49; 49; 49; 49; 49; 49; 49; 49; 49; 49; 49; 49; 49; 49; 49; 49; 49; 49; 49; 49; 49; 49; 49; 49; 49; 49; 49; 49; 49; 49; 49; 49; 49; 49; 49; 49; 49; 49; 49; 49; 49; 49; 49; 49; 49; 49; 49; 49; 49; 49; 49; 49; 49; 49; 49; 49; 49; 49; 49; 49; 49; 49; 49]));
    Encode "original";
    New "decoded" "bjse.TradeCaptureReportExtend031";
    Decode "decoded";
    AssertEquals "original" "decoded" ]%string = true.
Proof. vm_compute. reflexivity. Qed.

(* bjse-bin/src/test/java/com/finproto/bjse/trade/messages/TradeCaptureReportExtend051Test.java:11-22 testEncodeDecode *)
Example bjse_TradeCaptureReportExtend051Test_testEncodeDecode : test_passes
  [ New "original" "bjse.TradeCaptureReportExtend051";
    Call "original" "setExpirationDays" (Lit (VInt 2));
    Call "original" "setExpirationType" (Lit (VInt 1));
    Call "original" "setShareProperty" (Lit (VStr [49; 49]));
    Encode "original";
    New "decoded" "bjse.TradeCaptureReportExtend051";
    Decode "decoded";
    AssertEquals "original" "decoded" ]%string = true.
Proof. vm_compute. reflexivity. Qed.

(* bjse-bin/src/test/java/com/finproto/bjse/trade/messages/TradeCaptureReportExtend060Test.java:11-19 testEncodeDecode *)
Example bjse_TradeCaptureReportExtend060Test_testEncodeDecode : test_passes
  [ New "original" "bjse.TradeCaptureReportExtend060";
    Encode "original";
    New "decoded" "bjse.TradeCaptureReportExtend060";
    Decode "decoded";
    AssertEquals "original" "decoded" ]%string = true.
Proof. vm_compute. reflexivity. Qed.

(* bjse-bin/src/test/java/com/finproto/bjse/trade/messages/TradeCaptureReportExtend061Test.java:11-19 testEncodeDecode *)
Example bjse_TradeCaptureReportExtend061Test_testEncodeDecode : test_passes
  [ New "original" "bjse.TradeCaptureReportExtend061";
    Encode "original";
    New "decoded" "bjse.TradeCaptureReportExtend061";
    Decode "decoded";
    AssertEquals "original" "decoded" ]%string = true.
Proof. vm_compute. reflexivity. Qed.

(* bjse-bin/src/test/java/com/finproto/bjse/trade/messages/TradeCaptureReportExtend062Test.java:11-20 testEncodeDecode *)
Example bjse_TradeCaptureReportExtend062Test_testEncodeDecode : test_passes
  [ New "original" "bjse.TradeCaptureReportExtend062";
    Call "original" "setCashMargin" (Lit (VStr [49]));
    Encode "original";
    New "decoded" "bjse.TradeCaptureReportExtend062";
    Decode "decoded";
    AssertEquals "original" "decoded" ]%string = true.
Proof. vm_compute. reflexivity. Qed.

(* bjse-bin/src/test/java/com/finproto/bjse/trade/messages/TradeCaptureReportTest.java:11-55 testEncodeDecode *)
Example bjse_TradeCaptureReportTest_testEncodeDecode : test_passes
  [ New "original" "bjse.TradeCaptureReport";
    Call "original" "setSubmittingPbuid" (Lit (VStr [49; 49; 49; 49; 49; 49]));
    Call "original" "setSecurityId" (Lit (VStr [49; 49; 49; 49; 49; 49; 49; 49]));
    Call "original" "setSecurityIdsource" (Lit (VStr [49; 49; 49; 49]));
    Call "original" "setOwnerType" (Lit (VInt 2));
    Call "original" "setClearingFirm" (Lit (VStr [49; 49]));
    Call "original" "setTransactTime" (Lit (VInt 8));
    Call "original" "setUserInfo" (Lit (VStr [49; 49; 49; 49; 49; 49; 49; 49; 49; 49; 49; 49; 49; 49; 49; 49; 49; 49; 49; 49; 49; 49; 49; 49; 49; 49; 49; 49; 49; 49; 49; 49]));
    Call "original" "setTradeReportId" (Lit (VStr [49; 49; 49; 49; 49; 49; 49; 49; 49; 49]));
    Call "original" "setTradeReportType" (Lit (VInt 1));
    Call "original" "setTradeReportTransType" (Lit (VInt 1));
    Call "original" "setTradeHandlingInstr" (Lit (VStr [49]));
    Call "original" "setTradeReportRefId" (Lit (VStr [49; 49; 49; 49; 49; 49; 49; 49; 49; 49]));
    Call "original" "setLastPx" (Lit (VInt 8));
    Call "original" "setLastQty" (Lit (VInt 8));
    Call "original" "setTrdType" (Lit (VInt 2));
    Call "original" "setTrdSubType" (Lit (VInt 2));
    Call "original" "setConfirmId" (Lit (VInt 4));
    Call "original" "setSide" (Lit (VStr [49]));
    Call "original" "setPbuid" (Lit (VStr [49; 49; 49; 49; 49; 49]));
    Call "original" "setAccountId" (Lit (VStr [49; 49; 49; 49; 49; 49; 49; 49; 49; 49]));
    Call "original" "setBranchId" (Lit (VStr [49; 49]));
    Call "original" "setCounterPartyPbuid" (Lit (VStr [49; 49; 49; 49; 49; 49]));
    Call "original" "setCounterPartyAccountId" (Lit (VStr [49; 49; 49; 49; 49; 49; 49; 49; 49; 49]));
    Call "original" "setCounterPartyBranchId" (Lit (VStr [49; 49]));
    Call "original" "setApplId" (Lit (VStr [48; 51; 49]));
    New "tradeCaptureReportExtend031" "bjse.TradeCaptureReportExtend031";
    Call "tradeCaptureReportExtend031" "setMemberId" (Lit (VStr [49; 49; 49; 49; 49; 49]));
    Call "tradeCaptureReportExtend031" "setTraderCode" (Lit (VStr [49; 49; 49; 49; 49]));
    Call "tradeCaptureReportExtend031" "setCounterPartyMemberId" (Lit (VStr [49; 49; 49; 49; 49; 49]));
    Call "tradeCaptureReportExtend031" "setCounterPartyTraderCode" (Lit (VStr [49; 49; 49; 49; 49]));
    Call "tradeCaptureReportExtend031" "setSettlType" (Lit (VStr [49]));
    Call "tradeCaptureReportExtend031" "setSettlPeriod" (Lit (VStr [49]));
    Call "tradeCaptureReportExtend031" "setCashMargin" (Lit (VStr [49]));
    Call "tradeCaptureReportExtend031" "setMemo" (Lit (VStr [49; 49; 49; 49; 49; 49; 49; 49; 49; 49; 49; 49; 49; 49; 49; 49; 49; 49; 49; 49; 49; 49; 49; 49; 49; 49; 49; 49; 49; 49; 49; 49; 49; 49; 49; 49; 49; 49; 49; 49; 49; 49; 49; 49; 49; 49; 49; 49; 49; 49; 49; 49; 49; 49; 49; 49; 49; 49; 49; 49; 49; 49; 49; 49; 49; 49; 49; 49; 49; 49; 49; 49; 49; 49; 49; 49; 49; 49; 49; 49; 49; 49; 49; 49; 49; 49; 49; 49; 49; 49; 49; 49; 49; 49; 49; 49; 49; 49; 49; 49; 49; 49; 49; 49; 49; 49; 49; 49; 49; 49; 49; 49; 49; 49; 49; 49; 49; 49; 49; 49]));
    Call "original" "setApplExtend" (Var "tradeCaptureReportExtend031");
    Encode "original";
    New "decoded" "bjse.TradeCaptureReport";
    Decode "decoded";
    AssertEquals "original" "decoded" ]%string = true.
Proof. vm_compute. reflexivity. Qed.

(* bjse-bin/src/test/java/com/finproto/bjse/trade/messages/TradingSessionStatusTest.java:11-25 testEncodeDecode *)
Example bjse_TradingSessionStatusTest_testEncodeDecode : test_passes
  [ New "original" "bjse.TradingSessionStatus";
    Call "original" "setMarketId" (Lit (VStr [49; 49; 49]));
    Call "original" "setMarketSegmentId" (Lit (VStr [49; 49; 49]));
    Call "original" "setTradingSessionId" (Lit (VStr [49; 49; 49]));
    Call "original" "setTradingSessionSubId" (Lit (VStr [49; 49; 49]));
    Call "original" "setTradSesStatus" (Lit (VInt 1));
    Call "original" "setTradSesStartTime" (Lit (VInt 8));
    Encode "original";
    New "decoded" "bjse.TradingSessionStatus";
    Decode "decoded";
    AssertEquals "original" "decoded" ]%string = true.
Proof. vm_compute. reflexivity. Qed.
