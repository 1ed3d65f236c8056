(* GENERATED by tools/testgen.py from the tests of sse-bin.  Do not edit. *)
From Coq Require Import ZArith List String.
From Verif.Model Require Import Ast.
From Verif.Tests Require Import Script.
Import ListNotations.
Open Scope Z_scope.

(* sse-bin/src/test/java/com/finproto/sse/bin/messages/CancelRejectTest.java:11-32 testEncodeDecode *)
Example sse_CancelRejectTest_testEncodeDecode : test_passes
  [ New "original" "sse.CancelReject";
    Call "original" "setPbu" (Lit (VStr [49; 49; 49; 49; 49; 49; 49; 49]));
    Call "original" "setSetId" (Lit (VInt 4));
    Call "original" "setReportIndex" (Lit (VInt 8));
    Call "original" "setBizId" (Lit (VInt 4));
    Call "original" "setBizPbu" (Lit (VStr [49; 49; 49; 49; 49; 49; 49; 49]));
    Call "original" "setClOrdId" (Lit (VStr [49; 49; 49; 49; 49; 49; 49; 49; 49; 49]));
    Call "original" "setSecurityId" (Lit (VStr [49; 49; 49; 49; 49; 49; 49; 49; 49; 49; 49; 49]));
    Call "original" "setOrigClOrdId" (Lit (VStr [49; 49; 49; 49; 49; 49; 49; 49; 49; 49]));
    Call "original" "setBranchId" (Lit (VStr [49; 49; 49; 49; 49; 49; 49; 49]));
    Call "original" "setCxlRejReason" (Lit (VInt 4));
    Call "original" "setTradeDate" (Lit (VInt 4));
    Call "original" "setTransactTime" (Lit (VInt 8));
    Call "original" "setUserInfo" (Lit (VStr [49; 49; 49; 49; 49; 49; 49; 49; 49; 49; 49; 49; 49; 49; 49; 49; 49; 49; 49; 49; 49; 49; 49; 49; 49; 49; 49; 49; 49; 49; 49; 49]));
    Encode "original";
    New "decoded" "sse.CancelReject";
    Decode "decoded";
    AssertEquals "original" "decoded" ]%string = true.
Proof. vm_compute. reflexivity. Qed.

(* sse-bin/src/test/java/com/finproto/sse/bin/messages/ConfirmTest.java:11-47 testEncodeDecode *)
Example sse_ConfirmTest_testEncodeDecode : test_passes
  [ New "original" "sse.Confirm";
    Call "original" "setPbu" (Lit (VStr [49; 49; 49; 49; 49; 49; 49; 49]));
    Call "original" "setSetId" (Lit (VInt 4));
    Call "original" "setReportIndex" (Lit (VInt 8));
    Call "original" "setBizId" (Lit (VInt 4));
    Call "original" "setExecType" (Lit (VStr [49]));
    Call "original" "setBizPbu" (Lit (VStr [49; 49; 49; 49; 49; 49; 49; 49]));
    Call "original" "setClOrdId" (Lit (VStr [49; 49; 49; 49; 49; 49; 49; 49; 49; 49]));
    Call "original" "setSecurityId" (Lit (VStr [49; 49; 49; 49; 49; 49; 49; 49; 49; 49; 49; 49]));
    Call "original" "setAccount" (Lit (VStr [49; 49; 49; 49; 49; 49; 49; 49; 49; 49; 49; 49; 49]));
    Call "original" "setOwnerType" (Lit (VInt 1));
    Call "original" "setSide" (Lit (VStr [49]));
    Call "original" "setPrice" (Lit (VInt 8));
    Call "original" "setOrderQty" (Lit (VInt 8));
    Call "original" "setLeavesQty" (Lit (VInt 8));
    Call "original" "setCxlQty" (Lit (VInt 8));
    Call "original" "setOrdType" (Lit (VStr [49]));
    Call "original" "setTimeInForce" (Lit (VStr [49]));
    Call "original" "setOrdStatus" (Lit (VStr [49]));
    Call "original" "setCreditTag" (Lit (VStr [49; 49]));
    Call "original" "setOrigClOrdId" (Lit (VStr [49; 49; 49; 49; 49; 49; 49; 49; 49; 49]));
    Call "original" "setClearingFirm" (Lit (VStr [49; 49; 49; 49; 49; 49; 49; 49]));
    Call "original" "setBranchId" (Lit (VStr [49; 49; 49; 49; 49; 49; 49; 49]));
    Call "original" "setOrdRejReason" (Lit (VInt 4));
    Call "original" "setOrdCnfmId" (Lit (VStr [49; 49; 49; 49; 49; 49; 49; 49; 49; 49; 49; 49; 49; 49; 49; 49]));
    Call "original" "setOrigOrdCnfmId" (Lit (VStr [49; 49; 49; 49; 49; 49; 49; 49; 49; 49; 49; 49; 49; 49; 49; 49]));
    Call "original" "setTradeDate" (Lit (VInt 4));
    Call "original" "setTransactTime" (Lit (VInt 8));
    Call "original" "setUserInfo" (Lit (VStr [49; 49; 49; 49; 49; 49; 49; 49; 49; 49; 49; 49; 49; 49; 49; 49; 49; 49; 49; 49; 49; 49; 49; 49; 49; 49; 49; 49; 49; 49; 49; 49]));
    Encode "original";
    New "decoded" "sse.Confirm";
    Decode "decoded";
    AssertEquals "original" "decoded" ]%string = true.
Proof. vm_compute. reflexivity. Qed.

(* sse-bin/src/test/java/com/finproto/sse/bin/messages/ExecRptEndOfStreamTest.java:11-22 testEncodeDecode *)
Example sse_ExecRptEndOfStreamTest_testEncodeDecode : test_passes
  [ New "original" "sse.ExecRptEndOfStream";
    Call "original" "setPbu" (Lit (VStr [49; 49; 49; 49; 49; 49; 49; 49]));
    Call "original" "setSetId" (Lit (VInt 4));
    Call "original" "setEndReportIndex" (Lit (VInt 8));
    Encode "original";
    New "decoded" "sse.ExecRptEndOfStream";
    Decode "decoded";
    AssertEquals "original" "decoded" ]%string = true.
Proof. vm_compute. reflexivity. Qed.

(* sse-bin/src/test/java/com/finproto/sse/bin/messages/ExecRptInfoTest.java:12-23 testEncodeDecode *)
Example sse_ExecRptInfoTest_testEncodeDecode : test_passes
  [ New "original" "sse.ExecRptInfo";
    Call "original" "setPlatformId" (Lit (VInt 2));
    Call "original" "setPbu" (AsList [(Lit (VStr [49; 49; 49; 49; 49; 49; 49; 49]))]);
    Call "original" "setSetId" (AsList [(Lit (VInt 4))]);
    Encode "original";
    New "decoded" "sse.ExecRptInfo";
    Decode "decoded";
    AssertEquals "original" "decoded" ]%string = true.
Proof. vm_compute. reflexivity. Qed.

(* sse-bin/src/test/java/com/finproto/sse/bin/messages/ExecRptSyncRspTest.java:12-28 testEncodeDecode *)
Example sse_ExecRptSyncRspTest_testEncodeDecode : test_passes
  [ New "original" "sse.ExecRptSyncRsp";
    New "subExecRptSyncRsp" "sse.ExecRptSyncRsp.SubExecRptSyncRsp";
    Call "subExecRptSyncRsp" "setPbu" (Lit (VStr [49; 49; 49; 49; 49; 49; 49; 49]));
    Call "subExecRptSyncRsp" "setSetId" (Lit (VInt 4));
    Call "subExecRptSyncRsp" "setBeginReportIndex" (Lit (VInt 8));
    Call "subExecRptSyncRsp" "setEndReportIndex" (Lit (VInt 8));
    Call "subExecRptSyncRsp" "setRejReason" (Lit (VInt 4));
    Call "subExecRptSyncRsp" "setText" (Lit (VStr [49; 49; 49; 49; 49; 49; 49; 49; 49; 49; 49; 49; 49; 49; 49; 49; 49; 49; 49; 49; 49; 49; 49; 49; 49; 49; 49; 49; 49; 49; 49; 49; 49; 49; 49; 49; 49; 49; 49; 49; 49; 49; 49; 49; 49; 49; 49; 49; 49; 49; 49; 49; 49; 49; 49; 49; 49; 49; 49; 49; 49; 49; 49; 49]));
    Call "original" "setSubExecRptSyncRsp" (AsList [(Var "subExecRptSyncRsp")]);
    Encode "original";
    New "decoded" "sse.ExecRptSyncRsp";
    Decode "decoded";
    AssertEquals "original" "decoded" ]%string = true.
Proof. vm_compute. reflexivity. Qed.

(* sse-bin/src/test/java/com/finproto/sse/bin/messages/ExecRptSyncTest.java:12-25 testEncodeDecode *)
Example sse_ExecRptSyncTest_testEncodeDecode : test_passes
  [ New "original" "sse.ExecRptSync";
    New "subExecRptSync" "sse.ExecRptSync.SubExecRptSync";
    Call "subExecRptSync" "setPbu" (Lit (VStr [49; 49; 49; 49; 49; 49; 49; 49]));
    Call "subExecRptSync" "setSetId" (Lit (VInt 4));
    Call "subExecRptSync" "setBeginReportIndex" (Lit (VInt 8));
    Call "original" "setSubExecRptSync" (AsList [(Var "subExecRptSync")]);
    Encode "original";
    New "decoded" "sse.ExecRptSync";
    Decode "decoded";
    AssertEquals "original" "decoded" ]%string = true.
Proof. vm_compute. reflexivity. Qed.

(* sse-bin/src/test/java/com/finproto/sse/bin/messages/HeartbeatTest.java:11-19 testEncodeDecode *)
Example sse_HeartbeatTest_testEncodeDecode : test_passes
  [ New "original" "sse.Heartbeat";
    Encode "original";
    New "decoded" "sse.Heartbeat";
    Decode "decoded";
    AssertEquals "original" "decoded" ]%string = true.
Proof. vm_compute. reflexivity. Qed.

(* sse-bin/src/test/java/com/finproto/sse/bin/messages/LogonTest.java:11-25 testEncodeDecode *)
Example sse_LogonTest_testEncodeDecode : test_passes
  [ New "original" "sse.Logon";
    Call "original" "setSenderCompId" (Lit (VStr [49; 49; 49; 49; 49; 49; 49; 49; 49; 49; 49; 49; 49; 49; 49; 49; 49; 49; 49; 49; 49; 49; 49; 49; 49; 49; 49; 49; 49; 49; 49; 49]));
    Call "original" "setTargetCompId" (Lit (VStr [49; 49; 49; 49; 49; 49; 49; 49; 49; 49; 49; 49; 49; 49; 49; 49; 49; 49; 49; 49; 49; 49; 49; 49; 49; 49; 49; 49; 49; 49; 49; 49]));
    Call "original" "setHeartBtInt" (Lit (VInt 2));
    Call "original" "setPrtclVersion" (Lit (VStr [49; 49; 49; 49; 49; 49; 49; 49]));
    Call "original" "setTradeDate" (Lit (VInt 4));
    Call "original" "setQsize" (Lit (VInt 4));
    Encode "original";
    New "decoded" "sse.Logon";
    Decode "decoded";
    AssertEquals "original" "decoded" ]%string = true.
Proof. vm_compute. reflexivity. Qed.

(* sse-bin/src/test/java/com/finproto/sse/bin/messages/LogoutTest.java:11-21 testEncodeDecode *)
Example sse_LogoutTest_testEncodeDecode : test_passes
  [ New "original" "sse.Logout";
    Call "original" "setSessionStatus" (Lit (VInt 4));
    Call "original" "setText" (Lit (VStr [49; 49; 49; 49; 49; 49; 49; 49; 49; 49; 49; 49; 49; 49; 49; 49; 49; 49; 49; 49; 49; 49; 49; 49; 49; 49; 49; 49; 49; 49; 49; 49; 49; 49; 49; 49; 49; 49; 49; 49; 49; 49; 49; 49; 49; 49; 49; 49; 49; 49; 49; 49; 49; 49; 49; 49; 49; 49; 49; 49; 49; 49; 49; 49]));
    Encode "original";
    New "decoded" "sse.Logout";
    Decode "decoded";
    AssertEquals "original" "decoded" ]%string = true.
Proof. vm_compute. reflexivity. Qed.

(* sse-bin/src/test/java/com/finproto/sse/bin/messages/NewOrderSingleTest.java:11-35 testEncodeDecode *)
Example sse_NewOrderSingleTest_testEncodeDecode : test_passes
  [ New "original" "sse.NewOrderSingle";
    Call "original" "setBizId" (Lit (VInt 4));
    Call "original" "setBizPbu" (Lit (VStr [49; 49; 49; 49; 49; 49; 49; 49]));
    Call "original" "setClOrdId" (Lit (VStr [49; 49; 49; 49; 49; 49; 49; 49; 49; 49]));
    Call "original" "setSecurityId" (Lit (VStr [49; 49; 49; 49; 49; 49; 49; 49; 49; 49; 49; 49]));
    Call "original" "setAccount" (Lit (VStr [49; 49; 49; 49; 49; 49; 49; 49; 49; 49; 49; 49; 49]));
    Call "original" "setOwnerType" (Lit (VInt 1));
    Call "original" "setSide" (Lit (VStr [49]));
    Call "original" "setPrice" (Lit (VInt 8));
    Call "original" "setOrderQty" (Lit (VInt 8));
    Call "original" "setOrdType" (Lit (VStr [49]));
    Call "original" "setTimeInForce" (Lit (VStr [49]));
    Call "original" "setTransactTime" (Lit (VInt 8));
    Call "original" "setCreditTag" (Lit (VStr [49; 49]));
    Call "original" "setClearingFirm" (Lit (VStr [49; 49; 49; 49; 49; 49; 49; 49]));
    Call "original" "setBranchId" (Lit (VStr [49; 49; 49; 49; 49; 49; 49; 49]));
    Call "original" "setUserInfo" (Lit (VStr [49; 49; 49; 49; 49; 49; 49; 49; 49; 49; 49; 49; 49; 49; 49; 49; 49; 49; 49; 49; 49; 49; 49; 49; 49; 49; 49; 49; 49; 49; 49; 49]));
    Encode "original";
    New "decoded" "sse.NewOrderSingle";
    Decode "decoded";
    AssertEquals "original" "decoded" ]%string = true.
Proof. vm_compute. reflexivity. Qed.

(* sse-bin/src/test/java/com/finproto/sse/bin/messages/OrderCancelTest.java:11-30 testEncodeDecode *)
Example sse_OrderCancelTest_testEncodeDecode : test_passes
  [ New "original" "sse.OrderCancel";
    Call "original" "setBizId" (Lit (VInt 4));
    Call "original" "setBizPbu" (Lit (VStr [49; 49; 49; 49; 49; 49; 49; 49]));
    Call "original" "setClOrdId" (Lit (VStr [49; 49; 49; 49; 49; 49; 49; 49; 49; 49]));
    Call "original" "setSecurityId" (Lit (VStr [49; 49; 49; 49; 49; 49; 49; 49; 49; 49; 49; 49]));
    Call "original" "setAccount" (Lit (VStr [49; 49; 49; 49; 49; 49; 49; 49; 49; 49; 49; 49; 49]));
    Call "original" "setOwnerType" (Lit (VInt 1));
    Call "original" "setSide" (Lit (VStr [49]));
    Call "original" "setOrigClOrdId" (Lit (VStr [49; 49; 49; 49; 49; 49; 49; 49; 49; 49]));
    Call "original" "setTransactTime" (Lit (VInt 8));
    Call "original" "setBranchId" (Lit (VStr [49; 49; 49; 49; 49; 49; 49; 49]));
    Call "original" "setUserInfo" (Lit (VStr [49; 49; 49; 49; 49; 49; 49; 49; 49; 49; 49; 49; 49; 49; 49; 49; 49; 49; 49; 49; 49; 49; 49; 49; 49; 49; 49; 49; 49; 49; 49; 49]));
    Encode "original";
    New "decoded" "sse.OrderCancel";
    Decode "decoded";
    AssertEquals "original" "decoded" ]%string = true.
Proof. vm_compute. reflexivity. Qed.

(* sse-bin/src/test/java/com/finproto/sse/bin/messages/OrderRejectTest.java:11-27 testEncodeDecode *)
Example sse_OrderRejectTest_testEncodeDecode : test_passes
  [ New "original" "sse.OrderReject";
    Call "original" "setBizId" (Lit (VInt 4));
    Call "original" "setBizPbu" (Lit (VStr [49; 49; 49; 49; 49; 49; 49; 49]));
    Call "original" "setClOrdId" (Lit (VStr [49; 49; 49; 49; 49; 49; 49; 49; 49; 49]));
    Call "original" "setSecurityId" (Lit (VStr [49; 49; 49; 49; 49; 49; 49; 49; 49; 49; 49; 49]));
    Call "original" "setOrdRejReason" (Lit (VInt 4));
    Call "original" "setTradeDate" (Lit (VInt 4));
    Call "original" "setTransactTime" (Lit (VInt 8));
    Call "original" "setUserInfo" (Lit (VStr [49; 49; 49; 49; 49; 49; 49; 49; 49; 49; 49; 49; 49; 49; 49; 49; 49; 49; 49; 49; 49; 49; 49; 49; 49; 49; 49; 49; 49; 49; 49; 49]));
    Encode "original";
    New "decoded" "sse.OrderReject";
    Decode "decoded";
    AssertEquals "original" "decoded" ]%string = true.
Proof. vm_compute. reflexivity. Qed.

(* sse-bin/src/test/java/com/finproto/sse/bin/messages/PlatformStateTest.java:11-21 testEncodeDecode *)
Example sse_PlatformStateTest_testEncodeDecode : test_passes
  [ New "original" "sse.PlatformState";
    Call "original" "setPlatformId" (Lit (VInt 2));
    Call "original" "setPlatformState" (Lit (VInt 2));
    Encode "original";
    New "decoded" "sse.PlatformState";
    Decode "decoded";
    AssertEquals "original" "decoded" ]%string = true.
Proof. vm_compute. reflexivity. Qed.

(* sse-bin/src/test/java/com/finproto/sse/bin/messages/ReportTest.java:11-45 testEncodeDecode *)
Example sse_ReportTest_testEncodeDecode : test_passes
  [ New "original" "sse.Report";
    Call "original" "setPbu" (Lit (VStr [49; 49; 49; 49; 49; 49; 49; 49]));
    Call "original" "setSetId" (Lit (VInt 4));
    Call "original" "setReportIndex" (Lit (VInt 8));
    Call "original" "setBizId" (Lit (VInt 4));
    Call "original" "setExecType" (Lit (VStr [49]));
    Call "original" "setBizPbu" (Lit (VStr [49; 49; 49; 49; 49; 49; 49; 49]));
    Call "original" "setClOrdId" (Lit (VStr [49; 49; 49; 49; 49; 49; 49; 49; 49; 49]));
    Call "original" "setSecurityId" (Lit (VStr [49; 49; 49; 49; 49; 49; 49; 49; 49; 49; 49; 49]));
    Call "original" "setAccount" (Lit (VStr [49; 49; 49; 49; 49; 49; 49; 49; 49; 49; 49; 49; 49]));
    Call "original" "setOwnerType" (Lit (VInt 1));
    Call "original" "setOrderEntryTime" (Lit (VInt 8));
    Call "original" "setLastPx" (Lit (VInt 8));
    Call "original" "setLastQty" (Lit (VInt 8));
    Call "original" "setGrossTradeAmt" (Lit (VInt 8));
    Call "original" "setSide" (Lit (VStr [49]));
    Call "original" "setOrderQty" (Lit (VInt 8));
    Call "original" "setLeavesQty" (Lit (VInt 8));
    Call "original" "setOrdStatus" (Lit (VStr [49]));
    Call "original" "setCreditTag" (Lit (VStr [49; 49]));
    Call "original" "setClearingFirm" (Lit (VStr [49; 49; 49; 49; 49; 49; 49; 49]));
    Call "original" "setBranchId" (Lit (VStr [49; 49; 49; 49; 49; 49; 49; 49]));
    Call "original" "setTrdCnfmId" (Lit (VStr [49; 49; 49; 49; 49; 49; 49; 49; 49; 49; 49; 49; 49; 49; 49; 49]));
    Call "original" "setOrdCnfmId" (Lit (VStr [49; 49; 49; 49; 49; 49; 49; 49; 49; 49; 49; 49; 49; 49; 49; 49]));
    Call "original" "setTradeDate" (Lit (VInt 4));
    Call "original" "setTransactTime" (Lit (VInt 8));
    Call "original" "setUserInfo" (Lit (VStr [49; 49; 49; 49; 49; 49; 49; 49; 49; 49; 49; 49; 49; 49; 49; 49; 49; 49; 49; 49; 49; 49; 49; 49; 49; 49; 49; 49; 49; 49; 49; 49]));
    Encode "original";
    New "decoded" "sse.Report";
    Decode "decoded";
    AssertEquals "original" "decoded" ]%string = true.
Proof. vm_compute. reflexivity. Qed.

(* sse-bin/src/test/java/com/finproto/sse/bin/messages/SseBinaryTest.java:11-24 testEncodeDecode *)
Example sse_SseBinaryTest_testEncodeDecode : test_passes
  [ New "original" "sse.SseBinary";
    Call "original" "setMsgSeqNum" (Lit (VInt 8));
    Call "original" "setMsgType" (Lit (VInt 33));
    New "heartbeat" "sse.Heartbeat";
    Call "original" "setBody" (Var "heartbeat");
    Call "original" "setChecksum" (Lit (VInt 4));
    Encode "original";
    New "decoded" "sse.SseBinary";
    Decode "decoded";
    AssertEquals "original" "decoded" ]%string = true.
Proof. vm_compute. reflexivity. Qed.
