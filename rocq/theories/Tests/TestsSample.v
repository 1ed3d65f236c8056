(* GENERATED by tools/testgen.py from the tests of sample-bin.  Do not edit. *)
From Coq Require Import ZArith List String.
From Verif.Model Require Import Ast.
From Verif.Tests Require Import Script.
Import ListNotations.
Open Scope Z_scope.

(* sample-bin/src/test/java/com/finproto/sample/messages/BasicPacketTest.java:12-42 testEncodeDecode *)
Example sample_BasicPacketTest_testEncodeDecode : test_passes
  [ New "original" "sample.BasicPacket";
    Call "original" "setFieldI8" (Lit (VInt 1));
    Call "original" "setFieldI16" (Lit (VInt 2));
    Call "original" "setFieldI32" (Lit (VInt 4));
    Call "original" "setFieldI64" (Lit (VInt 8));
    Call "original" "setFieldChar" (Lit (VStr [49]));
    Call "original" "setFieldU8" (Lit (VInt 1));
    Call "original" "setFieldU16" (Lit (VInt 2));
    Call "original" "setFieldU32" (Lit (VInt 4));
    Call "original" "setFieldU64" (Lit (VInt 8));
    Call "original" "setFieldF32" (Lit (VFlt 1082130432));
    Call "original" "setFieldF64" (Lit (VFlt 4620693217682128896));
    Call "original" "setFieldI8List" (AsList [(Lit (VInt 1))]);
    Call "original" "setFieldI16List" (AsList [(Lit (VInt 2))]);
    Call "original" "setFieldI32List" (AsList [(Lit (VInt 4))]);
    Call "original" "setFieldI64List" (AsList [(Lit (VInt 8))]);
    Call "original" "setFieldCharList" (AsList [(Lit (VStr [49]))]);
    Call "original" "setFieldU8List" (AsList [(Lit (VInt 1))]);
    Call "original" "setFieldU16List" (AsList [(Lit (VInt 2))]);
    Call "original" "setFieldU32List" (AsList [(Lit (VInt 4))]);
    Call "original" "setFieldU64List" (AsList [(Lit (VInt 8))]);
    Call "original" "setFieldF32List" (AsList [(Lit (VFlt 1082130432))]);
    Call "original" "setFieldF64List" (AsList [(Lit (VFlt 4620693217682128896))]);
    Encode "original";
    New "decoded" "sample.BasicPacket";
    Decode "decoded";
    AssertEquals "original" "decoded" ]%string = true.
Proof. vm_compute. reflexivity. Qed.

(* sample-bin/src/test/java/com/finproto/sample/messages/EmptyPacketTest.java:11-19 testEncodeDecode *)
Example sample_EmptyPacketTest_testEncodeDecode : test_passes
  [ New "original" "sample.EmptyPacket";
    Encode "original";
    New "decoded" "sample.EmptyPacket";
    Decode "decoded";
    AssertEquals "original" "decoded" ]%string = true.
Proof. vm_compute. reflexivity. Qed.

(* sample-bin/src/test/java/com/finproto/sample/messages/NestedPacketTest.java:12-32 testEncodeDecode *)
Example sample_NestedPacketTest_testEncodeDecode : test_passes
  [ New "original" "sample.NestedPacket";
    New "subPacket0" "sample.SubPacket";
    Call "subPacket0" "setFieldU32" (Lit (VInt 4));
    Call "subPacket0" "setFieldI16List" (AsList [(Lit (VInt 2))]);
    Call "original" "setSubPacket" (Var "subPacket0");
    New "subPacketList0" "sample.SubPacket";
    Call "subPacketList0" "setFieldU32" (Lit (VInt 4));
    Call "subPacketList0" "setFieldI16List" (AsList [(Lit (VInt 2))]);
    Call "original" "setSubPacketList" (AsList [(Var "subPacketList0")]);
    New "inerPacket" "sample.NestedPacket.InerPacket";
    Call "inerPacket" "setFieldU32" (Lit (VInt 4));
    Call "inerPacket" "setFieldI16List" (AsList [(Lit (VInt 2))]);
    Call "original" "setInerPacket" (Var "inerPacket");
    Encode "original";
    New "decoded" "sample.NestedPacket";
    Decode "decoded";
    AssertEquals "original" "decoded" ]%string = true.
Proof. vm_compute. reflexivity. Qed.

(* sample-bin/src/test/java/com/finproto/sample/messages/RootPacketTest.java:12-46 testEncodeDecode *)
Example sample_RootPacketTest_testEncodeDecode : test_passes
  [ New "original" "sample.RootPacket";
    Call "original" "setMsgType" (Lit (VInt 1));
    New "basicPacket" "sample.BasicPacket";
    Call "basicPacket" "setFieldI8" (Lit (VInt 1));
    Call "basicPacket" "setFieldI16" (Lit (VInt 2));
    Call "basicPacket" "setFieldI32" (Lit (VInt 4));
    Call "basicPacket" "setFieldI64" (Lit (VInt 8));
    Call "basicPacket" "setFieldChar" (Lit (VStr [49]));
    Call "basicPacket" "setFieldU8" (Lit (VInt 1));
    Call "basicPacket" "setFieldU16" (Lit (VInt 2));
    Call "basicPacket" "setFieldU32" (Lit (VInt 4));
    Call "basicPacket" "setFieldU64" (Lit (VInt 8));
    Call "basicPacket" "setFieldF32" (Lit (VFlt 1082130432));
    Call "basicPacket" "setFieldF64" (Lit (VFlt 4620693217682128896));
    Call "basicPacket" "setFieldI8List" (AsList [(Lit (VInt 1))]);
    Call "basicPacket" "setFieldI16List" (AsList [(Lit (VInt 2))]);
    Call "basicPacket" "setFieldI32List" (AsList [(Lit (VInt 4))]);
    Call "basicPacket" "setFieldI64List" (AsList [(Lit (VInt 8))]);
    Call "basicPacket" "setFieldCharList" (AsList [(Lit (VStr [49]))]);
    Call "basicPacket" "setFieldU8List" (AsList [(Lit (VInt 1))]);
    Call "basicPacket" "setFieldU16List" (AsList [(Lit (VInt 2))]);
    Call "basicPacket" "setFieldU32List" (AsList [(Lit (VInt 4))]);
    Call "basicPacket" "setFieldU64List" (AsList [(Lit (VInt 8))]);
    Call "basicPacket" "setFieldF32List" (AsList [(Lit (VFlt 1082130432))]);
    Call "basicPacket" "setFieldF64List" (AsList [(Lit (VFlt 4620693217682128896))]);
    Call "original" "setPayload" (Var "basicPacket");
    Call "original" "setChecksum" (Lit (VInt 4));
    Encode "original";
    New "decoded" "sample.RootPacket";
    Decode "decoded";
    AssertEquals "original" "decoded" ]%string = true.
Proof. vm_compute. reflexivity. Qed.

(* sample-bin/src/test/java/com/finproto/sample/messages/StringPacketTest.java:12-32 testEncodeDecode *)
Example sample_StringPacketTest_testEncodeDecode : test_passes
  [ New "original" "sample.StringPacket";
    Call "original" "setFieldDynamicString" (Lit (VStr [101; 120; 97; 109; 112; 108; 101]));
    Call "original" "setFieldDynamicString1" (Lit (VStr [101; 120; 97; 109; 112; 108; 101]));
    Call "original" "setFieldFixedString1" (Lit (VStr [49]));
    Call "original" "setFieldFixedString10" (Lit (VStr [49; 49; 49; 49; 49; 49; 49; 49; 49; 49]));
    Call "original" "setFieldFixedString10Pad" (Lit (VStr [49; 49; 49; 49; 49; 49; 49; 49; 49; 49]));
    Call "original" "setFieldFixedString10PadWithNullTerminator" (Lit (VStr [49; 49; 49; 49; 49; 49; 49; 49; 49; 49]));
    Call "original" "setFieldDynamicStringList" (AsList [(Lit (VStr [101; 120; 97; 109; 112; 108; 101]))]);
    Call "original" "setFieldDynamicString1List" (AsList [(Lit (VStr [101; 120; 97; 109; 112; 108; 101]))]);
    Call "original" "setFieldFixedString1List" (AsList [(Lit (VStr [49]))]);
    Call "original" "setFieldFixedString10List" (AsList [(Lit (VStr [49; 49; 49; 49; 49; 49; 49; 49; 49; 49]))]);
    Call "original" "setFieldFixedString10ListPad" (AsList [(Lit (VStr [49; 49; 49; 49; 49; 49; 49; 49; 49; 49]))]);
    Call "original" "setFieldFixedString10PadWithNullTerminatorList" (AsList [(Lit (VStr [49; 49; 49; 49; 49; 49; 49; 49; 49; 49]))]);
    Encode "original";
    New "decoded" "sample.StringPacket";
    Decode "decoded";
    AssertEquals "original" "decoded" ]%string = true.
Proof. vm_compute. reflexivity. Qed.

(* sample-bin/src/test/java/com/finproto/sample/messages/SubPacketTest.java:12-22 testEncodeDecode *)
Example sample_SubPacketTest_testEncodeDecode : test_passes
  [ New "original" "sample.SubPacket";
    Call "original" "setFieldU32" (Lit (VInt 4));
    Call "original" "setFieldI16List" (AsList [(Lit (VInt 2))]);
    Encode "original";
    New "decoded" "sample.SubPacket";
    Decode "decoded";
    AssertEquals "original" "decoded" ]%string = true.
Proof. vm_compute. reflexivity. Qed.
