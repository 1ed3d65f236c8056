(* GENERATED by tools/translate.py from /repo/sample-bin/src/main/java: do not edit by hand.
   One definition per Java message class; each comment cites the file and the line ranges. *)
From Coq Require Import String ZArith List.
From Verif.Model Require Import JavaPrim Ast.
Import ListNotations.
Open Scope string_scope.

(* sample-bin/src/main/java/com/finproto/sample/messages/BasicPacket.java:10-514  class BasicPacket; fields 11-32; encode 211-311; decode 314-403; hashCode 406-430; equals 433-463; toString 466-513; the rest: getters and setters *)
Definition sample_BasicPacket : class_def := {|
  c_name := "sample.BasicPacket";
  c_fields :=
      [ ("fieldI8", TByte);
        ("fieldI16", TShort);
        ("fieldI32", TInt);
        ("fieldI64", TLong);
        ("fieldChar", TStr);
        ("fieldU8", TByte);
        ("fieldU16", TShort);
        ("fieldU32", TInt);
        ("fieldU64", TLong);
        ("fieldF32", TFloat);
        ("fieldF64", TDouble);
        ("fieldI8List", (TList TByte));
        ("fieldI16List", (TList TShort));
        ("fieldI32List", (TList TInt));
        ("fieldI64List", (TList TLong));
        ("fieldCharList", (TList TStr));
        ("fieldU8List", (TList TByte));
        ("fieldU16List", (TList TShort));
        ("fieldU32List", (TList TInt));
        ("fieldU64List", (TList TLong));
        ("fieldF32List", (TList TFloat));
        ("fieldF64List", (TList TDouble)) ];
  c_enc :=
      [ EWrite 1 BE "fieldI8";
        EWrite 2 LE "fieldI16";
        EWrite 4 LE "fieldI32";
        EWrite 8 LE "fieldI64";
        EFix "fieldChar" 1 48 true;
        EWrite 1 BE "fieldU8";
        EWrite 2 LE "fieldU16";
        EWrite 4 LE "fieldU32";
        EWrite 8 LE "fieldU64";
        EWriteF 4 LE "fieldF32";
        EWriteF 8 LE "fieldF64";
        EList "fieldI8List" 2 BE 16 2 LE (XInt 1 BE);
        EList "fieldI16List" 2 BE 16 2 LE (XInt 2 LE);
        EList "fieldI32List" 2 BE 16 2 LE (XInt 4 LE);
        EList "fieldI64List" 2 BE 16 2 LE (XInt 8 LE);
        EList "fieldCharList" 2 BE 16 2 LE (XFix 1 48 true);
        EList "fieldU8List" 2 BE 16 2 LE (XInt 1 BE);
        EList "fieldU16List" 2 BE 16 2 LE (XInt 2 LE);
        EList "fieldU32List" 2 BE 16 2 LE (XInt 4 LE);
        EList "fieldU64List" 2 BE 16 2 LE (XInt 8 LE);
        EList "fieldF32List" 2 BE 16 2 LE (XFlt 4 LE);
        EList "fieldF64List" 2 BE 16 2 LE (XFlt 8 LE) ];
  c_dec :=
      [ DRead 1 BE "fieldI8";
        DRead 2 LE "fieldI16";
        DRead 4 LE "fieldI32";
        DRead 8 LE "fieldI64";
        DFix "fieldChar" 1 48 true;
        DRead 1 BE "fieldU8";
        DRead 2 LE "fieldU16";
        DRead 4 LE "fieldU32";
        DRead 8 LE "fieldU64";
        DReadF 4 LE "fieldF32";
        DReadF 8 LE "fieldF64";
        DList "fieldI8List" 2 LE (YInt 1 BE);
        DList "fieldI16List" 2 LE (YInt 2 LE);
        DList "fieldI32List" 2 LE (YInt 4 LE);
        DList "fieldI64List" 2 LE (YInt 8 LE);
        DList "fieldCharList" 2 LE (YFix 1 48 true);
        DList "fieldU8List" 2 LE (YInt 1 BE);
        DList "fieldU16List" 2 LE (YInt 2 LE);
        DList "fieldU32List" 2 LE (YInt 4 LE);
        DList "fieldU64List" 2 LE (YInt 8 LE);
        DList "fieldF32List" 2 LE (YFlt 4 LE);
        DList "fieldF64List" 2 LE (YFlt 8 LE) ];
  c_eq :=
      [ "fieldI8";
        "fieldI16";
        "fieldI32";
        "fieldI64";
        "fieldChar";
        "fieldU8";
        "fieldU16";
        "fieldU32";
        "fieldU64";
        "fieldF32";
        "fieldF64";
        "fieldI8List";
        "fieldI16List";
        "fieldI32List";
        "fieldI64List";
        "fieldCharList";
        "fieldU8List";
        "fieldU16List";
        "fieldU32List";
        "fieldU64List";
        "fieldF32List";
        "fieldF64List" ];
  c_hash := 
      HashFields [ "fieldI8";
        "fieldI16";
        "fieldI32";
        "fieldI64";
        "fieldChar";
        "fieldU8";
        "fieldU16";
        "fieldU32";
        "fieldU64";
        "fieldF32";
        "fieldF64";
        "fieldI8List";
        "fieldI16List";
        "fieldI32List";
        "fieldI64List";
        "fieldCharList";
        "fieldU8List";
        "fieldU16List";
        "fieldU32List";
        "fieldU64List";
        "fieldF32List";
        "fieldF64List" ];
  c_tag := "BasicPacket";
  c_str :=
      [ ("fieldI8", "fieldI8");
        ("fieldI16", "fieldI16");
        ("fieldI32", "fieldI32");
        ("fieldI64", "fieldI64");
        ("fieldChar", "fieldChar");
        ("fieldU8", "fieldU8");
        ("fieldU16", "fieldU16");
        ("fieldU32", "fieldU32");
        ("fieldU64", "fieldU64");
        ("fieldF32", "fieldF32");
        ("fieldF64", "fieldF64");
        ("fieldI8List", "fieldI8List");
        ("fieldI16List", "fieldI16List");
        ("fieldI32List", "fieldI32List");
        ("fieldI64List", "fieldI64List");
        ("fieldCharList", "fieldCharList");
        ("fieldU8List", "fieldU8List");
        ("fieldU16List", "fieldU16List");
        ("fieldU32List", "fieldU32List");
        ("fieldU64List", "fieldU64List");
        ("fieldF32List", "fieldF32List");
        ("fieldF64List", "fieldF64List") ];
  c_get :=
      [ ("getFieldI8", "fieldI8");
        ("getFieldI16", "fieldI16");
        ("getFieldI32", "fieldI32");
        ("getFieldI64", "fieldI64");
        ("getFieldChar", "fieldChar");
        ("getFieldU8", "fieldU8");
        ("getFieldU16", "fieldU16");
        ("getFieldU32", "fieldU32");
        ("getFieldU64", "fieldU64");
        ("getFieldF32", "fieldF32");
        ("getFieldF64", "fieldF64");
        ("getFieldI8List", "fieldI8List");
        ("getFieldI16List", "fieldI16List");
        ("getFieldI32List", "fieldI32List");
        ("getFieldI64List", "fieldI64List");
        ("getFieldCharList", "fieldCharList");
        ("getFieldU8List", "fieldU8List");
        ("getFieldU16List", "fieldU16List");
        ("getFieldU32List", "fieldU32List");
        ("getFieldU64List", "fieldU64List");
        ("getFieldF32List", "fieldF32List");
        ("getFieldF64List", "fieldF64List") ];
  c_set :=
      [ ("setFieldI8", "fieldI8");
        ("setFieldI16", "fieldI16");
        ("setFieldI32", "fieldI32");
        ("setFieldI64", "fieldI64");
        ("setFieldChar", "fieldChar");
        ("setFieldU8", "fieldU8");
        ("setFieldU16", "fieldU16");
        ("setFieldU32", "fieldU32");
        ("setFieldU64", "fieldU64");
        ("setFieldF32", "fieldF32");
        ("setFieldF64", "fieldF64");
        ("setFieldI8List", "fieldI8List");
        ("setFieldI16List", "fieldI16List");
        ("setFieldI32List", "fieldI32List");
        ("setFieldI64List", "fieldI64List");
        ("setFieldCharList", "fieldCharList");
        ("setFieldU8List", "fieldU8List");
        ("setFieldU16List", "fieldU16List");
        ("setFieldU32List", "fieldU32List");
        ("setFieldU64List", "fieldU64List");
        ("setFieldF32List", "fieldF32List");
        ("setFieldF64List", "fieldF64List") ] |}.

(* sample-bin/src/main/java/com/finproto/sample/messages/EmptyPacket.java:7-35  class EmptyPacket; fields none; encode 10-10; decode 13-13; hashCode 16-18; equals 21-29; toString 32-34; the rest: getters and setters *)
Definition sample_EmptyPacket : class_def := {|
  c_name := "sample.EmptyPacket";
  c_fields :=
      [];
  c_enc :=
      [];
  c_dec :=
      [];
  c_eq :=
      [];
  c_hash := HashSelf;
  c_tag := "EmptyPacket";
  c_str :=
      [];
  c_get :=
      [];
  c_set :=
      [] |}.

(* sample-bin/src/main/java/com/finproto/sample/messages/NestedPacket.java:10-179  class NestedPacket; fields 11-13; encode 40-51; decode 54-72; hashCode 75-77; equals 80-91; toString 94-103; the rest: getters and setters *)
Definition sample_NestedPacket : class_def := {|
  c_name := "sample.NestedPacket";
  c_fields :=
      [ ("subPacket", (TObj "sample.SubPacket"));
        ("subPacketList", (TList (TObj "sample.SubPacket")));
        ("inerPacket", (TObj "sample.NestedPacket.InerPacket")) ];
  c_enc :=
      [ EObj "subPacket";
        EList "subPacketList" 2 BE 16 2 LE XObj;
        EObj "inerPacket" ];
  c_dec :=
      [ DNewIfNull "subPacket" "sample.SubPacket";
        DObj "subPacket";
        DList "subPacketList" 2 LE (YObj "sample.SubPacket");
        DNewIfNull "inerPacket" "sample.NestedPacket.InerPacket";
        DObj "inerPacket" ];
  c_eq :=
      [ "subPacket";
        "subPacketList";
        "inerPacket" ];
  c_hash := 
      HashFields [ "subPacket";
        "subPacketList";
        "inerPacket" ];
  c_tag := "NestedPacket";
  c_str :=
      [ ("subPacket", "subPacket");
        ("subPacketList", "subPacketList");
        ("inerPacket", "inerPacket") ];
  c_get :=
      [ ("getSubPacket", "subPacket");
        ("getSubPacketList", "subPacketList");
        ("getInerPacket", "inerPacket") ];
  c_set :=
      [ ("setSubPacket", "subPacket");
        ("setSubPacketList", "subPacketList");
        ("setInerPacket", "inerPacket") ] |}.

(* sample-bin/src/main/java/com/finproto/sample/messages/NestedPacket.java:106-178  class InerPacket; fields 107-108; encode 127-137; decode 140-149; hashCode 152-154; equals 157-167; toString 170-177; the rest: getters and setters *)
Definition sample_NestedPacket_InerPacket : class_def := {|
  c_name := "sample.NestedPacket.InerPacket";
  c_fields :=
      [ ("fieldU32", TInt);
        ("fieldI16List", (TList TShort)) ];
  c_enc :=
      [ EWrite 4 LE "fieldU32";
        EList "fieldI16List" 2 BE 16 2 LE (XInt 2 LE) ];
  c_dec :=
      [ DRead 4 LE "fieldU32";
        DList "fieldI16List" 2 LE (YInt 2 LE) ];
  c_eq :=
      [ "fieldU32";
        "fieldI16List" ];
  c_hash := 
      HashFields [ "fieldU32";
        "fieldI16List" ];
  c_tag := "InerPacket";
  c_str :=
      [ ("fieldU32", "fieldU32");
        ("fieldI16List", "fieldI16List") ];
  c_get :=
      [ ("getFieldU32", "fieldU32");
        ("getFieldI16List", "fieldI16List") ];
  c_set :=
      [ ("setFieldU32", "fieldU32");
        ("setFieldI16List", "fieldI16List") ] |}.

(* sample-bin/src/main/java/com/finproto/sample/messages/RootPacket.java:13-146  class RootPacket; fields 14-17; encode 52-70; decode 73-79; hashCode 82-84; equals 87-99; toString 102-113; the rest: getters and setters *)
Definition sample_RootPacket : class_def := {|
  c_name := "sample.RootPacket";
  c_fields :=
      [ ("msgType", TShort);
        ("payloadLen", TInt);
        ("payload", TCodec);
        ("checksum", TInt) ];
  c_enc :=
      [ EWrite 2 LE "msgType";
        EMark "payloadLenPos";
        EZero 4 LE;
        EMark "payloadStart";
        EObjOpt "payload";
        EMark "payloadEnd";
        EDiff "payloadLen" "payloadEnd" "payloadStart";
        EPatch 4 LE "payloadLenPos" "payloadLen";
        ESum "CRC32" "checksum";
        EWrite 4 LE "checksum" ];
  c_dec :=
      [ DRead 2 LE "msgType";
        DRead 4 LE "payloadLen";
        DCreate "payload" "msgType";
        DObj "payload";
        DRead 4 LE "checksum" ];
  c_eq :=
      [ "msgType";
        "payloadLen";
        "payload";
        "checksum" ];
  c_hash := 
      HashFields [ "msgType";
        "payloadLen";
        "payload";
        "checksum" ];
  c_tag := "RootPacket";
  c_str :=
      [ ("msgType", "msgType");
        ("payloadLen", "payloadLen");
        ("payload", "payload");
        ("checksum", "checksum") ];
  c_get :=
      [ ("getMsgType", "msgType");
        ("getPayloadLen", "payloadLen");
        ("getPayload", "payload");
        ("getChecksum", "checksum") ];
  c_set :=
      [ ("setMsgType", "msgType");
        ("setPayloadLen", "payloadLen");
        ("setPayload", "payload");
        ("setChecksum", "checksum") ] |}.

(* sample-bin/src/main/java/com/finproto/sample/messages/StringPacket.java:12-356  class StringPacket; fields 13-24; encode 125-208; decode 211-281; hashCode 284-298; equals 301-325; toString 328-355; the rest: getters and setters *)
Definition sample_StringPacket : class_def := {|
  c_name := "sample.StringPacket";
  c_fields :=
      [ ("fieldDynamicString", TStr);
        ("fieldDynamicString1", TStr);
        ("fieldFixedString1", TStr);
        ("fieldFixedString10", TStr);
        ("fieldFixedString10Pad", TStr);
        ("fieldFixedString10PadWithNullTerminator", TStr);
        ("fieldDynamicStringList", (TList TStr));
        ("fieldDynamicString1List", (TList TStr));
        ("fieldFixedString1List", (TList TStr));
        ("fieldFixedString10List", (TList TStr));
        ("fieldFixedString10ListPad", (TList TStr));
        ("fieldFixedString10PadWithNullTerminatorList", (TList TStr)) ];
  c_enc :=
      [ EDyn "fieldDynamicString" 2 BE 2 LE;
        EDyn "fieldDynamicString1" 2 BE 2 LE;
        EFix "fieldFixedString1" 1 48 true;
        EFix "fieldFixedString10" 10 48 true;
        EFix "fieldFixedString10Pad" 10 32 true;
        EFix "fieldFixedString10PadWithNullTerminator" 10 0 false;
        EList "fieldDynamicStringList" 2 BE 16 2 LE (XDyn 2 BE 2 LE);
        EList "fieldDynamicString1List" 2 BE 16 2 LE (XDyn 2 BE 2 LE);
        EList "fieldFixedString1List" 2 BE 16 2 LE (XFix 1 48 true);
        EList "fieldFixedString10List" 2 BE 16 2 LE (XFix 10 48 true);
        EList "fieldFixedString10ListPad" 2 BE 16 2 LE (XFix 10 48 false);
        EList "fieldFixedString10PadWithNullTerminatorList" 2 BE 16 2 LE (XFix 10 0 false) ];
  c_dec :=
      [ DDyn "fieldDynamicString" 2 LE;
        DDyn "fieldDynamicString1" 2 LE;
        DFix "fieldFixedString1" 1 48 true;
        DFix "fieldFixedString10" 10 48 true;
        DFix "fieldFixedString10Pad" 10 32 true;
        DFix "fieldFixedString10PadWithNullTerminator" 10 0 false;
        DList "fieldDynamicStringList" 2 LE (YDyn 2 LE);
        DList "fieldDynamicString1List" 2 LE (YDyn 2 LE);
        DList "fieldFixedString1List" 2 LE (YFix 1 48 true);
        DList "fieldFixedString10List" 2 LE (YFix 10 48 true);
        DList "fieldFixedString10ListPad" 2 LE (YFix 10 48 false);
        DList "fieldFixedString10PadWithNullTerminatorList" 2 LE (YFix 10 0 false) ];
  c_eq :=
      [ "fieldDynamicString";
        "fieldDynamicString1";
        "fieldFixedString1";
        "fieldFixedString10";
        "fieldFixedString10Pad";
        "fieldFixedString10PadWithNullTerminator";
        "fieldDynamicStringList";
        "fieldDynamicString1List";
        "fieldFixedString1List";
        "fieldFixedString10List";
        "fieldFixedString10ListPad";
        "fieldFixedString10PadWithNullTerminatorList" ];
  c_hash := 
      HashFields [ "fieldDynamicString";
        "fieldDynamicString1";
        "fieldFixedString1";
        "fieldFixedString10";
        "fieldFixedString10Pad";
        "fieldFixedString10PadWithNullTerminator";
        "fieldDynamicStringList";
        "fieldDynamicString1List";
        "fieldFixedString1List";
        "fieldFixedString10List";
        "fieldFixedString10ListPad";
        "fieldFixedString10PadWithNullTerminatorList" ];
  c_tag := "StringPacket";
  c_str :=
      [ ("fieldDynamicString", "fieldDynamicString");
        ("fieldDynamicString1", "fieldDynamicString1");
        ("fieldFixedString1", "fieldFixedString1");
        ("fieldFixedString10", "fieldFixedString10");
        ("fieldFixedString10Pad", "fieldFixedString10Pad");
        ("fieldFixedString10PadWithNullTerminator", "fieldFixedString10PadWithNullTerminator");
        ("fieldDynamicStringList", "fieldDynamicStringList");
        ("fieldDynamicString1List", "fieldDynamicString1List");
        ("fieldFixedString1List", "fieldFixedString1List");
        ("fieldFixedString10List", "fieldFixedString10List");
        ("fieldFixedString10ListPad", "fieldFixedString10ListPad");
        ("fieldFixedString10PadWithNullTerminatorList", "fieldFixedString10PadWithNullTerminatorList") ];
  c_get :=
      [ ("getFieldDynamicString", "fieldDynamicString");
        ("getFieldDynamicString1", "fieldDynamicString1");
        ("getFieldFixedString1", "fieldFixedString1");
        ("getFieldFixedString10", "fieldFixedString10");
        ("getFieldFixedString10Pad", "fieldFixedString10Pad");
        ("getFieldFixedString10PadWithNullTerminator", "fieldFixedString10PadWithNullTerminator");
        ("getFieldDynamicStringList", "fieldDynamicStringList");
        ("getFieldDynamicString1List", "fieldDynamicString1List");
        ("getFieldFixedString1List", "fieldFixedString1List");
        ("getFieldFixedString10List", "fieldFixedString10List");
        ("getFieldFixedString10ListPad", "fieldFixedString10ListPad");
        ("getFieldFixedString10PadWithNullTerminatorList", "fieldFixedString10PadWithNullTerminatorList") ];
  c_set :=
      [ ("setFieldDynamicString", "fieldDynamicString");
        ("setFieldDynamicString1", "fieldDynamicString1");
        ("setFieldFixedString1", "fieldFixedString1");
        ("setFieldFixedString10", "fieldFixedString10");
        ("setFieldFixedString10Pad", "fieldFixedString10Pad");
        ("setFieldFixedString10PadWithNullTerminator", "fieldFixedString10PadWithNullTerminator");
        ("setFieldDynamicStringList", "fieldDynamicStringList");
        ("setFieldDynamicString1List", "fieldDynamicString1List");
        ("setFieldFixedString1List", "fieldFixedString1List");
        ("setFieldFixedString10List", "fieldFixedString10List");
        ("setFieldFixedString10ListPad", "fieldFixedString10ListPad");
        ("setFieldFixedString10PadWithNullTerminatorList", "fieldFixedString10PadWithNullTerminatorList") ] |}.

(* sample-bin/src/main/java/com/finproto/sample/messages/SubPacket.java:10-82  class SubPacket; fields 11-12; encode 31-41; decode 44-53; hashCode 56-58; equals 61-71; toString 74-81; the rest: getters and setters *)
Definition sample_SubPacket : class_def := {|
  c_name := "sample.SubPacket";
  c_fields :=
      [ ("fieldU32", TInt);
        ("fieldI16List", (TList TShort)) ];
  c_enc :=
      [ EWrite 4 LE "fieldU32";
        EList "fieldI16List" 2 BE 16 2 LE (XInt 2 LE) ];
  c_dec :=
      [ DRead 4 LE "fieldU32";
        DList "fieldI16List" 2 LE (YInt 2 LE) ];
  c_eq :=
      [ "fieldU32";
        "fieldI16List" ];
  c_hash := 
      HashFields [ "fieldU32";
        "fieldI16List" ];
  c_tag := "SubPacket";
  c_str :=
      [ ("fieldU32", "fieldU32");
        ("fieldI16List", "fieldI16List") ];
  c_get :=
      [ ("getFieldU32", "fieldU32");
        ("getFieldI16List", "fieldI16List") ];
  c_set :=
      [ ("setFieldU32", "fieldU32");
        ("setFieldI16List", "fieldI16List") ] |}.

Definition sample_classes : list class_def :=
      [ sample_BasicPacket;
        sample_EmptyPacket;
        sample_NestedPacket;
        sample_NestedPacket_InerPacket;
        sample_RootPacket;
        sample_StringPacket;
        sample_SubPacket ].

(* sample-bin/src/main/java/com/finproto/sample/messages/RootPacket.java:115-145  factory of RootPacket (key type Short): registrations of its static initialiser, in order *)
Definition sample_RootPacket_factory : list (key * string) :=
      [ (KInt 1, "sample.BasicPacket");
        (KInt 2, "sample.StringPacket");
        (KInt 3, "sample.NestedPacket");
        (KInt 4, "sample.EmptyPacket") ].

Definition sample_factories : list (string * list (key * string)) :=
      [ ("sample.RootPacket", sample_RootPacket_factory) ].
