(* GENERATED by tools/translate.py: the wire layout of each message class of sample-bin, i.e. its fields in wire
   order with their formats.  This is specification data (what the messages look like on the wire);
   that the translated Java code follows it is proved in Proofs/Conform.v. *)
From Coq Require Import String ZArith List.
From Verif.Model Require Import JavaPrim Ast.
From Verif.Spec Require Import Wire.
Import ListNotations.
Open Scope string_scope.

(* sample-bin/src/main/java/com/finproto/sample/messages/BasicPacket.java:10-514 *)
Definition sample_BasicPacket_layout : layout :=
      [ ("fieldI8", WInt 1 BE);
        ("fieldI16", WInt 2 LE);
        ("fieldI32", WInt 4 LE);
        ("fieldI64", WInt 8 LE);
        ("fieldChar", WFix 1 48 true);
        ("fieldU8", WInt 1 BE);
        ("fieldU16", WInt 2 LE);
        ("fieldU32", WInt 4 LE);
        ("fieldU64", WInt 8 LE);
        ("fieldF32", WFlt 4 LE);
        ("fieldF64", WFlt 8 LE);
        ("fieldI8List", WList 2 LE (WInt 1 BE));
        ("fieldI16List", WList 2 LE (WInt 2 LE));
        ("fieldI32List", WList 2 LE (WInt 4 LE));
        ("fieldI64List", WList 2 LE (WInt 8 LE));
        ("fieldCharList", WList 2 LE (WFix 1 48 true));
        ("fieldU8List", WList 2 LE (WInt 1 BE));
        ("fieldU16List", WList 2 LE (WInt 2 LE));
        ("fieldU32List", WList 2 LE (WInt 4 LE));
        ("fieldU64List", WList 2 LE (WInt 8 LE));
        ("fieldF32List", WList 2 LE (WFlt 4 LE));
        ("fieldF64List", WList 2 LE (WFlt 8 LE)) ].

(* sample-bin/src/main/java/com/finproto/sample/messages/EmptyPacket.java:7-35 *)
Definition sample_EmptyPacket_layout : layout :=
      [].

(* sample-bin/src/main/java/com/finproto/sample/messages/NestedPacket.java:10-179 *)
Definition sample_NestedPacket_layout : layout :=
      [ ("subPacket", WObj "sample.SubPacket");
        ("subPacketList", WList 2 LE (WObj "sample.SubPacket"));
        ("inerPacket", WObj "sample.NestedPacket.InerPacket") ].

(* sample-bin/src/main/java/com/finproto/sample/messages/NestedPacket.java:106-178 *)
Definition sample_NestedPacket_InerPacket_layout : layout :=
      [ ("fieldU32", WInt 4 LE);
        ("fieldI16List", WList 2 LE (WInt 2 LE)) ].

(* sample-bin/src/main/java/com/finproto/sample/messages/RootPacket.java:13-146 *)
Definition sample_RootPacket_layout : layout :=
      [ ("msgType", WInt 2 LE);
        ("payloadLen", WLen 4 LE);
        ("payload", WBody "msgType");
        ("checksum", WSum 4 LE "CRC32") ].

(* sample-bin/src/main/java/com/finproto/sample/messages/StringPacket.java:12-356 *)
Definition sample_StringPacket_layout : layout :=
      [ ("fieldDynamicString", WDyn 2 LE);
        ("fieldDynamicString1", WDyn 2 LE);
        ("fieldFixedString1", WFix 1 48 true);
        ("fieldFixedString10", WFix 10 48 true);
        ("fieldFixedString10Pad", WFix 10 32 true);
        ("fieldFixedString10PadWithNullTerminator", WFix 10 0 false);
        ("fieldDynamicStringList", WList 2 LE (WDyn 2 LE));
        ("fieldDynamicString1List", WList 2 LE (WDyn 2 LE));
        ("fieldFixedString1List", WList 2 LE (WFix 1 48 true));
        ("fieldFixedString10List", WList 2 LE (WFix 10 48 true));
        ("fieldFixedString10ListPad", WList 2 LE (WFix 10 48 false));
        ("fieldFixedString10PadWithNullTerminatorList", WList 2 LE (WFix 10 0 false)) ].

(* sample-bin/src/main/java/com/finproto/sample/messages/SubPacket.java:10-82 *)
Definition sample_SubPacket_layout : layout :=
      [ ("fieldU32", WInt 4 LE);
        ("fieldI16List", WList 2 LE (WInt 2 LE)) ].

Definition sample_layouts : list (string * layout) :=
      [ ("sample.BasicPacket", sample_BasicPacket_layout);
        ("sample.EmptyPacket", sample_EmptyPacket_layout);
        ("sample.NestedPacket", sample_NestedPacket_layout);
        ("sample.NestedPacket.InerPacket", sample_NestedPacket_InerPacket_layout);
        ("sample.RootPacket", sample_RootPacket_layout);
        ("sample.StringPacket", sample_StringPacket_layout);
        ("sample.SubPacket", sample_SubPacket_layout) ].
