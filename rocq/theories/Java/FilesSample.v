(* GENERATED by tools/mksrc.py: the files of /repo/sample-bin/src/main/java and the trees they should be. *)
From Coq Require Import List String.
From Verif.Model Require Import Ast GenSample.
From Verif.Java Require Import Syntax Source SrcSample Sources.
Import ListNotations.
Open Scope string_scope.

(* sample-bin/src/main/java/com/finproto/sample/messages/BasicPacket.java *)
Definition main_sample_BasicPacket : source_class := {| sc_def := sample_BasicPacket; sc_flip := false; sc_form := FNone; sc_mods := ["public"] |}.
Definition file_sample_BasicPacket : source := {| s_text := text_sample_BasicPacket;
  s_package := ["com"; "finproto"; "sample"; "messages"];
  s_imports := [["com"; "finproto"; "codec"; "BinaryCodec"]; ["io"; "netty"; "buffer"; "ByteBuf"]; ["java"; "util"; "ArrayList"]; ["java"; "util"; "List"]; ["java"; "util"; "Objects"]];
  s_main := main_sample_BasicPacket; s_nested := [] |}.

(* sample-bin/src/main/java/com/finproto/sample/messages/EmptyPacket.java *)
Definition main_sample_EmptyPacket : source_class := {| sc_def := sample_EmptyPacket; sc_flip := false; sc_form := FNone; sc_mods := ["public"] |}.
Definition file_sample_EmptyPacket : source := {| s_text := text_sample_EmptyPacket;
  s_package := ["com"; "finproto"; "sample"; "messages"];
  s_imports := [["com"; "finproto"; "codec"; "BinaryCodec"]; ["io"; "netty"; "buffer"; "ByteBuf"]];
  s_main := main_sample_EmptyPacket; s_nested := [] |}.

(* sample-bin/src/main/java/com/finproto/sample/messages/NestedPacket.java *)
Definition main_sample_NestedPacket : source_class := {| sc_def := sample_NestedPacket; sc_flip := false; sc_form := FNone; sc_mods := ["public"] |}.
Definition main_sample_NestedPacket_InerPacket : source_class := {| sc_def := sample_NestedPacket_InerPacket; sc_flip := false; sc_form := FNone; sc_mods := ["public"; "static"] |}.
Definition file_sample_NestedPacket : source := {| s_text := text_sample_NestedPacket;
  s_package := ["com"; "finproto"; "sample"; "messages"];
  s_imports := [["com"; "finproto"; "codec"; "BinaryCodec"]; ["io"; "netty"; "buffer"; "ByteBuf"]; ["java"; "util"; "ArrayList"]; ["java"; "util"; "List"]; ["java"; "util"; "Objects"]];
  s_main := main_sample_NestedPacket; s_nested := [main_sample_NestedPacket_InerPacket] |}.

(* sample-bin/src/main/java/com/finproto/sample/messages/RootPacket.java *)
Definition main_sample_RootPacket : source_class := {| sc_def := sample_RootPacket; sc_flip := true; sc_form := (FEnum sample_RootPacket_factory); sc_mods := ["public"] |}.
Definition file_sample_RootPacket : source := {| s_text := text_sample_RootPacket;
  s_package := ["com"; "finproto"; "sample"; "messages"];
  s_imports := [["com"; "finproto"; "codec"; "BinaryCodec"]; ["com"; "finproto"; "codec"; "ChecksumService"]; ["com"; "finproto"; "codec"; "ChecksumServiceFactory"]; ["io"; "netty"; "buffer"; "ByteBuf"]; ["java"; "util"; "HashMap"]; ["java"; "util"; "Map"]; ["java"; "util"; "Objects"]; ["java"; "util"; "function"; "Supplier"]];
  s_main := main_sample_RootPacket; s_nested := [] |}.

(* sample-bin/src/main/java/com/finproto/sample/messages/StringPacket.java *)
Definition main_sample_StringPacket : source_class := {| sc_def := sample_StringPacket; sc_flip := false; sc_form := FNone; sc_mods := ["public"] |}.
Definition file_sample_StringPacket : source := {| s_text := text_sample_StringPacket;
  s_package := ["com"; "finproto"; "sample"; "messages"];
  s_imports := [["com"; "finproto"; "codec"; "BinaryCodec"]; ["io"; "netty"; "buffer"; "ByteBuf"]; ["io"; "netty"; "util"; "internal"; "StringUtil"]; ["java"; "nio"; "charset"; "StandardCharsets"]; ["java"; "util"; "ArrayList"]; ["java"; "util"; "List"]; ["java"; "util"; "Objects"]];
  s_main := main_sample_StringPacket; s_nested := [] |}.

(* sample-bin/src/main/java/com/finproto/sample/messages/SubPacket.java *)
Definition main_sample_SubPacket : source_class := {| sc_def := sample_SubPacket; sc_flip := false; sc_form := FNone; sc_mods := ["public"] |}.
Definition file_sample_SubPacket : source := {| s_text := text_sample_SubPacket;
  s_package := ["com"; "finproto"; "sample"; "messages"];
  s_imports := [["com"; "finproto"; "codec"; "BinaryCodec"]; ["io"; "netty"; "buffer"; "ByteBuf"]; ["java"; "util"; "ArrayList"]; ["java"; "util"; "List"]; ["java"; "util"; "Objects"]];
  s_main := main_sample_SubPacket; s_nested := [] |}.

Definition sample_files : list source :=
  [ file_sample_BasicPacket;
    file_sample_EmptyPacket;
    file_sample_NestedPacket;
    file_sample_RootPacket;
    file_sample_StringPacket;
    file_sample_SubPacket ].
