(* GENERATED by tools/mksrc.py: the files of /repo/szse-bin/src/main/java and the trees they should be. *)
From Coq Require Import List String.
From Verif.Model Require Import Ast GenSzse.
From Verif.Java Require Import Syntax Source SrcSzse Sources.
Import ListNotations.
Open Scope string_scope.

(* szse-bin/src/main/java/com/finproto/szse/bin/messages/BusinessReject.java *)
Definition main_szse_BusinessReject : source_class := {| sc_def := szse_BusinessReject; sc_flip := false; sc_form := FNone; sc_mods := ["public"] |}.
Definition file_szse_BusinessReject : source := {| s_text := text_szse_BusinessReject;
  s_package := ["com"; "finproto"; "szse"; "bin"; "messages"];
  s_imports := [["com"; "finproto"; "codec"; "BinaryCodec"]; ["io"; "netty"; "buffer"; "ByteBuf"]; ["java"; "util"; "Objects"]];
  s_main := main_szse_BusinessReject; s_nested := [] |}.

(* szse-bin/src/main/java/com/finproto/szse/bin/messages/CancelReject.java *)
Definition main_szse_CancelReject : source_class := {| sc_def := szse_CancelReject; sc_flip := false; sc_form := FNone; sc_mods := ["public"] |}.
Definition file_szse_CancelReject : source := {| s_text := text_szse_CancelReject;
  s_package := ["com"; "finproto"; "szse"; "bin"; "messages"];
  s_imports := [["com"; "finproto"; "codec"; "BinaryCodec"]; ["io"; "netty"; "buffer"; "ByteBuf"]; ["java"; "util"; "Objects"]];
  s_main := main_szse_CancelReject; s_nested := [] |}.

(* szse-bin/src/main/java/com/finproto/szse/bin/messages/ExecutionConfirm.java *)
Definition main_szse_ExecutionConfirm : source_class := {| sc_def := szse_ExecutionConfirm; sc_flip := false; sc_form := (FEnum szse_ExecutionConfirm_factory); sc_mods := ["public"] |}.
Definition file_szse_ExecutionConfirm : source := {| s_text := text_szse_ExecutionConfirm;
  s_package := ["com"; "finproto"; "szse"; "bin"; "messages"];
  s_imports := [["com"; "finproto"; "codec"; "BinaryCodec"]; ["io"; "netty"; "buffer"; "ByteBuf"]; ["java"; "util"; "HashMap"]; ["java"; "util"; "Map"]; ["java"; "util"; "Objects"]; ["java"; "util"; "function"; "Supplier"]];
  s_main := main_szse_ExecutionConfirm; s_nested := [] |}.

(* szse-bin/src/main/java/com/finproto/szse/bin/messages/ExecutionReport.java *)
Definition main_szse_ExecutionReport : source_class := {| sc_def := szse_ExecutionReport; sc_flip := false; sc_form := (FEnum szse_ExecutionReport_factory); sc_mods := ["public"] |}.
Definition file_szse_ExecutionReport : source := {| s_text := text_szse_ExecutionReport;
  s_package := ["com"; "finproto"; "szse"; "bin"; "messages"];
  s_imports := [["com"; "finproto"; "codec"; "BinaryCodec"]; ["io"; "netty"; "buffer"; "ByteBuf"]; ["java"; "util"; "HashMap"]; ["java"; "util"; "Map"]; ["java"; "util"; "Objects"]; ["java"; "util"; "function"; "Supplier"]];
  s_main := main_szse_ExecutionReport; s_nested := [] |}.

(* szse-bin/src/main/java/com/finproto/szse/bin/messages/Extend100101.java *)
Definition main_szse_Extend100101 : source_class := {| sc_def := szse_Extend100101; sc_flip := false; sc_form := FNone; sc_mods := ["public"] |}.
Definition file_szse_Extend100101 : source := {| s_text := text_szse_Extend100101;
  s_package := ["com"; "finproto"; "szse"; "bin"; "messages"];
  s_imports := [["com"; "finproto"; "codec"; "BinaryCodec"]; ["io"; "netty"; "buffer"; "ByteBuf"]; ["java"; "util"; "Objects"]];
  s_main := main_szse_Extend100101; s_nested := [] |}.

(* szse-bin/src/main/java/com/finproto/szse/bin/messages/Extend100201.java *)
Definition main_szse_Extend100201 : source_class := {| sc_def := szse_Extend100201; sc_flip := false; sc_form := FNone; sc_mods := ["public"] |}.
Definition file_szse_Extend100201 : source := {| s_text := text_szse_Extend100201;
  s_package := ["com"; "finproto"; "szse"; "bin"; "messages"];
  s_imports := [["com"; "finproto"; "codec"; "BinaryCodec"]; ["io"; "netty"; "buffer"; "ByteBuf"]; ["java"; "util"; "Objects"]];
  s_main := main_szse_Extend100201; s_nested := [] |}.

(* szse-bin/src/main/java/com/finproto/szse/bin/messages/Extend100301.java *)
Definition main_szse_Extend100301 : source_class := {| sc_def := szse_Extend100301; sc_flip := false; sc_form := FNone; sc_mods := ["public"] |}.
Definition file_szse_Extend100301 : source := {| s_text := text_szse_Extend100301;
  s_package := ["com"; "finproto"; "szse"; "bin"; "messages"];
  s_imports := [["com"; "finproto"; "codec"; "BinaryCodec"]; ["io"; "netty"; "buffer"; "ByteBuf"]; ["java"; "util"; "Objects"]];
  s_main := main_szse_Extend100301; s_nested := [] |}.

(* szse-bin/src/main/java/com/finproto/szse/bin/messages/Extend100501.java *)
Definition main_szse_Extend100501 : source_class := {| sc_def := szse_Extend100501; sc_flip := false; sc_form := FNone; sc_mods := ["public"] |}.
Definition file_szse_Extend100501 : source := {| s_text := text_szse_Extend100501;
  s_package := ["com"; "finproto"; "szse"; "bin"; "messages"];
  s_imports := [["com"; "finproto"; "codec"; "BinaryCodec"]; ["io"; "netty"; "buffer"; "ByteBuf"]; ["java"; "util"; "Objects"]];
  s_main := main_szse_Extend100501; s_nested := [] |}.

(* szse-bin/src/main/java/com/finproto/szse/bin/messages/Extend100601.java *)
Definition main_szse_Extend100601 : source_class := {| sc_def := szse_Extend100601; sc_flip := false; sc_form := FNone; sc_mods := ["public"] |}.
Definition file_szse_Extend100601 : source := {| s_text := text_szse_Extend100601;
  s_package := ["com"; "finproto"; "szse"; "bin"; "messages"];
  s_imports := [["com"; "finproto"; "codec"; "BinaryCodec"]; ["io"; "netty"; "buffer"; "ByteBuf"]; ["java"; "util"; "Objects"]];
  s_main := main_szse_Extend100601; s_nested := [] |}.

(* szse-bin/src/main/java/com/finproto/szse/bin/messages/Extend100701.java *)
Definition main_szse_Extend100701 : source_class := {| sc_def := szse_Extend100701; sc_flip := false; sc_form := FNone; sc_mods := ["public"] |}.
Definition file_szse_Extend100701 : source := {| s_text := text_szse_Extend100701;
  s_package := ["com"; "finproto"; "szse"; "bin"; "messages"];
  s_imports := [["com"; "finproto"; "codec"; "BinaryCodec"]; ["io"; "netty"; "buffer"; "ByteBuf"]; ["java"; "util"; "Objects"]];
  s_main := main_szse_Extend100701; s_nested := [] |}.

(* szse-bin/src/main/java/com/finproto/szse/bin/messages/Extend101401.java *)
Definition main_szse_Extend101401 : source_class := {| sc_def := szse_Extend101401; sc_flip := false; sc_form := FNone; sc_mods := ["public"] |}.
Definition file_szse_Extend101401 : source := {| s_text := text_szse_Extend101401;
  s_package := ["com"; "finproto"; "szse"; "bin"; "messages"];
  s_imports := [["com"; "finproto"; "codec"; "BinaryCodec"]; ["io"; "netty"; "buffer"; "ByteBuf"]; ["java"; "util"; "Objects"]];
  s_main := main_szse_Extend101401; s_nested := [] |}.

(* szse-bin/src/main/java/com/finproto/szse/bin/messages/Extend101501.java *)
Definition main_szse_Extend101501 : source_class := {| sc_def := szse_Extend101501; sc_flip := false; sc_form := FNone; sc_mods := ["public"] |}.
Definition file_szse_Extend101501 : source := {| s_text := text_szse_Extend101501;
  s_package := ["com"; "finproto"; "szse"; "bin"; "messages"];
  s_imports := [["com"; "finproto"; "codec"; "BinaryCodec"]; ["io"; "netty"; "buffer"; "ByteBuf"]; ["java"; "util"; "Objects"]];
  s_main := main_szse_Extend101501; s_nested := [] |}.

(* szse-bin/src/main/java/com/finproto/szse/bin/messages/Extend101601.java *)
Definition main_szse_Extend101601 : source_class := {| sc_def := szse_Extend101601; sc_flip := false; sc_form := FNone; sc_mods := ["public"] |}.
Definition file_szse_Extend101601 : source := {| s_text := text_szse_Extend101601;
  s_package := ["com"; "finproto"; "szse"; "bin"; "messages"];
  s_imports := [["com"; "finproto"; "codec"; "BinaryCodec"]; ["io"; "netty"; "buffer"; "ByteBuf"]; ["java"; "util"; "Objects"]];
  s_main := main_szse_Extend101601; s_nested := [] |}.

(* szse-bin/src/main/java/com/finproto/szse/bin/messages/Extend101701.java *)
Definition main_szse_Extend101701 : source_class := {| sc_def := szse_Extend101701; sc_flip := false; sc_form := FNone; sc_mods := ["public"] |}.
Definition file_szse_Extend101701 : source := {| s_text := text_szse_Extend101701;
  s_package := ["com"; "finproto"; "szse"; "bin"; "messages"];
  s_imports := [["com"; "finproto"; "codec"; "BinaryCodec"]; ["io"; "netty"; "buffer"; "ByteBuf"]; ["java"; "util"; "Objects"]];
  s_main := main_szse_Extend101701; s_nested := [] |}.

(* szse-bin/src/main/java/com/finproto/szse/bin/messages/Extend101801.java *)
Definition main_szse_Extend101801 : source_class := {| sc_def := szse_Extend101801; sc_flip := false; sc_form := FNone; sc_mods := ["public"] |}.
Definition file_szse_Extend101801 : source := {| s_text := text_szse_Extend101801;
  s_package := ["com"; "finproto"; "szse"; "bin"; "messages"];
  s_imports := [["com"; "finproto"; "codec"; "BinaryCodec"]; ["io"; "netty"; "buffer"; "ByteBuf"]; ["java"; "util"; "Objects"]];
  s_main := main_szse_Extend101801; s_nested := [] |}.

(* szse-bin/src/main/java/com/finproto/szse/bin/messages/Extend102701.java *)
Definition main_szse_Extend102701 : source_class := {| sc_def := szse_Extend102701; sc_flip := false; sc_form := FNone; sc_mods := ["public"] |}.
Definition file_szse_Extend102701 : source := {| s_text := text_szse_Extend102701;
  s_package := ["com"; "finproto"; "szse"; "bin"; "messages"];
  s_imports := [["com"; "finproto"; "codec"; "BinaryCodec"]; ["io"; "netty"; "buffer"; "ByteBuf"]; ["java"; "util"; "Objects"]];
  s_main := main_szse_Extend102701; s_nested := [] |}.

(* szse-bin/src/main/java/com/finproto/szse/bin/messages/Extend102801.java *)
Definition main_szse_Extend102801 : source_class := {| sc_def := szse_Extend102801; sc_flip := false; sc_form := FNone; sc_mods := ["public"] |}.
Definition file_szse_Extend102801 : source := {| s_text := text_szse_Extend102801;
  s_package := ["com"; "finproto"; "szse"; "bin"; "messages"];
  s_imports := [["com"; "finproto"; "codec"; "BinaryCodec"]; ["io"; "netty"; "buffer"; "ByteBuf"]; ["java"; "util"; "Objects"]];
  s_main := main_szse_Extend102801; s_nested := [] |}.

(* szse-bin/src/main/java/com/finproto/szse/bin/messages/Extend102901.java *)
Definition main_szse_Extend102901 : source_class := {| sc_def := szse_Extend102901; sc_flip := false; sc_form := FNone; sc_mods := ["public"] |}.
Definition file_szse_Extend102901 : source := {| s_text := text_szse_Extend102901;
  s_package := ["com"; "finproto"; "szse"; "bin"; "messages"];
  s_imports := [["com"; "finproto"; "codec"; "BinaryCodec"]; ["io"; "netty"; "buffer"; "ByteBuf"]; ["java"; "util"; "Objects"]];
  s_main := main_szse_Extend102901; s_nested := [] |}.

(* szse-bin/src/main/java/com/finproto/szse/bin/messages/Extend103501.java *)
Definition main_szse_Extend103501 : source_class := {| sc_def := szse_Extend103501; sc_flip := false; sc_form := FNone; sc_mods := ["public"] |}.
Definition file_szse_Extend103501 : source := {| s_text := text_szse_Extend103501;
  s_package := ["com"; "finproto"; "szse"; "bin"; "messages"];
  s_imports := [["com"; "finproto"; "codec"; "BinaryCodec"]; ["io"; "netty"; "buffer"; "ByteBuf"]; ["java"; "util"; "Objects"]];
  s_main := main_szse_Extend103501; s_nested := [] |}.

(* szse-bin/src/main/java/com/finproto/szse/bin/messages/Extend103701.java *)
Definition main_szse_Extend103701 : source_class := {| sc_def := szse_Extend103701; sc_flip := false; sc_form := FNone; sc_mods := ["public"] |}.
Definition file_szse_Extend103701 : source := {| s_text := text_szse_Extend103701;
  s_package := ["com"; "finproto"; "szse"; "bin"; "messages"];
  s_imports := [["com"; "finproto"; "codec"; "BinaryCodec"]; ["io"; "netty"; "buffer"; "ByteBuf"]; ["java"; "util"; "Objects"]];
  s_main := main_szse_Extend103701; s_nested := [] |}.

(* szse-bin/src/main/java/com/finproto/szse/bin/messages/Extend104101.java *)
Definition main_szse_Extend104101 : source_class := {| sc_def := szse_Extend104101; sc_flip := false; sc_form := FNone; sc_mods := ["public"] |}.
Definition file_szse_Extend104101 : source := {| s_text := text_szse_Extend104101;
  s_package := ["com"; "finproto"; "szse"; "bin"; "messages"];
  s_imports := [["com"; "finproto"; "codec"; "BinaryCodec"]; ["io"; "netty"; "buffer"; "ByteBuf"]; ["java"; "util"; "Objects"]];
  s_main := main_szse_Extend104101; s_nested := [] |}.

(* szse-bin/src/main/java/com/finproto/szse/bin/messages/Extend104128.java *)
Definition main_szse_Extend104128 : source_class := {| sc_def := szse_Extend104128; sc_flip := false; sc_form := FNone; sc_mods := ["public"] |}.
Definition file_szse_Extend104128 : source := {| s_text := text_szse_Extend104128;
  s_package := ["com"; "finproto"; "szse"; "bin"; "messages"];
  s_imports := [["com"; "finproto"; "codec"; "BinaryCodec"]; ["io"; "netty"; "buffer"; "ByteBuf"]; ["java"; "util"; "Objects"]];
  s_main := main_szse_Extend104128; s_nested := [] |}.

(* szse-bin/src/main/java/com/finproto/szse/bin/messages/Extend104701.java *)
Definition main_szse_Extend104701 : source_class := {| sc_def := szse_Extend104701; sc_flip := false; sc_form := FNone; sc_mods := ["public"] |}.
Definition file_szse_Extend104701 : source := {| s_text := text_szse_Extend104701;
  s_package := ["com"; "finproto"; "szse"; "bin"; "messages"];
  s_imports := [["com"; "finproto"; "codec"; "BinaryCodec"]; ["io"; "netty"; "buffer"; "ByteBuf"]; ["java"; "util"; "Objects"]];
  s_main := main_szse_Extend104701; s_nested := [] |}.

(* szse-bin/src/main/java/com/finproto/szse/bin/messages/Extend106301.java *)
Definition main_szse_Extend106301 : source_class := {| sc_def := szse_Extend106301; sc_flip := false; sc_form := FNone; sc_mods := ["public"] |}.
Definition file_szse_Extend106301 : source := {| s_text := text_szse_Extend106301;
  s_package := ["com"; "finproto"; "szse"; "bin"; "messages"];
  s_imports := [["com"; "finproto"; "codec"; "BinaryCodec"]; ["io"; "netty"; "buffer"; "ByteBuf"]; ["java"; "util"; "Objects"]];
  s_main := main_szse_Extend106301; s_nested := [] |}.

(* szse-bin/src/main/java/com/finproto/szse/bin/messages/Extend200102.java *)
Definition main_szse_Extend200102 : source_class := {| sc_def := szse_Extend200102; sc_flip := false; sc_form := FNone; sc_mods := ["public"] |}.
Definition file_szse_Extend200102 : source := {| s_text := text_szse_Extend200102;
  s_package := ["com"; "finproto"; "szse"; "bin"; "messages"];
  s_imports := [["com"; "finproto"; "codec"; "BinaryCodec"]; ["io"; "netty"; "buffer"; "ByteBuf"]; ["java"; "util"; "Objects"]];
  s_main := main_szse_Extend200102; s_nested := [] |}.

(* szse-bin/src/main/java/com/finproto/szse/bin/messages/Extend200115.java *)
Definition main_szse_Extend200115 : source_class := {| sc_def := szse_Extend200115; sc_flip := false; sc_form := FNone; sc_mods := ["public"] |}.
Definition file_szse_Extend200115 : source := {| s_text := text_szse_Extend200115;
  s_package := ["com"; "finproto"; "szse"; "bin"; "messages"];
  s_imports := [["com"; "finproto"; "codec"; "BinaryCodec"]; ["io"; "netty"; "buffer"; "ByteBuf"]; ["java"; "util"; "Objects"]];
  s_main := main_szse_Extend200115; s_nested := [] |}.

(* szse-bin/src/main/java/com/finproto/szse/bin/messages/Extend200202.java *)
Definition main_szse_Extend200202 : source_class := {| sc_def := szse_Extend200202; sc_flip := false; sc_form := FNone; sc_mods := ["public"] |}.
Definition file_szse_Extend200202 : source := {| s_text := text_szse_Extend200202;
  s_package := ["com"; "finproto"; "szse"; "bin"; "messages"];
  s_imports := [["com"; "finproto"; "codec"; "BinaryCodec"]; ["io"; "netty"; "buffer"; "ByteBuf"]; ["java"; "util"; "Objects"]];
  s_main := main_szse_Extend200202; s_nested := [] |}.

(* szse-bin/src/main/java/com/finproto/szse/bin/messages/Extend200215.java *)
Definition main_szse_Extend200215 : source_class := {| sc_def := szse_Extend200215; sc_flip := false; sc_form := FNone; sc_mods := ["public"] |}.
Definition file_szse_Extend200215 : source := {| s_text := text_szse_Extend200215;
  s_package := ["com"; "finproto"; "szse"; "bin"; "messages"];
  s_imports := [["com"; "finproto"; "codec"; "BinaryCodec"]; ["io"; "netty"; "buffer"; "ByteBuf"]; ["java"; "util"; "Objects"]];
  s_main := main_szse_Extend200215; s_nested := [] |}.

(* szse-bin/src/main/java/com/finproto/szse/bin/messages/Extend200302.java *)
Definition main_szse_Extend200302 : source_class := {| sc_def := szse_Extend200302; sc_flip := false; sc_form := FNone; sc_mods := ["public"] |}.
Definition file_szse_Extend200302 : source := {| s_text := text_szse_Extend200302;
  s_package := ["com"; "finproto"; "szse"; "bin"; "messages"];
  s_imports := [["com"; "finproto"; "codec"; "BinaryCodec"]; ["io"; "netty"; "buffer"; "ByteBuf"]; ["java"; "util"; "Objects"]];
  s_main := main_szse_Extend200302; s_nested := [] |}.

(* szse-bin/src/main/java/com/finproto/szse/bin/messages/Extend200315.java *)
Definition main_szse_Extend200315 : source_class := {| sc_def := szse_Extend200315; sc_flip := false; sc_form := FNone; sc_mods := ["public"] |}.
Definition file_szse_Extend200315 : source := {| s_text := text_szse_Extend200315;
  s_package := ["com"; "finproto"; "szse"; "bin"; "messages"];
  s_imports := [["com"; "finproto"; "codec"; "BinaryCodec"]; ["io"; "netty"; "buffer"; "ByteBuf"]; ["java"; "util"; "Objects"]];
  s_main := main_szse_Extend200315; s_nested := [] |}.

(* szse-bin/src/main/java/com/finproto/szse/bin/messages/Extend200402.java *)
Definition main_szse_Extend200402 : source_class := {| sc_def := szse_Extend200402; sc_flip := false; sc_form := FNone; sc_mods := ["public"] |}.
Definition file_szse_Extend200402 : source := {| s_text := text_szse_Extend200402;
  s_package := ["com"; "finproto"; "szse"; "bin"; "messages"];
  s_imports := [["com"; "finproto"; "codec"; "BinaryCodec"]; ["io"; "netty"; "buffer"; "ByteBuf"]; ["java"; "util"; "Objects"]];
  s_main := main_szse_Extend200402; s_nested := [] |}.

(* szse-bin/src/main/java/com/finproto/szse/bin/messages/Extend200415.java *)
Definition main_szse_Extend200415 : source_class := {| sc_def := szse_Extend200415; sc_flip := false; sc_form := FNone; sc_mods := ["public"] |}.
Definition file_szse_Extend200415 : source := {| s_text := text_szse_Extend200415;
  s_package := ["com"; "finproto"; "szse"; "bin"; "messages"];
  s_imports := [["com"; "finproto"; "codec"; "BinaryCodec"]; ["io"; "netty"; "buffer"; "ByteBuf"]; ["java"; "util"; "Objects"]];
  s_main := main_szse_Extend200415; s_nested := [] |}.

(* szse-bin/src/main/java/com/finproto/szse/bin/messages/Extend200502.java *)
Definition main_szse_Extend200502 : source_class := {| sc_def := szse_Extend200502; sc_flip := false; sc_form := FNone; sc_mods := ["public"] |}.
Definition file_szse_Extend200502 : source := {| s_text := text_szse_Extend200502;
  s_package := ["com"; "finproto"; "szse"; "bin"; "messages"];
  s_imports := [["com"; "finproto"; "codec"; "BinaryCodec"]; ["io"; "netty"; "buffer"; "ByteBuf"]; ["java"; "util"; "Objects"]];
  s_main := main_szse_Extend200502; s_nested := [] |}.

(* szse-bin/src/main/java/com/finproto/szse/bin/messages/Extend200515.java *)
Definition main_szse_Extend200515 : source_class := {| sc_def := szse_Extend200515; sc_flip := false; sc_form := FNone; sc_mods := ["public"] |}.
Definition file_szse_Extend200515 : source := {| s_text := text_szse_Extend200515;
  s_package := ["com"; "finproto"; "szse"; "bin"; "messages"];
  s_imports := [["com"; "finproto"; "codec"; "BinaryCodec"]; ["io"; "netty"; "buffer"; "ByteBuf"]; ["java"; "util"; "Objects"]];
  s_main := main_szse_Extend200515; s_nested := [] |}.

(* szse-bin/src/main/java/com/finproto/szse/bin/messages/Extend200602.java *)
Definition main_szse_Extend200602 : source_class := {| sc_def := szse_Extend200602; sc_flip := false; sc_form := FNone; sc_mods := ["public"] |}.
Definition file_szse_Extend200602 : source := {| s_text := text_szse_Extend200602;
  s_package := ["com"; "finproto"; "szse"; "bin"; "messages"];
  s_imports := [["com"; "finproto"; "codec"; "BinaryCodec"]; ["io"; "netty"; "buffer"; "ByteBuf"]; ["java"; "util"; "Objects"]];
  s_main := main_szse_Extend200602; s_nested := [] |}.

(* szse-bin/src/main/java/com/finproto/szse/bin/messages/Extend200615.java *)
Definition main_szse_Extend200615 : source_class := {| sc_def := szse_Extend200615; sc_flip := false; sc_form := FNone; sc_mods := ["public"] |}.
Definition file_szse_Extend200615 : source := {| s_text := text_szse_Extend200615;
  s_package := ["com"; "finproto"; "szse"; "bin"; "messages"];
  s_imports := [["com"; "finproto"; "codec"; "BinaryCodec"]; ["io"; "netty"; "buffer"; "ByteBuf"]; ["java"; "util"; "Objects"]];
  s_main := main_szse_Extend200615; s_nested := [] |}.

(* szse-bin/src/main/java/com/finproto/szse/bin/messages/Extend200702.java *)
Definition main_szse_Extend200702 : source_class := {| sc_def := szse_Extend200702; sc_flip := false; sc_form := FNone; sc_mods := ["public"] |}.
Definition file_szse_Extend200702 : source := {| s_text := text_szse_Extend200702;
  s_package := ["com"; "finproto"; "szse"; "bin"; "messages"];
  s_imports := [["com"; "finproto"; "codec"; "BinaryCodec"]; ["io"; "netty"; "buffer"; "ByteBuf"]; ["java"; "util"; "Objects"]];
  s_main := main_szse_Extend200702; s_nested := [] |}.

(* szse-bin/src/main/java/com/finproto/szse/bin/messages/Extend200715.java *)
Definition main_szse_Extend200715 : source_class := {| sc_def := szse_Extend200715; sc_flip := false; sc_form := FNone; sc_mods := ["public"] |}.
Definition file_szse_Extend200715 : source := {| s_text := text_szse_Extend200715;
  s_package := ["com"; "finproto"; "szse"; "bin"; "messages"];
  s_imports := [["com"; "finproto"; "codec"; "BinaryCodec"]; ["io"; "netty"; "buffer"; "ByteBuf"]; ["java"; "util"; "Objects"]];
  s_main := main_szse_Extend200715; s_nested := [] |}.

(* szse-bin/src/main/java/com/finproto/szse/bin/messages/Extend201202.java *)
Definition main_szse_Extend201202 : source_class := {| sc_def := szse_Extend201202; sc_flip := false; sc_form := FNone; sc_mods := ["public"] |}.
Definition file_szse_Extend201202 : source := {| s_text := text_szse_Extend201202;
  s_package := ["com"; "finproto"; "szse"; "bin"; "messages"];
  s_imports := [["com"; "finproto"; "codec"; "BinaryCodec"]; ["io"; "netty"; "buffer"; "ByteBuf"]; ["java"; "util"; "Objects"]];
  s_main := main_szse_Extend201202; s_nested := [] |}.

(* szse-bin/src/main/java/com/finproto/szse/bin/messages/Extend201502.java *)
Definition main_szse_Extend201502 : source_class := {| sc_def := szse_Extend201502; sc_flip := false; sc_form := FNone; sc_mods := ["public"] |}.
Definition file_szse_Extend201502 : source := {| s_text := text_szse_Extend201502;
  s_package := ["com"; "finproto"; "szse"; "bin"; "messages"];
  s_imports := [["com"; "finproto"; "codec"; "BinaryCodec"]; ["io"; "netty"; "buffer"; "ByteBuf"]; ["java"; "util"; "Objects"]];
  s_main := main_szse_Extend201502; s_nested := [] |}.

(* szse-bin/src/main/java/com/finproto/szse/bin/messages/Extend201602.java *)
Definition main_szse_Extend201602 : source_class := {| sc_def := szse_Extend201602; sc_flip := false; sc_form := FNone; sc_mods := ["public"] |}.
Definition file_szse_Extend201602 : source := {| s_text := text_szse_Extend201602;
  s_package := ["com"; "finproto"; "szse"; "bin"; "messages"];
  s_imports := [["com"; "finproto"; "codec"; "BinaryCodec"]; ["io"; "netty"; "buffer"; "ByteBuf"]; ["java"; "util"; "Objects"]];
  s_main := main_szse_Extend201602; s_nested := [] |}.

(* szse-bin/src/main/java/com/finproto/szse/bin/messages/Extend201702.java *)
Definition main_szse_Extend201702 : source_class := {| sc_def := szse_Extend201702; sc_flip := false; sc_form := FNone; sc_mods := ["public"] |}.
Definition file_szse_Extend201702 : source := {| s_text := text_szse_Extend201702;
  s_package := ["com"; "finproto"; "szse"; "bin"; "messages"];
  s_imports := [["com"; "finproto"; "codec"; "BinaryCodec"]; ["io"; "netty"; "buffer"; "ByteBuf"]; ["java"; "util"; "Objects"]];
  s_main := main_szse_Extend201702; s_nested := [] |}.

(* szse-bin/src/main/java/com/finproto/szse/bin/messages/Extend201802.java *)
Definition main_szse_Extend201802 : source_class := {| sc_def := szse_Extend201802; sc_flip := false; sc_form := FNone; sc_mods := ["public"] |}.
Definition file_szse_Extend201802 : source := {| s_text := text_szse_Extend201802;
  s_package := ["com"; "finproto"; "szse"; "bin"; "messages"];
  s_imports := [["com"; "finproto"; "codec"; "BinaryCodec"]; ["io"; "netty"; "buffer"; "ByteBuf"]; ["java"; "util"; "Objects"]];
  s_main := main_szse_Extend201802; s_nested := [] |}.

(* szse-bin/src/main/java/com/finproto/szse/bin/messages/Extend202702.java *)
Definition main_szse_Extend202702 : source_class := {| sc_def := szse_Extend202702; sc_flip := false; sc_form := FNone; sc_mods := ["public"] |}.
Definition file_szse_Extend202702 : source := {| s_text := text_szse_Extend202702;
  s_package := ["com"; "finproto"; "szse"; "bin"; "messages"];
  s_imports := [["com"; "finproto"; "codec"; "BinaryCodec"]; ["io"; "netty"; "buffer"; "ByteBuf"]; ["java"; "util"; "Objects"]];
  s_main := main_szse_Extend202702; s_nested := [] |}.

(* szse-bin/src/main/java/com/finproto/szse/bin/messages/Extend202802.java *)
Definition main_szse_Extend202802 : source_class := {| sc_def := szse_Extend202802; sc_flip := false; sc_form := FNone; sc_mods := ["public"] |}.
Definition file_szse_Extend202802 : source := {| s_text := text_szse_Extend202802;
  s_package := ["com"; "finproto"; "szse"; "bin"; "messages"];
  s_imports := [["com"; "finproto"; "codec"; "BinaryCodec"]; ["io"; "netty"; "buffer"; "ByteBuf"]; ["java"; "util"; "Objects"]];
  s_main := main_szse_Extend202802; s_nested := [] |}.

(* szse-bin/src/main/java/com/finproto/szse/bin/messages/Extend202902.java *)
Definition main_szse_Extend202902 : source_class := {| sc_def := szse_Extend202902; sc_flip := false; sc_form := FNone; sc_mods := ["public"] |}.
Definition file_szse_Extend202902 : source := {| s_text := text_szse_Extend202902;
  s_package := ["com"; "finproto"; "szse"; "bin"; "messages"];
  s_imports := [["com"; "finproto"; "codec"; "BinaryCodec"]; ["io"; "netty"; "buffer"; "ByteBuf"]; ["java"; "util"; "Objects"]];
  s_main := main_szse_Extend202902; s_nested := [] |}.

(* szse-bin/src/main/java/com/finproto/szse/bin/messages/Extend203102.java *)
Definition main_szse_Extend203102 : source_class := {| sc_def := szse_Extend203102; sc_flip := false; sc_form := FNone; sc_mods := ["public"] |}.
Definition file_szse_Extend203102 : source := {| s_text := text_szse_Extend203102;
  s_package := ["com"; "finproto"; "szse"; "bin"; "messages"];
  s_imports := [["com"; "finproto"; "codec"; "BinaryCodec"]; ["io"; "netty"; "buffer"; "ByteBuf"]; ["java"; "util"; "Objects"]];
  s_main := main_szse_Extend203102; s_nested := [] |}.

(* szse-bin/src/main/java/com/finproto/szse/bin/messages/Extend203502.java *)
Definition main_szse_Extend203502 : source_class := {| sc_def := szse_Extend203502; sc_flip := false; sc_form := FNone; sc_mods := ["public"] |}.
Definition file_szse_Extend203502 : source := {| s_text := text_szse_Extend203502;
  s_package := ["com"; "finproto"; "szse"; "bin"; "messages"];
  s_imports := [["com"; "finproto"; "codec"; "BinaryCodec"]; ["io"; "netty"; "buffer"; "ByteBuf"]; ["java"; "util"; "Objects"]];
  s_main := main_szse_Extend203502; s_nested := [] |}.

(* szse-bin/src/main/java/com/finproto/szse/bin/messages/Extend203702.java *)
Definition main_szse_Extend203702 : source_class := {| sc_def := szse_Extend203702; sc_flip := false; sc_form := FNone; sc_mods := ["public"] |}.
Definition file_szse_Extend203702 : source := {| s_text := text_szse_Extend203702;
  s_package := ["com"; "finproto"; "szse"; "bin"; "messages"];
  s_imports := [["com"; "finproto"; "codec"; "BinaryCodec"]; ["io"; "netty"; "buffer"; "ByteBuf"]; ["java"; "util"; "Objects"]];
  s_main := main_szse_Extend203702; s_nested := [] |}.

(* szse-bin/src/main/java/com/finproto/szse/bin/messages/Extend203715.java *)
Definition main_szse_Extend203715 : source_class := {| sc_def := szse_Extend203715; sc_flip := false; sc_form := FNone; sc_mods := ["public"] |}.
Definition file_szse_Extend203715 : source := {| s_text := text_szse_Extend203715;
  s_package := ["com"; "finproto"; "szse"; "bin"; "messages"];
  s_imports := [["com"; "finproto"; "codec"; "BinaryCodec"]; ["io"; "netty"; "buffer"; "ByteBuf"]; ["java"; "util"; "Objects"]];
  s_main := main_szse_Extend203715; s_nested := [] |}.

(* szse-bin/src/main/java/com/finproto/szse/bin/messages/Extend204102.java *)
Definition main_szse_Extend204102 : source_class := {| sc_def := szse_Extend204102; sc_flip := false; sc_form := FNone; sc_mods := ["public"] |}.
Definition file_szse_Extend204102 : source := {| s_text := text_szse_Extend204102;
  s_package := ["com"; "finproto"; "szse"; "bin"; "messages"];
  s_imports := [["com"; "finproto"; "codec"; "BinaryCodec"]; ["io"; "netty"; "buffer"; "ByteBuf"]; ["java"; "util"; "Objects"]];
  s_main := main_szse_Extend204102; s_nested := [] |}.

(* szse-bin/src/main/java/com/finproto/szse/bin/messages/Extend204115.java *)
Definition main_szse_Extend204115 : source_class := {| sc_def := szse_Extend204115; sc_flip := false; sc_form := FNone; sc_mods := ["public"] |}.
Definition file_szse_Extend204115 : source := {| s_text := text_szse_Extend204115;
  s_package := ["com"; "finproto"; "szse"; "bin"; "messages"];
  s_imports := [["com"; "finproto"; "codec"; "BinaryCodec"]; ["io"; "netty"; "buffer"; "ByteBuf"]; ["java"; "util"; "Objects"]];
  s_main := main_szse_Extend204115; s_nested := [] |}.

(* szse-bin/src/main/java/com/finproto/szse/bin/messages/Extend204129.java *)
Definition main_szse_Extend204129 : source_class := {| sc_def := szse_Extend204129; sc_flip := false; sc_form := FNone; sc_mods := ["public"] |}.
Definition file_szse_Extend204129 : source := {| s_text := text_szse_Extend204129;
  s_package := ["com"; "finproto"; "szse"; "bin"; "messages"];
  s_imports := [["com"; "finproto"; "codec"; "BinaryCodec"]; ["io"; "netty"; "buffer"; "ByteBuf"]; ["java"; "util"; "Objects"]];
  s_main := main_szse_Extend204129; s_nested := [] |}.

(* szse-bin/src/main/java/com/finproto/szse/bin/messages/Extend204130.java *)
Definition main_szse_Extend204130 : source_class := {| sc_def := szse_Extend204130; sc_flip := false; sc_form := FNone; sc_mods := ["public"] |}.
Definition file_szse_Extend204130 : source := {| s_text := text_szse_Extend204130;
  s_package := ["com"; "finproto"; "szse"; "bin"; "messages"];
  s_imports := [["com"; "finproto"; "codec"; "BinaryCodec"]; ["io"; "netty"; "buffer"; "ByteBuf"]; ["java"; "util"; "Objects"]];
  s_main := main_szse_Extend204130; s_nested := [] |}.

(* szse-bin/src/main/java/com/finproto/szse/bin/messages/Extend204702.java *)
Definition main_szse_Extend204702 : source_class := {| sc_def := szse_Extend204702; sc_flip := false; sc_form := FNone; sc_mods := ["public"] |}.
Definition file_szse_Extend204702 : source := {| s_text := text_szse_Extend204702;
  s_package := ["com"; "finproto"; "szse"; "bin"; "messages"];
  s_imports := [["com"; "finproto"; "codec"; "BinaryCodec"]; ["io"; "netty"; "buffer"; "ByteBuf"]; ["java"; "util"; "Objects"]];
  s_main := main_szse_Extend204702; s_nested := [] |}.

(* szse-bin/src/main/java/com/finproto/szse/bin/messages/Extend204715.java *)
Definition main_szse_Extend204715 : source_class := {| sc_def := szse_Extend204715; sc_flip := false; sc_form := FNone; sc_mods := ["public"] |}.
Definition file_szse_Extend204715 : source := {| s_text := text_szse_Extend204715;
  s_package := ["com"; "finproto"; "szse"; "bin"; "messages"];
  s_imports := [["com"; "finproto"; "codec"; "BinaryCodec"]; ["io"; "netty"; "buffer"; "ByteBuf"]; ["java"; "util"; "Objects"]];
  s_main := main_szse_Extend204715; s_nested := [] |}.

(* szse-bin/src/main/java/com/finproto/szse/bin/messages/Extend206302.java *)
Definition main_szse_Extend206302 : source_class := {| sc_def := szse_Extend206302; sc_flip := false; sc_form := FNone; sc_mods := ["public"] |}.
Definition file_szse_Extend206302 : source := {| s_text := text_szse_Extend206302;
  s_package := ["com"; "finproto"; "szse"; "bin"; "messages"];
  s_imports := [["com"; "finproto"; "codec"; "BinaryCodec"]; ["io"; "netty"; "buffer"; "ByteBuf"]; ["io"; "netty"; "util"; "internal"; "StringUtil"]; ["java"; "nio"; "charset"; "StandardCharsets"]; ["java"; "util"; "Objects"]];
  s_main := main_szse_Extend206302; s_nested := [] |}.

(* szse-bin/src/main/java/com/finproto/szse/bin/messages/Extend206315.java *)
Definition main_szse_Extend206315 : source_class := {| sc_def := szse_Extend206315; sc_flip := false; sc_form := FNone; sc_mods := ["public"] |}.
Definition file_szse_Extend206315 : source := {| s_text := text_szse_Extend206315;
  s_package := ["com"; "finproto"; "szse"; "bin"; "messages"];
  s_imports := [["com"; "finproto"; "codec"; "BinaryCodec"]; ["io"; "netty"; "buffer"; "ByteBuf"]; ["java"; "util"; "Objects"]];
  s_main := main_szse_Extend206315; s_nested := [] |}.

(* szse-bin/src/main/java/com/finproto/szse/bin/messages/Heartbeat.java *)
Definition main_szse_Heartbeat : source_class := {| sc_def := szse_Heartbeat; sc_flip := false; sc_form := FNone; sc_mods := ["public"] |}.
Definition file_szse_Heartbeat : source := {| s_text := text_szse_Heartbeat;
  s_package := ["com"; "finproto"; "szse"; "bin"; "messages"];
  s_imports := [["com"; "finproto"; "codec"; "BinaryCodec"]; ["io"; "netty"; "buffer"; "ByteBuf"]];
  s_main := main_szse_Heartbeat; s_nested := [] |}.

(* szse-bin/src/main/java/com/finproto/szse/bin/messages/Logon.java *)
Definition main_szse_Logon : source_class := {| sc_def := szse_Logon; sc_flip := false; sc_form := FNone; sc_mods := ["public"] |}.
Definition file_szse_Logon : source := {| s_text := text_szse_Logon;
  s_package := ["com"; "finproto"; "szse"; "bin"; "messages"];
  s_imports := [["com"; "finproto"; "codec"; "BinaryCodec"]; ["io"; "netty"; "buffer"; "ByteBuf"]; ["java"; "util"; "Objects"]];
  s_main := main_szse_Logon; s_nested := [] |}.

(* szse-bin/src/main/java/com/finproto/szse/bin/messages/Logout.java *)
Definition main_szse_Logout : source_class := {| sc_def := szse_Logout; sc_flip := false; sc_form := FNone; sc_mods := ["public"] |}.
Definition file_szse_Logout : source := {| s_text := text_szse_Logout;
  s_package := ["com"; "finproto"; "szse"; "bin"; "messages"];
  s_imports := [["com"; "finproto"; "codec"; "BinaryCodec"]; ["io"; "netty"; "buffer"; "ByteBuf"]; ["java"; "util"; "Objects"]];
  s_main := main_szse_Logout; s_nested := [] |}.

(* szse-bin/src/main/java/com/finproto/szse/bin/messages/NewOrder.java *)
Definition main_szse_NewOrder : source_class := {| sc_def := szse_NewOrder; sc_flip := false; sc_form := (FEnum szse_NewOrder_factory); sc_mods := ["public"] |}.
Definition file_szse_NewOrder : source := {| s_text := text_szse_NewOrder;
  s_package := ["com"; "finproto"; "szse"; "bin"; "messages"];
  s_imports := [["com"; "finproto"; "codec"; "BinaryCodec"]; ["io"; "netty"; "buffer"; "ByteBuf"]; ["java"; "util"; "HashMap"]; ["java"; "util"; "Map"]; ["java"; "util"; "Objects"]; ["java"; "util"; "function"; "Supplier"]];
  s_main := main_szse_NewOrder; s_nested := [] |}.

(* szse-bin/src/main/java/com/finproto/szse/bin/messages/OrderCancelRequest.java *)
Definition main_szse_OrderCancelRequest : source_class := {| sc_def := szse_OrderCancelRequest; sc_flip := false; sc_form := FNone; sc_mods := ["public"] |}.
Definition file_szse_OrderCancelRequest : source := {| s_text := text_szse_OrderCancelRequest;
  s_package := ["com"; "finproto"; "szse"; "bin"; "messages"];
  s_imports := [["com"; "finproto"; "codec"; "BinaryCodec"]; ["io"; "netty"; "buffer"; "ByteBuf"]; ["java"; "util"; "Objects"]];
  s_main := main_szse_OrderCancelRequest; s_nested := [] |}.

(* szse-bin/src/main/java/com/finproto/szse/bin/messages/PartitionReport.java *)
Definition main_szse_PartitionReport : source_class := {| sc_def := szse_PartitionReport; sc_flip := false; sc_form := FNone; sc_mods := ["public"] |}.
Definition file_szse_PartitionReport : source := {| s_text := text_szse_PartitionReport;
  s_package := ["com"; "finproto"; "szse"; "bin"; "messages"];
  s_imports := [["com"; "finproto"; "codec"; "BinaryCodec"]; ["io"; "netty"; "buffer"; "ByteBuf"]; ["java"; "util"; "Objects"]];
  s_main := main_szse_PartitionReport; s_nested := [] |}.

(* szse-bin/src/main/java/com/finproto/szse/bin/messages/PlatformInfo.java *)
Definition main_szse_PlatformInfo : source_class := {| sc_def := szse_PlatformInfo; sc_flip := false; sc_form := FNone; sc_mods := ["public"] |}.
Definition file_szse_PlatformInfo : source := {| s_text := text_szse_PlatformInfo;
  s_package := ["com"; "finproto"; "szse"; "bin"; "messages"];
  s_imports := [["com"; "finproto"; "codec"; "BinaryCodec"]; ["io"; "netty"; "buffer"; "ByteBuf"]; ["java"; "util"; "ArrayList"]; ["java"; "util"; "List"]; ["java"; "util"; "Objects"]];
  s_main := main_szse_PlatformInfo; s_nested := [] |}.

(* szse-bin/src/main/java/com/finproto/szse/bin/messages/PlatformPartition.java *)
Definition main_szse_PlatformPartition : source_class := {| sc_def := szse_PlatformPartition; sc_flip := false; sc_form := FNone; sc_mods := ["public"] |}.
Definition file_szse_PlatformPartition : source := {| s_text := text_szse_PlatformPartition;
  s_package := ["com"; "finproto"; "szse"; "bin"; "messages"];
  s_imports := [["com"; "finproto"; "codec"; "BinaryCodec"]; ["io"; "netty"; "buffer"; "ByteBuf"]; ["java"; "util"; "Objects"]];
  s_main := main_szse_PlatformPartition; s_nested := [] |}.

(* szse-bin/src/main/java/com/finproto/szse/bin/messages/PlatformStateInfo.java *)
Definition main_szse_PlatformStateInfo : source_class := {| sc_def := szse_PlatformStateInfo; sc_flip := false; sc_form := FNone; sc_mods := ["public"] |}.
Definition file_szse_PlatformStateInfo : source := {| s_text := text_szse_PlatformStateInfo;
  s_package := ["com"; "finproto"; "szse"; "bin"; "messages"];
  s_imports := [["com"; "finproto"; "codec"; "BinaryCodec"]; ["io"; "netty"; "buffer"; "ByteBuf"]; ["java"; "util"; "Objects"]];
  s_main := main_szse_PlatformStateInfo; s_nested := [] |}.

(* szse-bin/src/main/java/com/finproto/szse/bin/messages/ReportFinished.java *)
Definition main_szse_ReportFinished : source_class := {| sc_def := szse_ReportFinished; sc_flip := false; sc_form := FNone; sc_mods := ["public"] |}.
Definition file_szse_ReportFinished : source := {| s_text := text_szse_ReportFinished;
  s_package := ["com"; "finproto"; "szse"; "bin"; "messages"];
  s_imports := [["com"; "finproto"; "codec"; "BinaryCodec"]; ["io"; "netty"; "buffer"; "ByteBuf"]; ["java"; "util"; "Objects"]];
  s_main := main_szse_ReportFinished; s_nested := [] |}.

(* szse-bin/src/main/java/com/finproto/szse/bin/messages/ReportSynchronization.java *)
Definition main_szse_ReportSynchronization : source_class := {| sc_def := szse_ReportSynchronization; sc_flip := false; sc_form := FNone; sc_mods := ["public"] |}.
Definition file_szse_ReportSynchronization : source := {| s_text := text_szse_ReportSynchronization;
  s_package := ["com"; "finproto"; "szse"; "bin"; "messages"];
  s_imports := [["com"; "finproto"; "codec"; "BinaryCodec"]; ["io"; "netty"; "buffer"; "ByteBuf"]; ["java"; "util"; "ArrayList"]; ["java"; "util"; "List"]; ["java"; "util"; "Objects"]];
  s_main := main_szse_ReportSynchronization; s_nested := [] |}.

(* szse-bin/src/main/java/com/finproto/szse/bin/messages/SzseBinary.java *)
Definition main_szse_SzseBinary : source_class := {| sc_def := szse_SzseBinary; sc_flip := true; sc_form := (FEnum szse_SzseBinary_factory); sc_mods := ["public"] |}.
Definition file_szse_SzseBinary : source := {| s_text := text_szse_SzseBinary;
  s_package := ["com"; "finproto"; "szse"; "bin"; "messages"];
  s_imports := [["com"; "finproto"; "codec"; "BinaryCodec"]; ["com"; "finproto"; "codec"; "ChecksumService"]; ["com"; "finproto"; "codec"; "ChecksumServiceFactory"]; ["io"; "netty"; "buffer"; "ByteBuf"]; ["java"; "util"; "HashMap"]; ["java"; "util"; "Map"]; ["java"; "util"; "Objects"]; ["java"; "util"; "function"; "Supplier"]];
  s_main := main_szse_SzseBinary; s_nested := [] |}.

(* szse-bin/src/main/java/com/finproto/szse/bin/messages/TradingSessionStatus.java *)
Definition main_szse_TradingSessionStatus : source_class := {| sc_def := szse_TradingSessionStatus; sc_flip := false; sc_form := FNone; sc_mods := ["public"] |}.
Definition file_szse_TradingSessionStatus : source := {| s_text := text_szse_TradingSessionStatus;
  s_package := ["com"; "finproto"; "szse"; "bin"; "messages"];
  s_imports := [["com"; "finproto"; "codec"; "BinaryCodec"]; ["io"; "netty"; "buffer"; "ByteBuf"]; ["java"; "util"; "Objects"]];
  s_main := main_szse_TradingSessionStatus; s_nested := [] |}.

Definition szse_files : list source :=
  [ file_szse_BusinessReject;
    file_szse_CancelReject;
    file_szse_ExecutionConfirm;
    file_szse_ExecutionReport;
    file_szse_Extend100101;
    file_szse_Extend100201;
    file_szse_Extend100301;
    file_szse_Extend100501;
    file_szse_Extend100601;
    file_szse_Extend100701;
    file_szse_Extend101401;
    file_szse_Extend101501;
    file_szse_Extend101601;
    file_szse_Extend101701;
    file_szse_Extend101801;
    file_szse_Extend102701;
    file_szse_Extend102801;
    file_szse_Extend102901;
    file_szse_Extend103501;
    file_szse_Extend103701;
    file_szse_Extend104101;
    file_szse_Extend104128;
    file_szse_Extend104701;
    file_szse_Extend106301;
    file_szse_Extend200102;
    file_szse_Extend200115;
    file_szse_Extend200202;
    file_szse_Extend200215;
    file_szse_Extend200302;
    file_szse_Extend200315;
    file_szse_Extend200402;
    file_szse_Extend200415;
    file_szse_Extend200502;
    file_szse_Extend200515;
    file_szse_Extend200602;
    file_szse_Extend200615;
    file_szse_Extend200702;
    file_szse_Extend200715;
    file_szse_Extend201202;
    file_szse_Extend201502;
    file_szse_Extend201602;
    file_szse_Extend201702;
    file_szse_Extend201802;
    file_szse_Extend202702;
    file_szse_Extend202802;
    file_szse_Extend202902;
    file_szse_Extend203102;
    file_szse_Extend203502;
    file_szse_Extend203702;
    file_szse_Extend203715;
    file_szse_Extend204102;
    file_szse_Extend204115;
    file_szse_Extend204129;
    file_szse_Extend204130;
    file_szse_Extend204702;
    file_szse_Extend204715;
    file_szse_Extend206302;
    file_szse_Extend206315;
    file_szse_Heartbeat;
    file_szse_Logon;
    file_szse_Logout;
    file_szse_NewOrder;
    file_szse_OrderCancelRequest;
    file_szse_PartitionReport;
    file_szse_PlatformInfo;
    file_szse_PlatformPartition;
    file_szse_PlatformStateInfo;
    file_szse_ReportFinished;
    file_szse_ReportSynchronization;
    file_szse_SzseBinary;
    file_szse_TradingSessionStatus ].
