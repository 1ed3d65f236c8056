(* GENERATED by tools/mksrc.py: the files of /repo/bjse-bin/src/main/java and the trees they should be. *)
From Coq Require Import List String.
From Verif.Model Require Import Ast GenBjse.
From Verif.Java Require Import Syntax Source SrcBjse Sources.
Import ListNotations.
Open Scope string_scope.

(* bjse-bin/src/main/java/com/finproto/bjse/trade/messages/AllegeQuote.java *)
Definition main_bjse_AllegeQuote : source_class := {| sc_def := bjse_AllegeQuote; sc_flip := false; sc_form := (FEnum bjse_AllegeQuote_factory); sc_mods := ["public"] |}.
Definition file_bjse_AllegeQuote : source := {| s_text := text_bjse_AllegeQuote;
  s_package := ["com"; "finproto"; "bjse"; "trade"; "messages"];
  s_imports := [["com"; "finproto"; "codec"; "BinaryCodec"]; ["io"; "netty"; "buffer"; "ByteBuf"]; ["java"; "util"; "HashMap"]; ["java"; "util"; "Map"]; ["java"; "util"; "Objects"]; ["java"; "util"; "function"; "Supplier"]];
  s_main := main_bjse_AllegeQuote; s_nested := [] |}.

(* bjse-bin/src/main/java/com/finproto/bjse/trade/messages/AllegeQuoteExtend070.java *)
Definition main_bjse_AllegeQuoteExtend070 : source_class := {| sc_def := bjse_AllegeQuoteExtend070; sc_flip := false; sc_form := FNone; sc_mods := ["public"] |}.
Definition file_bjse_AllegeQuoteExtend070 : source := {| s_text := text_bjse_AllegeQuoteExtend070;
  s_package := ["com"; "finproto"; "bjse"; "trade"; "messages"];
  s_imports := [["com"; "finproto"; "codec"; "BinaryCodec"]; ["io"; "netty"; "buffer"; "ByteBuf"]; ["java"; "util"; "Objects"]];
  s_main := main_bjse_AllegeQuoteExtend070; s_nested := [] |}.

(* bjse-bin/src/main/java/com/finproto/bjse/trade/messages/AllegeQuoteResponse.java *)
Definition main_bjse_AllegeQuoteResponse : source_class := {| sc_def := bjse_AllegeQuoteResponse; sc_flip := false; sc_form := FNone; sc_mods := ["public"] |}.
Definition file_bjse_AllegeQuoteResponse : source := {| s_text := text_bjse_AllegeQuoteResponse;
  s_package := ["com"; "finproto"; "bjse"; "trade"; "messages"];
  s_imports := [["com"; "finproto"; "codec"; "BinaryCodec"]; ["io"; "netty"; "buffer"; "ByteBuf"]; ["java"; "util"; "Objects"]];
  s_main := main_bjse_AllegeQuoteResponse; s_nested := [] |}.

(* bjse-bin/src/main/java/com/finproto/bjse/trade/messages/BjseBinary.java *)
Definition main_bjse_BjseBinary : source_class := {| sc_def := bjse_BjseBinary; sc_flip := false; sc_form := (FEnum bjse_BjseBinary_factory); sc_mods := ["public"] |}.
Definition file_bjse_BjseBinary : source := {| s_text := text_bjse_BjseBinary;
  s_package := ["com"; "finproto"; "bjse"; "trade"; "messages"];
  s_imports := [["com"; "finproto"; "codec"; "BinaryCodec"]; ["io"; "netty"; "buffer"; "ByteBuf"]; ["java"; "util"; "HashMap"]; ["java"; "util"; "Map"]; ["java"; "util"; "Objects"]; ["java"; "util"; "function"; "Supplier"]];
  s_main := main_bjse_BjseBinary; s_nested := [] |}.

(* bjse-bin/src/main/java/com/finproto/bjse/trade/messages/BusinessReject.java *)
Definition main_bjse_BusinessReject : source_class := {| sc_def := bjse_BusinessReject; sc_flip := false; sc_form := FNone; sc_mods := ["public"] |}.
Definition file_bjse_BusinessReject : source := {| s_text := text_bjse_BusinessReject;
  s_package := ["com"; "finproto"; "bjse"; "trade"; "messages"];
  s_imports := [["com"; "finproto"; "codec"; "BinaryCodec"]; ["io"; "netty"; "buffer"; "ByteBuf"]; ["java"; "util"; "Objects"]];
  s_main := main_bjse_BusinessReject; s_nested := [] |}.

(* bjse-bin/src/main/java/com/finproto/bjse/trade/messages/CancelReject.java *)
Definition main_bjse_CancelReject : source_class := {| sc_def := bjse_CancelReject; sc_flip := false; sc_form := FNone; sc_mods := ["public"] |}.
Definition file_bjse_CancelReject : source := {| s_text := text_bjse_CancelReject;
  s_package := ["com"; "finproto"; "bjse"; "trade"; "messages"];
  s_imports := [["com"; "finproto"; "codec"; "BinaryCodec"]; ["io"; "netty"; "buffer"; "ByteBuf"]; ["java"; "util"; "Objects"]];
  s_main := main_bjse_CancelReject; s_nested := [] |}.

(* bjse-bin/src/main/java/com/finproto/bjse/trade/messages/ConfirmExtend010.java *)
Definition main_bjse_ConfirmExtend010 : source_class := {| sc_def := bjse_ConfirmExtend010; sc_flip := false; sc_form := FNone; sc_mods := ["public"] |}.
Definition file_bjse_ConfirmExtend010 : source := {| s_text := text_bjse_ConfirmExtend010;
  s_package := ["com"; "finproto"; "bjse"; "trade"; "messages"];
  s_imports := [["com"; "finproto"; "codec"; "BinaryCodec"]; ["io"; "netty"; "buffer"; "ByteBuf"]; ["java"; "util"; "Objects"]];
  s_main := main_bjse_ConfirmExtend010; s_nested := [] |}.

(* bjse-bin/src/main/java/com/finproto/bjse/trade/messages/ConfirmExtend040.java *)
Definition main_bjse_ConfirmExtend040 : source_class := {| sc_def := bjse_ConfirmExtend040; sc_flip := false; sc_form := FNone; sc_mods := ["public"] |}.
Definition file_bjse_ConfirmExtend040 : source := {| s_text := text_bjse_ConfirmExtend040;
  s_package := ["com"; "finproto"; "bjse"; "trade"; "messages"];
  s_imports := [["com"; "finproto"; "codec"; "BinaryCodec"]; ["io"; "netty"; "buffer"; "ByteBuf"]; ["java"; "util"; "Objects"]];
  s_main := main_bjse_ConfirmExtend040; s_nested := [] |}.

(* bjse-bin/src/main/java/com/finproto/bjse/trade/messages/ConfirmExtend041.java *)
Definition main_bjse_ConfirmExtend041 : source_class := {| sc_def := bjse_ConfirmExtend041; sc_flip := false; sc_form := FNone; sc_mods := ["public"] |}.
Definition file_bjse_ConfirmExtend041 : source := {| s_text := text_bjse_ConfirmExtend041;
  s_package := ["com"; "finproto"; "bjse"; "trade"; "messages"];
  s_imports := [["com"; "finproto"; "codec"; "BinaryCodec"]; ["io"; "netty"; "buffer"; "ByteBuf"]];
  s_main := main_bjse_ConfirmExtend041; s_nested := [] |}.

(* bjse-bin/src/main/java/com/finproto/bjse/trade/messages/ConfirmExtend042.java *)
Definition main_bjse_ConfirmExtend042 : source_class := {| sc_def := bjse_ConfirmExtend042; sc_flip := false; sc_form := FNone; sc_mods := ["public"] |}.
Definition file_bjse_ConfirmExtend042 : source := {| s_text := text_bjse_ConfirmExtend042;
  s_package := ["com"; "finproto"; "bjse"; "trade"; "messages"];
  s_imports := [["com"; "finproto"; "codec"; "BinaryCodec"]; ["io"; "netty"; "buffer"; "ByteBuf"]];
  s_main := main_bjse_ConfirmExtend042; s_nested := [] |}.

(* bjse-bin/src/main/java/com/finproto/bjse/trade/messages/ConfirmExtend043.java *)
Definition main_bjse_ConfirmExtend043 : source_class := {| sc_def := bjse_ConfirmExtend043; sc_flip := false; sc_form := FNone; sc_mods := ["public"] |}.
Definition file_bjse_ConfirmExtend043 : source := {| s_text := text_bjse_ConfirmExtend043;
  s_package := ["com"; "finproto"; "bjse"; "trade"; "messages"];
  s_imports := [["com"; "finproto"; "codec"; "BinaryCodec"]; ["io"; "netty"; "buffer"; "ByteBuf"]];
  s_main := main_bjse_ConfirmExtend043; s_nested := [] |}.

(* bjse-bin/src/main/java/com/finproto/bjse/trade/messages/ConfirmExtend044.java *)
Definition main_bjse_ConfirmExtend044 : source_class := {| sc_def := bjse_ConfirmExtend044; sc_flip := false; sc_form := FNone; sc_mods := ["public"] |}.
Definition file_bjse_ConfirmExtend044 : source := {| s_text := text_bjse_ConfirmExtend044;
  s_package := ["com"; "finproto"; "bjse"; "trade"; "messages"];
  s_imports := [["com"; "finproto"; "codec"; "BinaryCodec"]; ["io"; "netty"; "buffer"; "ByteBuf"]];
  s_main := main_bjse_ConfirmExtend044; s_nested := [] |}.

(* bjse-bin/src/main/java/com/finproto/bjse/trade/messages/ConfirmExtend045.java *)
Definition main_bjse_ConfirmExtend045 : source_class := {| sc_def := bjse_ConfirmExtend045; sc_flip := false; sc_form := FNone; sc_mods := ["public"] |}.
Definition file_bjse_ConfirmExtend045 : source := {| s_text := text_bjse_ConfirmExtend045;
  s_package := ["com"; "finproto"; "bjse"; "trade"; "messages"];
  s_imports := [["com"; "finproto"; "codec"; "BinaryCodec"]; ["io"; "netty"; "buffer"; "ByteBuf"]];
  s_main := main_bjse_ConfirmExtend045; s_nested := [] |}.

(* bjse-bin/src/main/java/com/finproto/bjse/trade/messages/ConfirmExtend050.java *)
Definition main_bjse_ConfirmExtend050 : source_class := {| sc_def := bjse_ConfirmExtend050; sc_flip := false; sc_form := FNone; sc_mods := ["public"] |}.
Definition file_bjse_ConfirmExtend050 : source := {| s_text := text_bjse_ConfirmExtend050;
  s_package := ["com"; "finproto"; "bjse"; "trade"; "messages"];
  s_imports := [["com"; "finproto"; "codec"; "BinaryCodec"]; ["io"; "netty"; "buffer"; "ByteBuf"]; ["java"; "util"; "Objects"]];
  s_main := main_bjse_ConfirmExtend050; s_nested := [] |}.

(* bjse-bin/src/main/java/com/finproto/bjse/trade/messages/ExecutionConfirm.java *)
Definition main_bjse_ExecutionConfirm : source_class := {| sc_def := bjse_ExecutionConfirm; sc_flip := false; sc_form := (FEnum bjse_ExecutionConfirm_factory); sc_mods := ["public"] |}.
Definition file_bjse_ExecutionConfirm : source := {| s_text := text_bjse_ExecutionConfirm;
  s_package := ["com"; "finproto"; "bjse"; "trade"; "messages"];
  s_imports := [["com"; "finproto"; "codec"; "BinaryCodec"]; ["io"; "netty"; "buffer"; "ByteBuf"]; ["java"; "util"; "HashMap"]; ["java"; "util"; "Map"]; ["java"; "util"; "Objects"]; ["java"; "util"; "function"; "Supplier"]];
  s_main := main_bjse_ExecutionConfirm; s_nested := [] |}.

(* bjse-bin/src/main/java/com/finproto/bjse/trade/messages/ExecutionReport.java *)
Definition main_bjse_ExecutionReport : source_class := {| sc_def := bjse_ExecutionReport; sc_flip := false; sc_form := (FEnum bjse_ExecutionReport_factory); sc_mods := ["public"] |}.
Definition file_bjse_ExecutionReport : source := {| s_text := text_bjse_ExecutionReport;
  s_package := ["com"; "finproto"; "bjse"; "trade"; "messages"];
  s_imports := [["com"; "finproto"; "codec"; "BinaryCodec"]; ["io"; "netty"; "buffer"; "ByteBuf"]; ["java"; "util"; "HashMap"]; ["java"; "util"; "Map"]; ["java"; "util"; "Objects"]; ["java"; "util"; "function"; "Supplier"]];
  s_main := main_bjse_ExecutionReport; s_nested := [] |}.

(* bjse-bin/src/main/java/com/finproto/bjse/trade/messages/Extend010.java *)
Definition main_bjse_Extend010 : source_class := {| sc_def := bjse_Extend010; sc_flip := false; sc_form := FNone; sc_mods := ["public"] |}.
Definition file_bjse_Extend010 : source := {| s_text := text_bjse_Extend010;
  s_package := ["com"; "finproto"; "bjse"; "trade"; "messages"];
  s_imports := [["com"; "finproto"; "codec"; "BinaryCodec"]; ["io"; "netty"; "buffer"; "ByteBuf"]; ["java"; "util"; "Objects"]];
  s_main := main_bjse_Extend010; s_nested := [] |}.

(* bjse-bin/src/main/java/com/finproto/bjse/trade/messages/Extend040.java *)
Definition main_bjse_Extend040 : source_class := {| sc_def := bjse_Extend040; sc_flip := false; sc_form := FNone; sc_mods := ["public"] |}.
Definition file_bjse_Extend040 : source := {| s_text := text_bjse_Extend040;
  s_package := ["com"; "finproto"; "bjse"; "trade"; "messages"];
  s_imports := [["com"; "finproto"; "codec"; "BinaryCodec"]; ["io"; "netty"; "buffer"; "ByteBuf"]; ["java"; "util"; "Objects"]];
  s_main := main_bjse_Extend040; s_nested := [] |}.

(* bjse-bin/src/main/java/com/finproto/bjse/trade/messages/Extend041.java *)
Definition main_bjse_Extend041 : source_class := {| sc_def := bjse_Extend041; sc_flip := false; sc_form := FNone; sc_mods := ["public"] |}.
Definition file_bjse_Extend041 : source := {| s_text := text_bjse_Extend041;
  s_package := ["com"; "finproto"; "bjse"; "trade"; "messages"];
  s_imports := [["com"; "finproto"; "codec"; "BinaryCodec"]; ["io"; "netty"; "buffer"; "ByteBuf"]];
  s_main := main_bjse_Extend041; s_nested := [] |}.

(* bjse-bin/src/main/java/com/finproto/bjse/trade/messages/Extend042.java *)
Definition main_bjse_Extend042 : source_class := {| sc_def := bjse_Extend042; sc_flip := false; sc_form := FNone; sc_mods := ["public"] |}.
Definition file_bjse_Extend042 : source := {| s_text := text_bjse_Extend042;
  s_package := ["com"; "finproto"; "bjse"; "trade"; "messages"];
  s_imports := [["com"; "finproto"; "codec"; "BinaryCodec"]; ["io"; "netty"; "buffer"; "ByteBuf"]];
  s_main := main_bjse_Extend042; s_nested := [] |}.

(* bjse-bin/src/main/java/com/finproto/bjse/trade/messages/Extend043.java *)
Definition main_bjse_Extend043 : source_class := {| sc_def := bjse_Extend043; sc_flip := false; sc_form := FNone; sc_mods := ["public"] |}.
Definition file_bjse_Extend043 : source := {| s_text := text_bjse_Extend043;
  s_package := ["com"; "finproto"; "bjse"; "trade"; "messages"];
  s_imports := [["com"; "finproto"; "codec"; "BinaryCodec"]; ["io"; "netty"; "buffer"; "ByteBuf"]];
  s_main := main_bjse_Extend043; s_nested := [] |}.

(* bjse-bin/src/main/java/com/finproto/bjse/trade/messages/Extend044.java *)
Definition main_bjse_Extend044 : source_class := {| sc_def := bjse_Extend044; sc_flip := false; sc_form := FNone; sc_mods := ["public"] |}.
Definition file_bjse_Extend044 : source := {| s_text := text_bjse_Extend044;
  s_package := ["com"; "finproto"; "bjse"; "trade"; "messages"];
  s_imports := [["com"; "finproto"; "codec"; "BinaryCodec"]; ["io"; "netty"; "buffer"; "ByteBuf"]];
  s_main := main_bjse_Extend044; s_nested := [] |}.

(* bjse-bin/src/main/java/com/finproto/bjse/trade/messages/Extend045.java *)
Definition main_bjse_Extend045 : source_class := {| sc_def := bjse_Extend045; sc_flip := false; sc_form := FNone; sc_mods := ["public"] |}.
Definition file_bjse_Extend045 : source := {| s_text := text_bjse_Extend045;
  s_package := ["com"; "finproto"; "bjse"; "trade"; "messages"];
  s_imports := [["com"; "finproto"; "codec"; "BinaryCodec"]; ["io"; "netty"; "buffer"; "ByteBuf"]];
  s_main := main_bjse_Extend045; s_nested := [] |}.

(* bjse-bin/src/main/java/com/finproto/bjse/trade/messages/Extend050.java *)
Definition main_bjse_Extend050 : source_class := {| sc_def := bjse_Extend050; sc_flip := false; sc_form := FNone; sc_mods := ["public"] |}.
Definition file_bjse_Extend050 : source := {| s_text := text_bjse_Extend050;
  s_package := ["com"; "finproto"; "bjse"; "trade"; "messages"];
  s_imports := [["com"; "finproto"; "codec"; "BinaryCodec"]; ["io"; "netty"; "buffer"; "ByteBuf"]; ["java"; "util"; "Objects"]];
  s_main := main_bjse_Extend050; s_nested := [] |}.

(* bjse-bin/src/main/java/com/finproto/bjse/trade/messages/ExtendNewOrder010.java *)
Definition main_bjse_ExtendNewOrder010 : source_class := {| sc_def := bjse_ExtendNewOrder010; sc_flip := false; sc_form := FNone; sc_mods := ["public"] |}.
Definition file_bjse_ExtendNewOrder010 : source := {| s_text := text_bjse_ExtendNewOrder010;
  s_package := ["com"; "finproto"; "bjse"; "trade"; "messages"];
  s_imports := [["com"; "finproto"; "codec"; "BinaryCodec"]; ["io"; "netty"; "buffer"; "ByteBuf"]; ["java"; "util"; "Objects"]];
  s_main := main_bjse_ExtendNewOrder010; s_nested := [] |}.

(* bjse-bin/src/main/java/com/finproto/bjse/trade/messages/ExtendNewOrder040.java *)
Definition main_bjse_ExtendNewOrder040 : source_class := {| sc_def := bjse_ExtendNewOrder040; sc_flip := false; sc_form := FNone; sc_mods := ["public"] |}.
Definition file_bjse_ExtendNewOrder040 : source := {| s_text := text_bjse_ExtendNewOrder040;
  s_package := ["com"; "finproto"; "bjse"; "trade"; "messages"];
  s_imports := [["com"; "finproto"; "codec"; "BinaryCodec"]; ["io"; "netty"; "buffer"; "ByteBuf"]; ["java"; "util"; "Objects"]];
  s_main := main_bjse_ExtendNewOrder040; s_nested := [] |}.

(* bjse-bin/src/main/java/com/finproto/bjse/trade/messages/ExtendNewOrder041.java *)
Definition main_bjse_ExtendNewOrder041 : source_class := {| sc_def := bjse_ExtendNewOrder041; sc_flip := false; sc_form := FNone; sc_mods := ["public"] |}.
Definition file_bjse_ExtendNewOrder041 : source := {| s_text := text_bjse_ExtendNewOrder041;
  s_package := ["com"; "finproto"; "bjse"; "trade"; "messages"];
  s_imports := [["com"; "finproto"; "codec"; "BinaryCodec"]; ["io"; "netty"; "buffer"; "ByteBuf"]];
  s_main := main_bjse_ExtendNewOrder041; s_nested := [] |}.

(* bjse-bin/src/main/java/com/finproto/bjse/trade/messages/ExtendNewOrder042.java *)
Definition main_bjse_ExtendNewOrder042 : source_class := {| sc_def := bjse_ExtendNewOrder042; sc_flip := false; sc_form := FNone; sc_mods := ["public"] |}.
Definition file_bjse_ExtendNewOrder042 : source := {| s_text := text_bjse_ExtendNewOrder042;
  s_package := ["com"; "finproto"; "bjse"; "trade"; "messages"];
  s_imports := [["com"; "finproto"; "codec"; "BinaryCodec"]; ["io"; "netty"; "buffer"; "ByteBuf"]];
  s_main := main_bjse_ExtendNewOrder042; s_nested := [] |}.

(* bjse-bin/src/main/java/com/finproto/bjse/trade/messages/ExtendNewOrder043.java *)
Definition main_bjse_ExtendNewOrder043 : source_class := {| sc_def := bjse_ExtendNewOrder043; sc_flip := false; sc_form := FNone; sc_mods := ["public"] |}.
Definition file_bjse_ExtendNewOrder043 : source := {| s_text := text_bjse_ExtendNewOrder043;
  s_package := ["com"; "finproto"; "bjse"; "trade"; "messages"];
  s_imports := [["com"; "finproto"; "codec"; "BinaryCodec"]; ["io"; "netty"; "buffer"; "ByteBuf"]];
  s_main := main_bjse_ExtendNewOrder043; s_nested := [] |}.

(* bjse-bin/src/main/java/com/finproto/bjse/trade/messages/ExtendNewOrder044.java *)
Definition main_bjse_ExtendNewOrder044 : source_class := {| sc_def := bjse_ExtendNewOrder044; sc_flip := false; sc_form := FNone; sc_mods := ["public"] |}.
Definition file_bjse_ExtendNewOrder044 : source := {| s_text := text_bjse_ExtendNewOrder044;
  s_package := ["com"; "finproto"; "bjse"; "trade"; "messages"];
  s_imports := [["com"; "finproto"; "codec"; "BinaryCodec"]; ["io"; "netty"; "buffer"; "ByteBuf"]];
  s_main := main_bjse_ExtendNewOrder044; s_nested := [] |}.

(* bjse-bin/src/main/java/com/finproto/bjse/trade/messages/ExtendNewOrder045.java *)
Definition main_bjse_ExtendNewOrder045 : source_class := {| sc_def := bjse_ExtendNewOrder045; sc_flip := false; sc_form := FNone; sc_mods := ["public"] |}.
Definition file_bjse_ExtendNewOrder045 : source := {| s_text := text_bjse_ExtendNewOrder045;
  s_package := ["com"; "finproto"; "bjse"; "trade"; "messages"];
  s_imports := [["com"; "finproto"; "codec"; "BinaryCodec"]; ["io"; "netty"; "buffer"; "ByteBuf"]];
  s_main := main_bjse_ExtendNewOrder045; s_nested := [] |}.

(* bjse-bin/src/main/java/com/finproto/bjse/trade/messages/ExtendNewOrder050.java *)
Definition main_bjse_ExtendNewOrder050 : source_class := {| sc_def := bjse_ExtendNewOrder050; sc_flip := false; sc_form := FNone; sc_mods := ["public"] |}.
Definition file_bjse_ExtendNewOrder050 : source := {| s_text := text_bjse_ExtendNewOrder050;
  s_package := ["com"; "finproto"; "bjse"; "trade"; "messages"];
  s_imports := [["com"; "finproto"; "codec"; "BinaryCodec"]; ["io"; "netty"; "buffer"; "ByteBuf"]; ["java"; "util"; "Objects"]];
  s_main := main_bjse_ExtendNewOrder050; s_nested := [] |}.

(* bjse-bin/src/main/java/com/finproto/bjse/trade/messages/Heartbeat.java *)
Definition main_bjse_Heartbeat : source_class := {| sc_def := bjse_Heartbeat; sc_flip := false; sc_form := FNone; sc_mods := ["public"] |}.
Definition file_bjse_Heartbeat : source := {| s_text := text_bjse_Heartbeat;
  s_package := ["com"; "finproto"; "bjse"; "trade"; "messages"];
  s_imports := [["com"; "finproto"; "codec"; "BinaryCodec"]; ["io"; "netty"; "buffer"; "ByteBuf"]];
  s_main := main_bjse_Heartbeat; s_nested := [] |}.

(* bjse-bin/src/main/java/com/finproto/bjse/trade/messages/Logon.java *)
Definition main_bjse_Logon : source_class := {| sc_def := bjse_Logon; sc_flip := false; sc_form := FNone; sc_mods := ["public"] |}.
Definition file_bjse_Logon : source := {| s_text := text_bjse_Logon;
  s_package := ["com"; "finproto"; "bjse"; "trade"; "messages"];
  s_imports := [["com"; "finproto"; "codec"; "BinaryCodec"]; ["io"; "netty"; "buffer"; "ByteBuf"]; ["java"; "util"; "Objects"]];
  s_main := main_bjse_Logon; s_nested := [] |}.

(* bjse-bin/src/main/java/com/finproto/bjse/trade/messages/Logout.java *)
Definition main_bjse_Logout : source_class := {| sc_def := bjse_Logout; sc_flip := false; sc_form := FNone; sc_mods := ["public"] |}.
Definition file_bjse_Logout : source := {| s_text := text_bjse_Logout;
  s_package := ["com"; "finproto"; "bjse"; "trade"; "messages"];
  s_imports := [["com"; "finproto"; "codec"; "BinaryCodec"]; ["io"; "netty"; "buffer"; "ByteBuf"]; ["java"; "util"; "Objects"]];
  s_main := main_bjse_Logout; s_nested := [] |}.

(* bjse-bin/src/main/java/com/finproto/bjse/trade/messages/NewOrder.java *)
Definition main_bjse_NewOrder : source_class := {| sc_def := bjse_NewOrder; sc_flip := false; sc_form := (FEnum bjse_NewOrder_factory); sc_mods := ["public"] |}.
Definition file_bjse_NewOrder : source := {| s_text := text_bjse_NewOrder;
  s_package := ["com"; "finproto"; "bjse"; "trade"; "messages"];
  s_imports := [["com"; "finproto"; "codec"; "BinaryCodec"]; ["io"; "netty"; "buffer"; "ByteBuf"]; ["java"; "util"; "HashMap"]; ["java"; "util"; "Map"]; ["java"; "util"; "Objects"]; ["java"; "util"; "function"; "Supplier"]];
  s_main := main_bjse_NewOrder; s_nested := [] |}.

(* bjse-bin/src/main/java/com/finproto/bjse/trade/messages/OrderCancelRequest.java *)
Definition main_bjse_OrderCancelRequest : source_class := {| sc_def := bjse_OrderCancelRequest; sc_flip := false; sc_form := FNone; sc_mods := ["public"] |}.
Definition file_bjse_OrderCancelRequest : source := {| s_text := text_bjse_OrderCancelRequest;
  s_package := ["com"; "finproto"; "bjse"; "trade"; "messages"];
  s_imports := [["com"; "finproto"; "codec"; "BinaryCodec"]; ["io"; "netty"; "buffer"; "ByteBuf"]; ["java"; "util"; "Objects"]];
  s_main := main_bjse_OrderCancelRequest; s_nested := [] |}.

(* bjse-bin/src/main/java/com/finproto/bjse/trade/messages/PlatformInfo.java *)
Definition main_bjse_PlatformInfo : source_class := {| sc_def := bjse_PlatformInfo; sc_flip := false; sc_form := FNone; sc_mods := ["public"] |}.
Definition main_bjse_PlatformInfo_NoPartitions : source_class := {| sc_def := bjse_PlatformInfo_NoPartitions; sc_flip := false; sc_form := FNone; sc_mods := ["public"; "static"] |}.
Definition file_bjse_PlatformInfo : source := {| s_text := text_bjse_PlatformInfo;
  s_package := ["com"; "finproto"; "bjse"; "trade"; "messages"];
  s_imports := [["com"; "finproto"; "codec"; "BinaryCodec"]; ["io"; "netty"; "buffer"; "ByteBuf"]; ["java"; "util"; "ArrayList"]; ["java"; "util"; "List"]; ["java"; "util"; "Objects"]];
  s_main := main_bjse_PlatformInfo; s_nested := [main_bjse_PlatformInfo_NoPartitions] |}.

(* bjse-bin/src/main/java/com/finproto/bjse/trade/messages/PlatformStateInfo.java *)
Definition main_bjse_PlatformStateInfo : source_class := {| sc_def := bjse_PlatformStateInfo; sc_flip := false; sc_form := FNone; sc_mods := ["public"] |}.
Definition file_bjse_PlatformStateInfo : source := {| s_text := text_bjse_PlatformStateInfo;
  s_package := ["com"; "finproto"; "bjse"; "trade"; "messages"];
  s_imports := [["com"; "finproto"; "codec"; "BinaryCodec"]; ["io"; "netty"; "buffer"; "ByteBuf"]; ["java"; "util"; "Objects"]];
  s_main := main_bjse_PlatformStateInfo; s_nested := [] |}.

(* bjse-bin/src/main/java/com/finproto/bjse/trade/messages/Quote.java *)
Definition main_bjse_Quote : source_class := {| sc_def := bjse_Quote; sc_flip := false; sc_form := (FEnum bjse_Quote_factory); sc_mods := ["public"] |}.
Definition file_bjse_Quote : source := {| s_text := text_bjse_Quote;
  s_package := ["com"; "finproto"; "bjse"; "trade"; "messages"];
  s_imports := [["com"; "finproto"; "codec"; "BinaryCodec"]; ["io"; "netty"; "buffer"; "ByteBuf"]; ["java"; "util"; "HashMap"]; ["java"; "util"; "Map"]; ["java"; "util"; "Objects"]; ["java"; "util"; "function"; "Supplier"]];
  s_main := main_bjse_Quote; s_nested := [] |}.

(* bjse-bin/src/main/java/com/finproto/bjse/trade/messages/QuoteExtend070.java *)
Definition main_bjse_QuoteExtend070 : source_class := {| sc_def := bjse_QuoteExtend070; sc_flip := false; sc_form := FNone; sc_mods := ["public"] |}.
Definition file_bjse_QuoteExtend070 : source := {| s_text := text_bjse_QuoteExtend070;
  s_package := ["com"; "finproto"; "bjse"; "trade"; "messages"];
  s_imports := [["com"; "finproto"; "codec"; "BinaryCodec"]; ["io"; "netty"; "buffer"; "ByteBuf"]; ["java"; "util"; "Objects"]];
  s_main := main_bjse_QuoteExtend070; s_nested := [] |}.

(* bjse-bin/src/main/java/com/finproto/bjse/trade/messages/QuoteExtend071.java *)
Definition main_bjse_QuoteExtend071 : source_class := {| sc_def := bjse_QuoteExtend071; sc_flip := false; sc_form := FNone; sc_mods := ["public"] |}.
Definition file_bjse_QuoteExtend071 : source := {| s_text := text_bjse_QuoteExtend071;
  s_package := ["com"; "finproto"; "bjse"; "trade"; "messages"];
  s_imports := [["com"; "finproto"; "codec"; "BinaryCodec"]; ["io"; "netty"; "buffer"; "ByteBuf"]];
  s_main := main_bjse_QuoteExtend071; s_nested := [] |}.

(* bjse-bin/src/main/java/com/finproto/bjse/trade/messages/QuoteResponse.java *)
Definition main_bjse_QuoteResponse : source_class := {| sc_def := bjse_QuoteResponse; sc_flip := false; sc_form := (FEnum bjse_QuoteResponse_factory); sc_mods := ["public"] |}.
Definition main_bjse_QuoteResponse_Quote2 : source_class := {| sc_def := bjse_QuoteResponse_Quote2; sc_flip := false; sc_form := FNone; sc_mods := ["public"; "static"] |}.
Definition file_bjse_QuoteResponse : source := {| s_text := text_bjse_QuoteResponse;
  s_package := ["com"; "finproto"; "bjse"; "trade"; "messages"];
  s_imports := [["com"; "finproto"; "codec"; "BinaryCodec"]; ["io"; "netty"; "buffer"; "ByteBuf"]; ["java"; "util"; "ArrayList"]; ["java"; "util"; "HashMap"]; ["java"; "util"; "List"]; ["java"; "util"; "Map"]; ["java"; "util"; "Objects"]; ["java"; "util"; "function"; "Supplier"]];
  s_main := main_bjse_QuoteResponse; s_nested := [main_bjse_QuoteResponse_Quote2] |}.

(* bjse-bin/src/main/java/com/finproto/bjse/trade/messages/QuoteResponseExtend070.java *)
Definition main_bjse_QuoteResponseExtend070 : source_class := {| sc_def := bjse_QuoteResponseExtend070; sc_flip := false; sc_form := FNone; sc_mods := ["public"] |}.
Definition file_bjse_QuoteResponseExtend070 : source := {| s_text := text_bjse_QuoteResponseExtend070;
  s_package := ["com"; "finproto"; "bjse"; "trade"; "messages"];
  s_imports := [["com"; "finproto"; "codec"; "BinaryCodec"]; ["io"; "netty"; "buffer"; "ByteBuf"]; ["java"; "util"; "Objects"]];
  s_main := main_bjse_QuoteResponseExtend070; s_nested := [] |}.

(* bjse-bin/src/main/java/com/finproto/bjse/trade/messages/QuoteStatusReport.java *)
Definition main_bjse_QuoteStatusReport : source_class := {| sc_def := bjse_QuoteStatusReport; sc_flip := false; sc_form := (FEnum bjse_QuoteStatusReport_factory); sc_mods := ["public"] |}.
Definition file_bjse_QuoteStatusReport : source := {| s_text := text_bjse_QuoteStatusReport;
  s_package := ["com"; "finproto"; "bjse"; "trade"; "messages"];
  s_imports := [["com"; "finproto"; "codec"; "BinaryCodec"]; ["io"; "netty"; "buffer"; "ByteBuf"]; ["java"; "util"; "HashMap"]; ["java"; "util"; "Map"]; ["java"; "util"; "Objects"]; ["java"; "util"; "function"; "Supplier"]];
  s_main := main_bjse_QuoteStatusReport; s_nested := [] |}.

(* bjse-bin/src/main/java/com/finproto/bjse/trade/messages/QuoteStatusReportExtend070.java *)
Definition main_bjse_QuoteStatusReportExtend070 : source_class := {| sc_def := bjse_QuoteStatusReportExtend070; sc_flip := false; sc_form := FNone; sc_mods := ["public"] |}.
Definition main_bjse_QuoteStatusReportExtend070_Quote1 : source_class := {| sc_def := bjse_QuoteStatusReportExtend070_Quote1; sc_flip := false; sc_form := FNone; sc_mods := ["public"; "static"] |}.
Definition file_bjse_QuoteStatusReportExtend070 : source := {| s_text := text_bjse_QuoteStatusReportExtend070;
  s_package := ["com"; "finproto"; "bjse"; "trade"; "messages"];
  s_imports := [["com"; "finproto"; "codec"; "BinaryCodec"]; ["io"; "netty"; "buffer"; "ByteBuf"]; ["java"; "util"; "ArrayList"]; ["java"; "util"; "List"]; ["java"; "util"; "Objects"]];
  s_main := main_bjse_QuoteStatusReportExtend070; s_nested := [main_bjse_QuoteStatusReportExtend070_Quote1] |}.

(* bjse-bin/src/main/java/com/finproto/bjse/trade/messages/ReportExtend010.java *)
Definition main_bjse_ReportExtend010 : source_class := {| sc_def := bjse_ReportExtend010; sc_flip := false; sc_form := FNone; sc_mods := ["public"] |}.
Definition file_bjse_ReportExtend010 : source := {| s_text := text_bjse_ReportExtend010;
  s_package := ["com"; "finproto"; "bjse"; "trade"; "messages"];
  s_imports := [["com"; "finproto"; "codec"; "BinaryCodec"]; ["io"; "netty"; "buffer"; "ByteBuf"]; ["java"; "util"; "Objects"]];
  s_main := main_bjse_ReportExtend010; s_nested := [] |}.

(* bjse-bin/src/main/java/com/finproto/bjse/trade/messages/ReportExtend040.java *)
Definition main_bjse_ReportExtend040 : source_class := {| sc_def := bjse_ReportExtend040; sc_flip := false; sc_form := FNone; sc_mods := ["public"] |}.
Definition file_bjse_ReportExtend040 : source := {| s_text := text_bjse_ReportExtend040;
  s_package := ["com"; "finproto"; "bjse"; "trade"; "messages"];
  s_imports := [["com"; "finproto"; "codec"; "BinaryCodec"]; ["io"; "netty"; "buffer"; "ByteBuf"]; ["java"; "util"; "Objects"]];
  s_main := main_bjse_ReportExtend040; s_nested := [] |}.

(* bjse-bin/src/main/java/com/finproto/bjse/trade/messages/ReportExtend050.java *)
Definition main_bjse_ReportExtend050 : source_class := {| sc_def := bjse_ReportExtend050; sc_flip := false; sc_form := FNone; sc_mods := ["public"] |}.
Definition file_bjse_ReportExtend050 : source := {| s_text := text_bjse_ReportExtend050;
  s_package := ["com"; "finproto"; "bjse"; "trade"; "messages"];
  s_imports := [["com"; "finproto"; "codec"; "BinaryCodec"]; ["io"; "netty"; "buffer"; "ByteBuf"]; ["java"; "util"; "Objects"]];
  s_main := main_bjse_ReportExtend050; s_nested := [] |}.

(* bjse-bin/src/main/java/com/finproto/bjse/trade/messages/ReportFinished.java *)
Definition main_bjse_ReportFinished : source_class := {| sc_def := bjse_ReportFinished; sc_flip := false; sc_form := FNone; sc_mods := ["public"] |}.
Definition file_bjse_ReportFinished : source := {| s_text := text_bjse_ReportFinished;
  s_package := ["com"; "finproto"; "bjse"; "trade"; "messages"];
  s_imports := [["com"; "finproto"; "codec"; "BinaryCodec"]; ["io"; "netty"; "buffer"; "ByteBuf"]; ["java"; "util"; "Objects"]];
  s_main := main_bjse_ReportFinished; s_nested := [] |}.

(* bjse-bin/src/main/java/com/finproto/bjse/trade/messages/ReportSynchronization.java *)
Definition main_bjse_ReportSynchronization : source_class := {| sc_def := bjse_ReportSynchronization; sc_flip := false; sc_form := FNone; sc_mods := ["public"] |}.
Definition main_bjse_ReportSynchronization_ReportPartitionSync : source_class := {| sc_def := bjse_ReportSynchronization_ReportPartitionSync; sc_flip := false; sc_form := FNone; sc_mods := ["public"; "static"] |}.
Definition file_bjse_ReportSynchronization : source := {| s_text := text_bjse_ReportSynchronization;
  s_package := ["com"; "finproto"; "bjse"; "trade"; "messages"];
  s_imports := [["com"; "finproto"; "codec"; "BinaryCodec"]; ["io"; "netty"; "buffer"; "ByteBuf"]; ["java"; "util"; "ArrayList"]; ["java"; "util"; "List"]; ["java"; "util"; "Objects"]];
  s_main := main_bjse_ReportSynchronization; s_nested := [main_bjse_ReportSynchronization_ReportPartitionSync] |}.

(* bjse-bin/src/main/java/com/finproto/bjse/trade/messages/TradeCaptureCofirm.java *)
Definition main_bjse_TradeCaptureCofirm : source_class := {| sc_def := bjse_TradeCaptureCofirm; sc_flip := false; sc_form := (FOwn bjse_TradeCaptureCofirm_factory); sc_mods := ["public"] |}.
Definition file_bjse_TradeCaptureCofirm : source := {| s_text := text_bjse_TradeCaptureCofirm;
  s_package := ["com"; "finproto"; "bjse"; "trade"; "messages"];
  s_imports := [["com"; "finproto"; "codec"; "BinaryCodec"]; ["io"; "netty"; "buffer"; "ByteBuf"]; ["java"; "util"; "HashMap"]; ["java"; "util"; "Map"]; ["java"; "util"; "Objects"]; ["java"; "util"; "function"; "Supplier"]];
  s_main := main_bjse_TradeCaptureCofirm; s_nested := [] |}.

(* bjse-bin/src/main/java/com/finproto/bjse/trade/messages/TradeCaptureCofirmExtend031.java *)
Definition main_bjse_TradeCaptureCofirmExtend031 : source_class := {| sc_def := bjse_TradeCaptureCofirmExtend031; sc_flip := false; sc_form := FNone; sc_mods := ["public"] |}.
Definition file_bjse_TradeCaptureCofirmExtend031 : source := {| s_text := text_bjse_TradeCaptureCofirmExtend031;
  s_package := ["com"; "finproto"; "bjse"; "trade"; "messages"];
  s_imports := [["com"; "finproto"; "codec"; "BinaryCodec"]; ["io"; "netty"; "buffer"; "ByteBuf"]; ["java"; "util"; "Objects"]];
  s_main := main_bjse_TradeCaptureCofirmExtend031; s_nested := [] |}.

(* bjse-bin/src/main/java/com/finproto/bjse/trade/messages/TradeCaptureCofirmExtend051.java *)
Definition main_bjse_TradeCaptureCofirmExtend051 : source_class := {| sc_def := bjse_TradeCaptureCofirmExtend051; sc_flip := false; sc_form := FNone; sc_mods := ["public"] |}.
Definition file_bjse_TradeCaptureCofirmExtend051 : source := {| s_text := text_bjse_TradeCaptureCofirmExtend051;
  s_package := ["com"; "finproto"; "bjse"; "trade"; "messages"];
  s_imports := [["com"; "finproto"; "codec"; "BinaryCodec"]; ["io"; "netty"; "buffer"; "ByteBuf"]; ["java"; "util"; "Objects"]];
  s_main := main_bjse_TradeCaptureCofirmExtend051; s_nested := [] |}.

(* bjse-bin/src/main/java/com/finproto/bjse/trade/messages/TradeCaptureCofirmExtend060.java *)
Definition main_bjse_TradeCaptureCofirmExtend060 : source_class := {| sc_def := bjse_TradeCaptureCofirmExtend060; sc_flip := false; sc_form := FNone; sc_mods := ["public"] |}.
Definition file_bjse_TradeCaptureCofirmExtend060 : source := {| s_text := text_bjse_TradeCaptureCofirmExtend060;
  s_package := ["com"; "finproto"; "bjse"; "trade"; "messages"];
  s_imports := [["com"; "finproto"; "codec"; "BinaryCodec"]; ["io"; "netty"; "buffer"; "ByteBuf"]];
  s_main := main_bjse_TradeCaptureCofirmExtend060; s_nested := [] |}.

(* bjse-bin/src/main/java/com/finproto/bjse/trade/messages/TradeCaptureCofirmExtend061.java *)
Definition main_bjse_TradeCaptureCofirmExtend061 : source_class := {| sc_def := bjse_TradeCaptureCofirmExtend061; sc_flip := false; sc_form := FNone; sc_mods := ["public"] |}.
Definition file_bjse_TradeCaptureCofirmExtend061 : source := {| s_text := text_bjse_TradeCaptureCofirmExtend061;
  s_package := ["com"; "finproto"; "bjse"; "trade"; "messages"];
  s_imports := [["com"; "finproto"; "codec"; "BinaryCodec"]; ["io"; "netty"; "buffer"; "ByteBuf"]];
  s_main := main_bjse_TradeCaptureCofirmExtend061; s_nested := [] |}.

(* bjse-bin/src/main/java/com/finproto/bjse/trade/messages/TradeCaptureCofirmExtend062.java *)
Definition main_bjse_TradeCaptureCofirmExtend062 : source_class := {| sc_def := bjse_TradeCaptureCofirmExtend062; sc_flip := false; sc_form := FNone; sc_mods := ["public"] |}.
Definition file_bjse_TradeCaptureCofirmExtend062 : source := {| s_text := text_bjse_TradeCaptureCofirmExtend062;
  s_package := ["com"; "finproto"; "bjse"; "trade"; "messages"];
  s_imports := [["com"; "finproto"; "codec"; "BinaryCodec"]; ["io"; "netty"; "buffer"; "ByteBuf"]; ["java"; "util"; "Objects"]];
  s_main := main_bjse_TradeCaptureCofirmExtend062; s_nested := [] |}.

(* bjse-bin/src/main/java/com/finproto/bjse/trade/messages/TradeCaptureConfirm.java *)
Definition main_bjse_TradeCaptureConfirm : source_class := {| sc_def := bjse_TradeCaptureConfirm; sc_flip := false; sc_form := (FEnum bjse_TradeCaptureConfirm_factory); sc_mods := ["public"] |}.
Definition file_bjse_TradeCaptureConfirm : source := {| s_text := text_bjse_TradeCaptureConfirm;
  s_package := ["com"; "finproto"; "bjse"; "trade"; "messages"];
  s_imports := [["com"; "finproto"; "codec"; "BinaryCodec"]; ["io"; "netty"; "buffer"; "ByteBuf"]; ["java"; "util"; "HashMap"]; ["java"; "util"; "Map"]; ["java"; "util"; "Objects"]; ["java"; "util"; "function"; "Supplier"]];
  s_main := main_bjse_TradeCaptureConfirm; s_nested := [] |}.

(* bjse-bin/src/main/java/com/finproto/bjse/trade/messages/TradeCaptureConfirmExtend031.java *)
Definition main_bjse_TradeCaptureConfirmExtend031 : source_class := {| sc_def := bjse_TradeCaptureConfirmExtend031; sc_flip := false; sc_form := FNone; sc_mods := ["public"] |}.
Definition file_bjse_TradeCaptureConfirmExtend031 : source := {| s_text := text_bjse_TradeCaptureConfirmExtend031;
  s_package := ["com"; "finproto"; "bjse"; "trade"; "messages"];
  s_imports := [["com"; "finproto"; "codec"; "BinaryCodec"]; ["io"; "netty"; "buffer"; "ByteBuf"]; ["java"; "util"; "Objects"]];
  s_main := main_bjse_TradeCaptureConfirmExtend031; s_nested := [] |}.

(* bjse-bin/src/main/java/com/finproto/bjse/trade/messages/TradeCaptureConfirmExtend051.java *)
Definition main_bjse_TradeCaptureConfirmExtend051 : source_class := {| sc_def := bjse_TradeCaptureConfirmExtend051; sc_flip := false; sc_form := FNone; sc_mods := ["public"] |}.
Definition file_bjse_TradeCaptureConfirmExtend051 : source := {| s_text := text_bjse_TradeCaptureConfirmExtend051;
  s_package := ["com"; "finproto"; "bjse"; "trade"; "messages"];
  s_imports := [["com"; "finproto"; "codec"; "BinaryCodec"]; ["io"; "netty"; "buffer"; "ByteBuf"]; ["java"; "util"; "Objects"]];
  s_main := main_bjse_TradeCaptureConfirmExtend051; s_nested := [] |}.

(* bjse-bin/src/main/java/com/finproto/bjse/trade/messages/TradeCaptureConfirmExtend060.java *)
Definition main_bjse_TradeCaptureConfirmExtend060 : source_class := {| sc_def := bjse_TradeCaptureConfirmExtend060; sc_flip := false; sc_form := FNone; sc_mods := ["public"] |}.
Definition file_bjse_TradeCaptureConfirmExtend060 : source := {| s_text := text_bjse_TradeCaptureConfirmExtend060;
  s_package := ["com"; "finproto"; "bjse"; "trade"; "messages"];
  s_imports := [["com"; "finproto"; "codec"; "BinaryCodec"]; ["io"; "netty"; "buffer"; "ByteBuf"]];
  s_main := main_bjse_TradeCaptureConfirmExtend060; s_nested := [] |}.

(* bjse-bin/src/main/java/com/finproto/bjse/trade/messages/TradeCaptureConfirmExtend061.java *)
Definition main_bjse_TradeCaptureConfirmExtend061 : source_class := {| sc_def := bjse_TradeCaptureConfirmExtend061; sc_flip := false; sc_form := FNone; sc_mods := ["public"] |}.
Definition file_bjse_TradeCaptureConfirmExtend061 : source := {| s_text := text_bjse_TradeCaptureConfirmExtend061;
  s_package := ["com"; "finproto"; "bjse"; "trade"; "messages"];
  s_imports := [["com"; "finproto"; "codec"; "BinaryCodec"]; ["io"; "netty"; "buffer"; "ByteBuf"]];
  s_main := main_bjse_TradeCaptureConfirmExtend061; s_nested := [] |}.

(* bjse-bin/src/main/java/com/finproto/bjse/trade/messages/TradeCaptureConfirmExtend062.java *)
Definition main_bjse_TradeCaptureConfirmExtend062 : source_class := {| sc_def := bjse_TradeCaptureConfirmExtend062; sc_flip := false; sc_form := FNone; sc_mods := ["public"] |}.
Definition file_bjse_TradeCaptureConfirmExtend062 : source := {| s_text := text_bjse_TradeCaptureConfirmExtend062;
  s_package := ["com"; "finproto"; "bjse"; "trade"; "messages"];
  s_imports := [["com"; "finproto"; "codec"; "BinaryCodec"]; ["io"; "netty"; "buffer"; "ByteBuf"]; ["java"; "util"; "Objects"]];
  s_main := main_bjse_TradeCaptureConfirmExtend062; s_nested := [] |}.

(* bjse-bin/src/main/java/com/finproto/bjse/trade/messages/TradeCaptureReport.java *)
Definition main_bjse_TradeCaptureReport : source_class := {| sc_def := bjse_TradeCaptureReport; sc_flip := false; sc_form := (FEnum bjse_TradeCaptureReport_factory); sc_mods := ["public"] |}.
Definition file_bjse_TradeCaptureReport : source := {| s_text := text_bjse_TradeCaptureReport;
  s_package := ["com"; "finproto"; "bjse"; "trade"; "messages"];
  s_imports := [["com"; "finproto"; "codec"; "BinaryCodec"]; ["io"; "netty"; "buffer"; "ByteBuf"]; ["java"; "util"; "HashMap"]; ["java"; "util"; "Map"]; ["java"; "util"; "Objects"]; ["java"; "util"; "function"; "Supplier"]];
  s_main := main_bjse_TradeCaptureReport; s_nested := [] |}.

(* bjse-bin/src/main/java/com/finproto/bjse/trade/messages/TradeCaptureReportAck.java *)
Definition main_bjse_TradeCaptureReportAck : source_class := {| sc_def := bjse_TradeCaptureReportAck; sc_flip := false; sc_form := (FEnum bjse_TradeCaptureReportAck_factory); sc_mods := ["public"] |}.
Definition file_bjse_TradeCaptureReportAck : source := {| s_text := text_bjse_TradeCaptureReportAck;
  s_package := ["com"; "finproto"; "bjse"; "trade"; "messages"];
  s_imports := [["com"; "finproto"; "codec"; "BinaryCodec"]; ["io"; "netty"; "buffer"; "ByteBuf"]; ["java"; "util"; "HashMap"]; ["java"; "util"; "Map"]; ["java"; "util"; "Objects"]; ["java"; "util"; "function"; "Supplier"]];
  s_main := main_bjse_TradeCaptureReportAck; s_nested := [] |}.

(* bjse-bin/src/main/java/com/finproto/bjse/trade/messages/TradeCaptureReportAckExtend031.java *)
Definition main_bjse_TradeCaptureReportAckExtend031 : source_class := {| sc_def := bjse_TradeCaptureReportAckExtend031; sc_flip := false; sc_form := FNone; sc_mods := ["public"] |}.
Definition file_bjse_TradeCaptureReportAckExtend031 : source := {| s_text := text_bjse_TradeCaptureReportAckExtend031;
  s_package := ["com"; "finproto"; "bjse"; "trade"; "messages"];
  s_imports := [["com"; "finproto"; "codec"; "BinaryCodec"]; ["io"; "netty"; "buffer"; "ByteBuf"]; ["java"; "util"; "Objects"]];
  s_main := main_bjse_TradeCaptureReportAckExtend031; s_nested := [] |}.

(* bjse-bin/src/main/java/com/finproto/bjse/trade/messages/TradeCaptureReportAckExtend051.java *)
Definition main_bjse_TradeCaptureReportAckExtend051 : source_class := {| sc_def := bjse_TradeCaptureReportAckExtend051; sc_flip := false; sc_form := FNone; sc_mods := ["public"] |}.
Definition file_bjse_TradeCaptureReportAckExtend051 : source := {| s_text := text_bjse_TradeCaptureReportAckExtend051;
  s_package := ["com"; "finproto"; "bjse"; "trade"; "messages"];
  s_imports := [["com"; "finproto"; "codec"; "BinaryCodec"]; ["io"; "netty"; "buffer"; "ByteBuf"]; ["java"; "util"; "Objects"]];
  s_main := main_bjse_TradeCaptureReportAckExtend051; s_nested := [] |}.

(* bjse-bin/src/main/java/com/finproto/bjse/trade/messages/TradeCaptureReportAckExtend060.java *)
Definition main_bjse_TradeCaptureReportAckExtend060 : source_class := {| sc_def := bjse_TradeCaptureReportAckExtend060; sc_flip := false; sc_form := FNone; sc_mods := ["public"] |}.
Definition file_bjse_TradeCaptureReportAckExtend060 : source := {| s_text := text_bjse_TradeCaptureReportAckExtend060;
  s_package := ["com"; "finproto"; "bjse"; "trade"; "messages"];
  s_imports := [["com"; "finproto"; "codec"; "BinaryCodec"]; ["io"; "netty"; "buffer"; "ByteBuf"]];
  s_main := main_bjse_TradeCaptureReportAckExtend060; s_nested := [] |}.

(* bjse-bin/src/main/java/com/finproto/bjse/trade/messages/TradeCaptureReportAckExtend061.java *)
Definition main_bjse_TradeCaptureReportAckExtend061 : source_class := {| sc_def := bjse_TradeCaptureReportAckExtend061; sc_flip := false; sc_form := FNone; sc_mods := ["public"] |}.
Definition file_bjse_TradeCaptureReportAckExtend061 : source := {| s_text := text_bjse_TradeCaptureReportAckExtend061;
  s_package := ["com"; "finproto"; "bjse"; "trade"; "messages"];
  s_imports := [["com"; "finproto"; "codec"; "BinaryCodec"]; ["io"; "netty"; "buffer"; "ByteBuf"]];
  s_main := main_bjse_TradeCaptureReportAckExtend061; s_nested := [] |}.

(* bjse-bin/src/main/java/com/finproto/bjse/trade/messages/TradeCaptureReportAckExtend062.java *)
Definition main_bjse_TradeCaptureReportAckExtend062 : source_class := {| sc_def := bjse_TradeCaptureReportAckExtend062; sc_flip := false; sc_form := FNone; sc_mods := ["public"] |}.
Definition file_bjse_TradeCaptureReportAckExtend062 : source := {| s_text := text_bjse_TradeCaptureReportAckExtend062;
  s_package := ["com"; "finproto"; "bjse"; "trade"; "messages"];
  s_imports := [["com"; "finproto"; "codec"; "BinaryCodec"]; ["io"; "netty"; "buffer"; "ByteBuf"]; ["java"; "util"; "Objects"]];
  s_main := main_bjse_TradeCaptureReportAckExtend062; s_nested := [] |}.

(* bjse-bin/src/main/java/com/finproto/bjse/trade/messages/TradeCaptureReportExtend031.java *)
Definition main_bjse_TradeCaptureReportExtend031 : source_class := {| sc_def := bjse_TradeCaptureReportExtend031; sc_flip := false; sc_form := FNone; sc_mods := ["public"] |}.
Definition file_bjse_TradeCaptureReportExtend031 : source := {| s_text := text_bjse_TradeCaptureReportExtend031;
  s_package := ["com"; "finproto"; "bjse"; "trade"; "messages"];
  s_imports := [["com"; "finproto"; "codec"; "BinaryCodec"]; ["io"; "netty"; "buffer"; "ByteBuf"]; ["java"; "util"; "Objects"]];
  s_main := main_bjse_TradeCaptureReportExtend031; s_nested := [] |}.

(* bjse-bin/src/main/java/com/finproto/bjse/trade/messages/TradeCaptureReportExtend051.java *)
Definition main_bjse_TradeCaptureReportExtend051 : source_class := {| sc_def := bjse_TradeCaptureReportExtend051; sc_flip := false; sc_form := FNone; sc_mods := ["public"] |}.
Definition file_bjse_TradeCaptureReportExtend051 : source := {| s_text := text_bjse_TradeCaptureReportExtend051;
  s_package := ["com"; "finproto"; "bjse"; "trade"; "messages"];
  s_imports := [["com"; "finproto"; "codec"; "BinaryCodec"]; ["io"; "netty"; "buffer"; "ByteBuf"]; ["java"; "util"; "Objects"]];
  s_main := main_bjse_TradeCaptureReportExtend051; s_nested := [] |}.

(* bjse-bin/src/main/java/com/finproto/bjse/trade/messages/TradeCaptureReportExtend060.java *)
Definition main_bjse_TradeCaptureReportExtend060 : source_class := {| sc_def := bjse_TradeCaptureReportExtend060; sc_flip := false; sc_form := FNone; sc_mods := ["public"] |}.
Definition file_bjse_TradeCaptureReportExtend060 : source := {| s_text := text_bjse_TradeCaptureReportExtend060;
  s_package := ["com"; "finproto"; "bjse"; "trade"; "messages"];
  s_imports := [["com"; "finproto"; "codec"; "BinaryCodec"]; ["io"; "netty"; "buffer"; "ByteBuf"]];
  s_main := main_bjse_TradeCaptureReportExtend060; s_nested := [] |}.

(* bjse-bin/src/main/java/com/finproto/bjse/trade/messages/TradeCaptureReportExtend061.java *)
Definition main_bjse_TradeCaptureReportExtend061 : source_class := {| sc_def := bjse_TradeCaptureReportExtend061; sc_flip := false; sc_form := FNone; sc_mods := ["public"] |}.
Definition file_bjse_TradeCaptureReportExtend061 : source := {| s_text := text_bjse_TradeCaptureReportExtend061;
  s_package := ["com"; "finproto"; "bjse"; "trade"; "messages"];
  s_imports := [["com"; "finproto"; "codec"; "BinaryCodec"]; ["io"; "netty"; "buffer"; "ByteBuf"]];
  s_main := main_bjse_TradeCaptureReportExtend061; s_nested := [] |}.

(* bjse-bin/src/main/java/com/finproto/bjse/trade/messages/TradeCaptureReportExtend062.java *)
Definition main_bjse_TradeCaptureReportExtend062 : source_class := {| sc_def := bjse_TradeCaptureReportExtend062; sc_flip := false; sc_form := FNone; sc_mods := ["public"] |}.
Definition file_bjse_TradeCaptureReportExtend062 : source := {| s_text := text_bjse_TradeCaptureReportExtend062;
  s_package := ["com"; "finproto"; "bjse"; "trade"; "messages"];
  s_imports := [["com"; "finproto"; "codec"; "BinaryCodec"]; ["io"; "netty"; "buffer"; "ByteBuf"]; ["java"; "util"; "Objects"]];
  s_main := main_bjse_TradeCaptureReportExtend062; s_nested := [] |}.

(* bjse-bin/src/main/java/com/finproto/bjse/trade/messages/TradingSessionStatus.java *)
Definition main_bjse_TradingSessionStatus : source_class := {| sc_def := bjse_TradingSessionStatus; sc_flip := false; sc_form := FNone; sc_mods := ["public"] |}.
Definition file_bjse_TradingSessionStatus : source := {| s_text := text_bjse_TradingSessionStatus;
  s_package := ["com"; "finproto"; "bjse"; "trade"; "messages"];
  s_imports := [["com"; "finproto"; "codec"; "BinaryCodec"]; ["io"; "netty"; "buffer"; "ByteBuf"]; ["java"; "util"; "Objects"]];
  s_main := main_bjse_TradingSessionStatus; s_nested := [] |}.

Definition bjse_files : list source :=
  [ file_bjse_AllegeQuote;
    file_bjse_AllegeQuoteExtend070;
    file_bjse_AllegeQuoteResponse;
    file_bjse_BjseBinary;
    file_bjse_BusinessReject;
    file_bjse_CancelReject;
    file_bjse_ConfirmExtend010;
    file_bjse_ConfirmExtend040;
    file_bjse_ConfirmExtend041;
    file_bjse_ConfirmExtend042;
    file_bjse_ConfirmExtend043;
    file_bjse_ConfirmExtend044;
    file_bjse_ConfirmExtend045;
    file_bjse_ConfirmExtend050;
    file_bjse_ExecutionConfirm;
    file_bjse_ExecutionReport;
    file_bjse_Extend010;
    file_bjse_Extend040;
    file_bjse_Extend041;
    file_bjse_Extend042;
    file_bjse_Extend043;
    file_bjse_Extend044;
    file_bjse_Extend045;
    file_bjse_Extend050;
    file_bjse_ExtendNewOrder010;
    file_bjse_ExtendNewOrder040;
    file_bjse_ExtendNewOrder041;
    file_bjse_ExtendNewOrder042;
    file_bjse_ExtendNewOrder043;
    file_bjse_ExtendNewOrder044;
    file_bjse_ExtendNewOrder045;
    file_bjse_ExtendNewOrder050;
    file_bjse_Heartbeat;
    file_bjse_Logon;
    file_bjse_Logout;
    file_bjse_NewOrder;
    file_bjse_OrderCancelRequest;
    file_bjse_PlatformInfo;
    file_bjse_PlatformStateInfo;
    file_bjse_Quote;
    file_bjse_QuoteExtend070;
    file_bjse_QuoteExtend071;
    file_bjse_QuoteResponse;
    file_bjse_QuoteResponseExtend070;
    file_bjse_QuoteStatusReport;
    file_bjse_QuoteStatusReportExtend070;
    file_bjse_ReportExtend010;
    file_bjse_ReportExtend040;
    file_bjse_ReportExtend050;
    file_bjse_ReportFinished;
    file_bjse_ReportSynchronization;
    file_bjse_TradeCaptureCofirm;
    file_bjse_TradeCaptureCofirmExtend031;
    file_bjse_TradeCaptureCofirmExtend051;
    file_bjse_TradeCaptureCofirmExtend060;
    file_bjse_TradeCaptureCofirmExtend061;
    file_bjse_TradeCaptureCofirmExtend062;
    file_bjse_TradeCaptureConfirm;
    file_bjse_TradeCaptureConfirmExtend031;
    file_bjse_TradeCaptureConfirmExtend051;
    file_bjse_TradeCaptureConfirmExtend060;
    file_bjse_TradeCaptureConfirmExtend061;
    file_bjse_TradeCaptureConfirmExtend062;
    file_bjse_TradeCaptureReport;
    file_bjse_TradeCaptureReportAck;
    file_bjse_TradeCaptureReportAckExtend031;
    file_bjse_TradeCaptureReportAckExtend051;
    file_bjse_TradeCaptureReportAckExtend060;
    file_bjse_TradeCaptureReportAckExtend061;
    file_bjse_TradeCaptureReportAckExtend062;
    file_bjse_TradeCaptureReportExtend031;
    file_bjse_TradeCaptureReportExtend051;
    file_bjse_TradeCaptureReportExtend060;
    file_bjse_TradeCaptureReportExtend061;
    file_bjse_TradeCaptureReportExtend062;
    file_bjse_TradingSessionStatus ].
