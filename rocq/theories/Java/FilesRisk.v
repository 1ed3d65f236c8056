(* GENERATED by tools/mksrc.py: the files of /repo/risk-bin/src/main/java and the trees they should be. *)
From Coq Require Import List String.
From Verif.Model Require Import Ast GenRisk.
From Verif.Java Require Import Syntax Source SrcRisk Sources.
Import ListNotations.
Open Scope string_scope.

(* risk-bin/src/main/java/com/finproto/risk/bin/messages/CancelReject.java *)
Definition main_risk_CancelReject : source_class := {| sc_def := risk_CancelReject; sc_flip := false; sc_form := FNone; sc_mods := ["public"] |}.
Definition file_risk_CancelReject : source := {| s_text := text_risk_CancelReject;
  s_package := ["com"; "finproto"; "risk"; "bin"; "messages"];
  s_imports := [["com"; "finproto"; "codec"; "BinaryCodec"]; ["io"; "netty"; "buffer"; "ByteBuf"]; ["io"; "netty"; "util"; "internal"; "StringUtil"]; ["java"; "nio"; "charset"; "StandardCharsets"]; ["java"; "util"; "Objects"]];
  s_main := main_risk_CancelReject; s_nested := [] |}.

(* risk-bin/src/main/java/com/finproto/risk/bin/messages/ExecutionReport.java *)
Definition main_risk_ExecutionReport : source_class := {| sc_def := risk_ExecutionReport; sc_flip := false; sc_form := FNone; sc_mods := ["public"] |}.
Definition file_risk_ExecutionReport : source := {| s_text := text_risk_ExecutionReport;
  s_package := ["com"; "finproto"; "risk"; "bin"; "messages"];
  s_imports := [["com"; "finproto"; "codec"; "BinaryCodec"]; ["io"; "netty"; "buffer"; "ByteBuf"]; ["io"; "netty"; "util"; "internal"; "StringUtil"]; ["java"; "nio"; "charset"; "StandardCharsets"]; ["java"; "util"; "Objects"]];
  s_main := main_risk_ExecutionReport; s_nested := [] |}.

(* risk-bin/src/main/java/com/finproto/risk/bin/messages/NewOrder.java *)
Definition main_risk_NewOrder : source_class := {| sc_def := risk_NewOrder; sc_flip := false; sc_form := FNone; sc_mods := ["public"] |}.
Definition file_risk_NewOrder : source := {| s_text := text_risk_NewOrder;
  s_package := ["com"; "finproto"; "risk"; "bin"; "messages"];
  s_imports := [["com"; "finproto"; "codec"; "BinaryCodec"]; ["io"; "netty"; "buffer"; "ByteBuf"]; ["io"; "netty"; "util"; "internal"; "StringUtil"]; ["java"; "nio"; "charset"; "StandardCharsets"]; ["java"; "util"; "Objects"]];
  s_main := main_risk_NewOrder; s_nested := [] |}.

(* risk-bin/src/main/java/com/finproto/risk/bin/messages/OrderCancel.java *)
Definition main_risk_OrderCancel : source_class := {| sc_def := risk_OrderCancel; sc_flip := false; sc_form := FNone; sc_mods := ["public"] |}.
Definition file_risk_OrderCancel : source := {| s_text := text_risk_OrderCancel;
  s_package := ["com"; "finproto"; "risk"; "bin"; "messages"];
  s_imports := [["com"; "finproto"; "codec"; "BinaryCodec"]; ["io"; "netty"; "buffer"; "ByteBuf"]; ["io"; "netty"; "util"; "internal"; "StringUtil"]; ["java"; "nio"; "charset"; "StandardCharsets"]; ["java"; "util"; "Objects"]];
  s_main := main_risk_OrderCancel; s_nested := [] |}.

(* risk-bin/src/main/java/com/finproto/risk/bin/messages/OrderConfirm.java *)
Definition main_risk_OrderConfirm : source_class := {| sc_def := risk_OrderConfirm; sc_flip := false; sc_form := FNone; sc_mods := ["public"] |}.
Definition file_risk_OrderConfirm : source := {| s_text := text_risk_OrderConfirm;
  s_package := ["com"; "finproto"; "risk"; "bin"; "messages"];
  s_imports := [["com"; "finproto"; "codec"; "BinaryCodec"]; ["io"; "netty"; "buffer"; "ByteBuf"]; ["io"; "netty"; "util"; "internal"; "StringUtil"]; ["java"; "nio"; "charset"; "StandardCharsets"]; ["java"; "util"; "Objects"]];
  s_main := main_risk_OrderConfirm; s_nested := [] |}.

(* risk-bin/src/main/java/com/finproto/risk/bin/messages/RcBinary.java *)
Definition main_risk_RcBinary : source_class := {| sc_def := risk_RcBinary; sc_flip := true; sc_form := (FEnum risk_RcBinary_factory); sc_mods := ["public"] |}.
Definition file_risk_RcBinary : source := {| s_text := text_risk_RcBinary;
  s_package := ["com"; "finproto"; "risk"; "bin"; "messages"];
  s_imports := [["com"; "finproto"; "codec"; "BinaryCodec"]; ["io"; "netty"; "buffer"; "ByteBuf"]; ["java"; "util"; "HashMap"]; ["java"; "util"; "Map"]; ["java"; "util"; "Objects"]; ["java"; "util"; "function"; "Supplier"]];
  s_main := main_risk_RcBinary; s_nested := [] |}.

(* risk-bin/src/main/java/com/finproto/risk/bin/messages/RiskResult.java *)
Definition main_risk_RiskResult : source_class := {| sc_def := risk_RiskResult; sc_flip := false; sc_form := FNone; sc_mods := ["public"] |}.
Definition file_risk_RiskResult : source := {| s_text := text_risk_RiskResult;
  s_package := ["com"; "finproto"; "risk"; "bin"; "messages"];
  s_imports := [["com"; "finproto"; "codec"; "BinaryCodec"]; ["io"; "netty"; "buffer"; "ByteBuf"]; ["io"; "netty"; "util"; "internal"; "StringUtil"]; ["java"; "nio"; "charset"; "StandardCharsets"]; ["java"; "util"; "Objects"]];
  s_main := main_risk_RiskResult; s_nested := [] |}.

Definition risk_files : list source :=
  [ file_risk_CancelReject;
    file_risk_ExecutionReport;
    file_risk_NewOrder;
    file_risk_OrderCancel;
    file_risk_OrderConfirm;
    file_risk_RcBinary;
    file_risk_RiskResult ].
