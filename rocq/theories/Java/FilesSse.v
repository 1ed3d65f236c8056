(* GENERATED by tools/mksrc.py: the files of /repo/sse-bin/src/main/java and the trees they should be. *)
From Coq Require Import List String.
From Verif.Model Require Import Ast GenSse.
From Verif.Java Require Import Syntax Source SrcSse Sources.
Import ListNotations.
Open Scope string_scope.

(* sse-bin/src/main/java/com/finproto/sse/bin/messages/CancelReject.java *)
Definition main_sse_CancelReject : source_class := {| sc_def := sse_CancelReject; sc_flip := false; sc_form := FNone; sc_mods := ["public"] |}.
Definition file_sse_CancelReject : source := {| s_text := text_sse_CancelReject;
  s_package := ["com"; "finproto"; "sse"; "bin"; "messages"];
  s_imports := [["com"; "finproto"; "codec"; "BinaryCodec"]; ["io"; "netty"; "buffer"; "ByteBuf"]; ["java"; "util"; "Objects"]];
  s_main := main_sse_CancelReject; s_nested := [] |}.

(* sse-bin/src/main/java/com/finproto/sse/bin/messages/Confirm.java *)
Definition main_sse_Confirm : source_class := {| sc_def := sse_Confirm; sc_flip := false; sc_form := FNone; sc_mods := ["public"] |}.
Definition file_sse_Confirm : source := {| s_text := text_sse_Confirm;
  s_package := ["com"; "finproto"; "sse"; "bin"; "messages"];
  s_imports := [["com"; "finproto"; "codec"; "BinaryCodec"]; ["io"; "netty"; "buffer"; "ByteBuf"]; ["java"; "util"; "Objects"]];
  s_main := main_sse_Confirm; s_nested := [] |}.

(* sse-bin/src/main/java/com/finproto/sse/bin/messages/ExecRptEndOfStream.java *)
Definition main_sse_ExecRptEndOfStream : source_class := {| sc_def := sse_ExecRptEndOfStream; sc_flip := false; sc_form := FNone; sc_mods := ["public"] |}.
Definition file_sse_ExecRptEndOfStream : source := {| s_text := text_sse_ExecRptEndOfStream;
  s_package := ["com"; "finproto"; "sse"; "bin"; "messages"];
  s_imports := [["com"; "finproto"; "codec"; "BinaryCodec"]; ["io"; "netty"; "buffer"; "ByteBuf"]; ["java"; "util"; "Objects"]];
  s_main := main_sse_ExecRptEndOfStream; s_nested := [] |}.

(* sse-bin/src/main/java/com/finproto/sse/bin/messages/ExecRptInfo.java *)
Definition main_sse_ExecRptInfo : source_class := {| sc_def := sse_ExecRptInfo; sc_flip := false; sc_form := FNone; sc_mods := ["public"] |}.
Definition file_sse_ExecRptInfo : source := {| s_text := text_sse_ExecRptInfo;
  s_package := ["com"; "finproto"; "sse"; "bin"; "messages"];
  s_imports := [["com"; "finproto"; "codec"; "BinaryCodec"]; ["io"; "netty"; "buffer"; "ByteBuf"]; ["java"; "util"; "ArrayList"]; ["java"; "util"; "List"]; ["java"; "util"; "Objects"]];
  s_main := main_sse_ExecRptInfo; s_nested := [] |}.

(* sse-bin/src/main/java/com/finproto/sse/bin/messages/ExecRptSync.java *)
Definition main_sse_ExecRptSync : source_class := {| sc_def := sse_ExecRptSync; sc_flip := false; sc_form := FNone; sc_mods := ["public"] |}.
Definition main_sse_ExecRptSync_SubExecRptSync : source_class := {| sc_def := sse_ExecRptSync_SubExecRptSync; sc_flip := false; sc_form := FNone; sc_mods := ["public"; "static"] |}.
Definition file_sse_ExecRptSync : source := {| s_text := text_sse_ExecRptSync;
  s_package := ["com"; "finproto"; "sse"; "bin"; "messages"];
  s_imports := [["com"; "finproto"; "codec"; "BinaryCodec"]; ["io"; "netty"; "buffer"; "ByteBuf"]; ["java"; "util"; "ArrayList"]; ["java"; "util"; "List"]; ["java"; "util"; "Objects"]];
  s_main := main_sse_ExecRptSync; s_nested := [main_sse_ExecRptSync_SubExecRptSync] |}.

(* sse-bin/src/main/java/com/finproto/sse/bin/messages/ExecRptSyncRsp.java *)
Definition main_sse_ExecRptSyncRsp : source_class := {| sc_def := sse_ExecRptSyncRsp; sc_flip := false; sc_form := FNone; sc_mods := ["public"] |}.
Definition main_sse_ExecRptSyncRsp_SubExecRptSyncRsp : source_class := {| sc_def := sse_ExecRptSyncRsp_SubExecRptSyncRsp; sc_flip := false; sc_form := FNone; sc_mods := ["public"; "static"] |}.
Definition file_sse_ExecRptSyncRsp : source := {| s_text := text_sse_ExecRptSyncRsp;
  s_package := ["com"; "finproto"; "sse"; "bin"; "messages"];
  s_imports := [["com"; "finproto"; "codec"; "BinaryCodec"]; ["io"; "netty"; "buffer"; "ByteBuf"]; ["java"; "util"; "ArrayList"]; ["java"; "util"; "List"]; ["java"; "util"; "Objects"]];
  s_main := main_sse_ExecRptSyncRsp; s_nested := [main_sse_ExecRptSyncRsp_SubExecRptSyncRsp] |}.

(* sse-bin/src/main/java/com/finproto/sse/bin/messages/Heartbeat.java *)
Definition main_sse_Heartbeat : source_class := {| sc_def := sse_Heartbeat; sc_flip := false; sc_form := FNone; sc_mods := ["public"] |}.
Definition file_sse_Heartbeat : source := {| s_text := text_sse_Heartbeat;
  s_package := ["com"; "finproto"; "sse"; "bin"; "messages"];
  s_imports := [["com"; "finproto"; "codec"; "BinaryCodec"]; ["io"; "netty"; "buffer"; "ByteBuf"]];
  s_main := main_sse_Heartbeat; s_nested := [] |}.

(* sse-bin/src/main/java/com/finproto/sse/bin/messages/Logon.java *)
Definition main_sse_Logon : source_class := {| sc_def := sse_Logon; sc_flip := false; sc_form := FNone; sc_mods := ["public"] |}.
Definition file_sse_Logon : source := {| s_text := text_sse_Logon;
  s_package := ["com"; "finproto"; "sse"; "bin"; "messages"];
  s_imports := [["com"; "finproto"; "codec"; "BinaryCodec"]; ["io"; "netty"; "buffer"; "ByteBuf"]; ["java"; "util"; "Objects"]];
  s_main := main_sse_Logon; s_nested := [] |}.

(* sse-bin/src/main/java/com/finproto/sse/bin/messages/Logout.java *)
Definition main_sse_Logout : source_class := {| sc_def := sse_Logout; sc_flip := false; sc_form := FNone; sc_mods := ["public"] |}.
Definition file_sse_Logout : source := {| s_text := text_sse_Logout;
  s_package := ["com"; "finproto"; "sse"; "bin"; "messages"];
  s_imports := [["com"; "finproto"; "codec"; "BinaryCodec"]; ["io"; "netty"; "buffer"; "ByteBuf"]; ["java"; "util"; "Objects"]];
  s_main := main_sse_Logout; s_nested := [] |}.

(* sse-bin/src/main/java/com/finproto/sse/bin/messages/NewOrderSingle.java *)
Definition main_sse_NewOrderSingle : source_class := {| sc_def := sse_NewOrderSingle; sc_flip := false; sc_form := FNone; sc_mods := ["public"] |}.
Definition file_sse_NewOrderSingle : source := {| s_text := text_sse_NewOrderSingle;
  s_package := ["com"; "finproto"; "sse"; "bin"; "messages"];
  s_imports := [["com"; "finproto"; "codec"; "BinaryCodec"]; ["io"; "netty"; "buffer"; "ByteBuf"]; ["java"; "util"; "Objects"]];
  s_main := main_sse_NewOrderSingle; s_nested := [] |}.

(* sse-bin/src/main/java/com/finproto/sse/bin/messages/OrderCancel.java *)
Definition main_sse_OrderCancel : source_class := {| sc_def := sse_OrderCancel; sc_flip := false; sc_form := FNone; sc_mods := ["public"] |}.
Definition file_sse_OrderCancel : source := {| s_text := text_sse_OrderCancel;
  s_package := ["com"; "finproto"; "sse"; "bin"; "messages"];
  s_imports := [["com"; "finproto"; "codec"; "BinaryCodec"]; ["io"; "netty"; "buffer"; "ByteBuf"]; ["java"; "util"; "Objects"]];
  s_main := main_sse_OrderCancel; s_nested := [] |}.

(* sse-bin/src/main/java/com/finproto/sse/bin/messages/OrderReject.java *)
Definition main_sse_OrderReject : source_class := {| sc_def := sse_OrderReject; sc_flip := false; sc_form := FNone; sc_mods := ["public"] |}.
Definition file_sse_OrderReject : source := {| s_text := text_sse_OrderReject;
  s_package := ["com"; "finproto"; "sse"; "bin"; "messages"];
  s_imports := [["com"; "finproto"; "codec"; "BinaryCodec"]; ["io"; "netty"; "buffer"; "ByteBuf"]; ["java"; "util"; "Objects"]];
  s_main := main_sse_OrderReject; s_nested := [] |}.

(* sse-bin/src/main/java/com/finproto/sse/bin/messages/PlatformState.java *)
Definition main_sse_PlatformState : source_class := {| sc_def := sse_PlatformState; sc_flip := false; sc_form := FNone; sc_mods := ["public"] |}.
Definition file_sse_PlatformState : source := {| s_text := text_sse_PlatformState;
  s_package := ["com"; "finproto"; "sse"; "bin"; "messages"];
  s_imports := [["com"; "finproto"; "codec"; "BinaryCodec"]; ["io"; "netty"; "buffer"; "ByteBuf"]; ["java"; "util"; "Objects"]];
  s_main := main_sse_PlatformState; s_nested := [] |}.

(* sse-bin/src/main/java/com/finproto/sse/bin/messages/Report.java *)
Definition main_sse_Report : source_class := {| sc_def := sse_Report; sc_flip := false; sc_form := FNone; sc_mods := ["public"] |}.
Definition file_sse_Report : source := {| s_text := text_sse_Report;
  s_package := ["com"; "finproto"; "sse"; "bin"; "messages"];
  s_imports := [["com"; "finproto"; "codec"; "BinaryCodec"]; ["io"; "netty"; "buffer"; "ByteBuf"]; ["java"; "util"; "Objects"]];
  s_main := main_sse_Report; s_nested := [] |}.

(* sse-bin/src/main/java/com/finproto/sse/bin/messages/SseBinary.java *)
Definition main_sse_SseBinary : source_class := {| sc_def := sse_SseBinary; sc_flip := true; sc_form := (FEnumRev sse_SseBinary_factory sse_SseBinary_msgtypes); sc_mods := ["public"] |}.
Definition file_sse_SseBinary : source := {| s_text := text_sse_SseBinary;
  s_package := ["com"; "finproto"; "sse"; "bin"; "messages"];
  s_imports := [["com"; "finproto"; "codec"; "BinaryCodec"]; ["com"; "finproto"; "codec"; "ChecksumService"]; ["com"; "finproto"; "codec"; "ChecksumServiceFactory"]; ["io"; "netty"; "buffer"; "ByteBuf"]; ["java"; "util"; "HashMap"]; ["java"; "util"; "Map"]; ["java"; "util"; "Objects"]; ["java"; "util"; "function"; "Supplier"]];
  s_main := main_sse_SseBinary; s_nested := [] |}.

Definition sse_files : list source :=
  [ file_sse_CancelReject;
    file_sse_Confirm;
    file_sse_ExecRptEndOfStream;
    file_sse_ExecRptInfo;
    file_sse_ExecRptSync;
    file_sse_ExecRptSyncRsp;
    file_sse_Heartbeat;
    file_sse_Logon;
    file_sse_Logout;
    file_sse_NewOrderSingle;
    file_sse_OrderCancel;
    file_sse_OrderReject;
    file_sse_PlatformState;
    file_sse_Report;
    file_sse_SseBinary ].
