(* Concrete objects and buffers used by the examples beside the theorems. *)
From Coq Require Import ZArith List Bool String.
From Verif.Model Require Import JavaPrim ByteBuf Checksum Ast Interp Factory Library.
Import ListNotations.
Open Scope Z_scope.

(* new C() followed by setters *)
Definition build (c : string) (sets : list (string * val)) : val :=
  match new_obj lib_env c with
  | VObj c fs => VObj c (fold_left (fun fs s => set (fst s) (snd s) fs) sets fs)
  | v => v
  end.
Definition field (f : string) (v : val) : val := match v with VObj _ fs => get f fs | _ => VNull end.
Definition str (s : string) : val := VStr (chars s).

(* Unpooled.buffer(): empty, room to grow, spare capacity *)
Definition empty_buf : bytebuf :=
  {| arr := repeat 0 16; ridx := 0; widx := 0; maxcap := 4096; cs_slack := true;
     policy := {| extra := fun n => 3%nat; fill := fun i => Z.of_nat i |} |}.
(* a buffer with 3 bytes written, one of them read *)
Definition used_buf : bytebuf :=
  {| arr := [1; 2; 3; 9; 9; 9; 9; 9]; ridx := 1; widx := 3; maxcap := 4096; cs_slack := true;
     policy := {| extra := fun n => n; fill := fun _ => 7 |} |}.
(* Unpooled.wrappedBuffer(bytes) *)
Definition wrap_bytes (bs : list Z) : bytebuf :=
  {| arr := bs; ridx := 0; widx := List.length bs; maxcap := Z.of_nat (List.length bs); cs_slack := true;
     policy := {| extra := fun _ => O; fill := fun _ => 0 |} |}.

Definition s_strings : val := build "sample.StringPacket"
  [ ("fieldDynamicString", VStr [104; 233; 55357; 56832]); ("fieldFixedString1", str "x"); ("fieldFixedString10", str "12345");
    ("fieldFixedString10Pad", str "abc"); ("fieldFixedString10PadWithNullTerminator", str "zero");
    ("fieldDynamicStringList", VList [str "a"; str "bc"]); ("fieldFixedString10List", VList [str "p"; str "q r"]) ]%string.
Definition s_root : val := build "sample.RootPacket" [("msgType", VInt 2); ("payloadLen", VInt 777); ("payload", s_strings); ("checksum", VInt 5)]%string.
Definition s_sub n : val := build "sample.SubPacket" [("fieldU32", VInt n); ("fieldI16List", VList [VInt n; VInt (-1)])]%string.
Definition s_nested : val := build "sample.NestedPacket"
  [("subPacket", s_sub 1); ("subPacketList", VList [s_sub 2; s_sub 3]); ("inerPacket", build "sample.NestedPacket.InerPacket" [])]%string.
Definition s_root_nested : val := build "sample.RootPacket" [("msgType", VInt 3); ("payload", s_nested)]%string.
Definition s_logon : val := build "sse.Logon" [("senderCompId", str "S"); ("targetCompId", str "T"); ("heartBtInt", VInt 30); ("prtclVersion", str "1.0"); ("tradeDate", VInt 20250101)]%string.
Definition s_sse : val := build "sse.SseBinary" [("msgType", VInt 40); ("msgSeqNum", VInt 7); ("msgBodyLen", VInt (-1)); ("body", s_logon); ("checksum", VInt 99)]%string.
Definition s_bjse : val := build "bjse.BjseBinary" [("msgType", VInt 3); ("bodyLength", VInt 12345); ("body", build "bjse.Heartbeat" [])]%string.
Definition s_risk : val := build "risk.RcBinary" [("msgType", VInt 800001); ("version", VInt 1); ("body", build "risk.RiskResult" [("uniqueOrderId", str "id"); ("riskReason", str "why")])]%string.
