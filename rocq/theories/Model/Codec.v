(* codec/src/main/java/com/finproto/codec/BinaryCodec.java: the default methods of the interface. *)
From Coq Require Import ZArith List Bool.
From Verif.Model Require Import JavaPrim ByteBuf Utf8.
Import ListNotations.
Open Scope Z_scope.

(* a Java String reference: None is null *)
Definition jstring := option (list Z).

(* io.netty.util.internal.StringUtil.isNullOrEmpty *)
Definition is_null_or_empty (s : jstring) : bool :=
  match s with None => true | Some [] => true | Some _ => false end.

(* writeBytes(byte[] bytes, int 0, int length): a negative length is rejected by ensureWritable with
   IllegalArgumentException; length <= bytes.length always holds at the call site *)
Definition write_prefix (bytes : list Z) (len : Z) (b : bytebuf) : option exn * bytebuf :=
  if len <? 0 then (Some IAE, b) else write_bytes (firstn (Z.to_nat len) bytes) b.

(* BinaryCodec.java:33-38  padChar(byteBuf, len, padChar): while (len > 0) { writeByte(padChar); len--; }
   [n] = max(len, 0) iterations; writeByte(char) keeps the low eight bits *)
Fixpoint pad_loop (n : nat) (ch : Z) (b : bytebuf) : option exn * bytebuf :=
  match n with
  | O => (None, b)
  | S n' => match write_int BE 1 ch b with
            | (None, b') => pad_loop n' ch b'
            | r => r
            end
  end.
Definition pad_char (len : Z) (ch : Z) (b : bytebuf) : option exn * bytebuf := pad_loop (Z.to_nat len) ch b.

(* BinaryCodec.java:17-31  writeFixedString(byteBuf, value, len, padChar, padLeft) *)
Definition write_fixed (value : jstring) (len : Z) (ch : Z) (padLeft : bool) (b : bytebuf) : option exn * bytebuf :=
  let '(e, writed, b1) :=
    match value with
    | Some ((_ :: _) as s) =>
        let bytes := utf8_encode s in
        let writed := Z.min (Z.of_nat (length bytes)) len in
        let '(e0, b0) := if padLeft && (writed <? len) then pad_char (len - writed) ch b else (None, b) in
        match e0 with
        | Some _ => (e0, writed, b0)
        | None => let '(e1, b1) := write_prefix bytes writed b0 in (e1, writed, b1)
        end
    | _ => (None, 0, b)
    end in
  match e with
  | Some _ => (e, b1)
  | None => if negb padLeft && (writed <? len) then pad_char (len - writed) ch b1 else (None, b1)
  end.

(* BinaryCodec.java:13-15 *)
Definition write_fixed_default (value : jstring) (len : Z) (b : bytebuf) := write_fixed value len 32 false b.

(* BinaryCodec.java:40-56  trimByChar.  [fuel] = s.length() bounds the iterations of the first loop *)
Fixpoint start_loop (fuel : nat) (s : list Z) (ch : Z) (start : nat) : nat :=
  match fuel with
  | O => start
  | S k => if Nat.ltb start (length s) && (nth start s 0 =? ch) then start_loop k s ch (S start) else start
  end.
Fixpoint end_loop (s : list Z) (ch : Z) (e : nat) : nat :=
  match e with
  | O => O
  | S k => if nth k s 0 =? ch then end_loop s ch k else S k
  end.
Definition substring (s : list Z) (i j : nat) : list Z := firstn (j - i) (skipn i s).
Definition trim_by_char (s : list Z) (ch : Z) (padLeft : bool) : list Z :=
  let len := length s in
  if padLeft then substring s (start_loop len s ch 0) len
  else substring s 0 (end_loop s ch len).

(* BinaryCodec.java:62-69  readFixedString(byteBuf, len, trimPadChar, padLeft) *)
Definition read_fixed (len : Z) (ch : Z) (padLeft : bool) (b : bytebuf) : (exn + list Z) * bytebuf :=
  match read_chars len b with
  | (inl e, b') => (inl e, b')
  | (inr bs, b') =>
      let value := utf8_decode bs in
      (inr (if padLeft then trim_by_char value ch true else trim_by_char value ch false), b')
  end.

(* BinaryCodec.java:58-60 *)
Definition read_fixed_default (len : Z) (b : bytebuf) := read_fixed len 32 false b.
