(* java.lang.String <-> UTF-8, as used through String.getBytes(StandardCharsets.UTF_8)
   (BinaryCodec.java:21 and every dynamic string) and ByteBuf.readCharSequence(len, UTF_8)
   (BinaryCodec.java:63 and every dynamic string).

   Not code of /repo: JDK 11 java.lang.StringCoding (encodeUTF8_UTF16, decodeUTF8_0 with REPLACE).
   A string is its list of UTF-16 code units (0..65535); bytes are 0..255. *)
From Coq Require Import ZArith List Bool.
Import ListNotations.
Open Scope Z_scope.

Definition is_unit (c : Z) : bool := (0 <=? c) && (c <? 65536).
Definition is_high (c : Z) : bool := (55296 <=? c) && (c <? 56320).    (* D800..DBFF *)
Definition is_low  (c : Z) : bool := (56320 <=? c) && (c <? 57344).    (* DC00..DFFF *)
Definition is_surrogate (c : Z) : bool := is_high c || is_low c.

(* Character.toCodePoint / highSurrogate / lowSurrogate *)
Definition to_cp (h l : Z) : Z := Z.shiftl (h - 55296) 10 + (l - 56320) + 65536.
Definition high_of (cp : Z) : Z := Z.shiftr (cp - 65536) 10 + 55296.
Definition low_of (cp : Z) : Z := Z.land cp 1023 + 56320.

Definition enc1 (c : Z) : list Z :=
  if c <? 128 then [c]
  else if c <? 2048 then [Z.lor 192 (Z.shiftr c 6); Z.lor 128 (Z.land c 63)]
  else [Z.lor 224 (Z.shiftr c 12); Z.lor 128 (Z.land (Z.shiftr c 6) 63); Z.lor 128 (Z.land c 63)].
Definition enc2 (cp : Z) : list Z :=
  [Z.lor 240 (Z.shiftr cp 18); Z.lor 128 (Z.land (Z.shiftr cp 12) 63);
   Z.lor 128 (Z.land (Z.shiftr cp 6) 63); Z.lor 128 (Z.land cp 63)].

(* StringCoding.encodeUTF8_UTF16(val, doReplace = true): an unpaired surrogate becomes '?' (63) *)
Fixpoint utf8_encode (s : list Z) : list Z :=
  match s with
  | [] => []
  | c :: r =>
      if is_high c then
        match r with
        | l :: r' => if is_low l then enc2 (to_cp c l) ++ utf8_encode r' else 63 :: utf8_encode r
        | [] => [63]
        end
      else if is_low c then 63 :: utf8_encode r
      else enc1 c ++ utf8_encode r
  end.

Definition REPL : Z := 65533.                                        (* U+FFFD *)
Definition is_cont (b : Z) : bool := Z.land b 192 =? 128.            (* !isNotContinuation *)

(* isMalformed3(b1,b2,b3), isMalformed3_2(b1,b2), isMalformed4(b2,b3,b4), isMalformed4_2(b1,b2), malformedN *)
Definition malformed3_2 (b1 b2 : Z) : bool :=
  ((b1 =? 224) && (Z.land b2 224 =? 128)) || negb (is_cont b2).
Definition malformed3 (b1 b2 b3 : Z) : bool := malformed3_2 b1 b2 || negb (is_cont b3).
Definition malformed4_2 (b1 b2 : Z) : bool :=
  ((b1 =? 240) && ((b2 <? 144) || (191 <? b2)))
  || ((b1 =? 244) && negb (Z.land b2 240 =? 128)) || negb (is_cont b2).
Definition malformed4 (b2 b3 b4 : Z) : bool := negb (is_cont b2) || negb (is_cont b3) || negb (is_cont b4).

Definition cp2 (b1 b2 : Z) : Z := Z.lor (Z.shiftl (Z.land b1 31) 6) (Z.land b2 63).
Definition cp3 (b1 b2 b3 : Z) : Z :=
  Z.lor (Z.shiftl (Z.land b1 15) 12) (Z.lor (Z.shiftl (Z.land b2 63) 6) (Z.land b3 63)).
Definition cp4 (b1 b2 b3 b4 : Z) : Z :=
  Z.lor (Z.shiftl (Z.land b1 7) 18)
    (Z.lor (Z.shiftl (Z.land b2 63) 12) (Z.lor (Z.shiftl (Z.land b3 63) 6) (Z.land b4 63))).
Definition is_supplementary (cp : Z) : bool := (65536 <=? cp) && (cp <? 1114112).

(* StringCoding.decodeUTF8_0 / decodeUTF8_UTF16, doReplace = true.  Lead byte classes:
     b1 >= 0           (0..127)    ASCII
     (b1 >> 5) == -2 && (b1 & 0x1e) != 0   (C2..DF) two bytes
     (b1 >> 4) == -2   (E0..EF)    three bytes
     (b1 >> 3) == -2   (F0..F7)    four bytes
     anything else     one REPL
   The Java loop is over an index; here it is over the remaining bytes. *)
Fixpoint utf8_decode (bs : list Z) : list Z :=
  match bs with
  | [] => []
  | b1 :: r =>
      if b1 <? 128 then b1 :: utf8_decode r
      else if (194 <=? b1) && (b1 <? 224) then
        match r with
        | b2 :: r2 => if is_cont b2 then cp2 b1 b2 :: utf8_decode r2
                      else REPL :: utf8_decode r                        (* malformedN = 1 *)
        | [] => [REPL]
        end
      else if (224 <=? b1) && (b1 <? 240) then
        match r with
        | b2 :: ((b3 :: r3) as r2) =>
            if malformed3 b1 b2 b3 then
              if malformed3_2 b1 b2 then REPL :: utf8_decode r          (* malformedN = 1 *)
              else REPL :: utf8_decode r2                               (* malformedN = 2 *)
            else let c := cp3 b1 b2 b3 in
                 (if is_surrogate c then REPL else c) :: utf8_decode r3
        | [b2] => if malformed3_2 b1 b2 then REPL :: utf8_decode r else [REPL]
        | [] => [REPL]
        end
      else if (240 <=? b1) && (b1 <? 248) then
        match r with
        | b2 :: ((b3 :: ((b4 :: r4) as r3)) as r2) =>
            let cp := cp4 b1 b2 b3 b4 in
            if malformed4 b2 b3 b4 || negb (is_supplementary cp) then
              if (244 <? b1) || malformed4_2 b1 b2 then REPL :: utf8_decode r    (* malformedN = 1 *)
              else if negb (is_cont b3) then REPL :: utf8_decode r2              (* malformedN = 2 *)
              else REPL :: utf8_decode r3                                        (* malformedN = 3 *)
            else high_of cp :: low_of cp :: utf8_decode r4
        | b2 :: ((b3 :: nil) as r2) =>
            if (244 <? b1) || malformed4_2 b1 b2 then REPL :: utf8_decode r
            else if negb (is_cont b3) then REPL :: utf8_decode r2 else [REPL]
        | [b2] => if (244 <? b1) || malformed4_2 b1 b2 then REPL :: utf8_decode r else [REPL]
        | [] => if 244 <? b1 then REPL :: utf8_decode r else [REPL]
        end
      else REPL :: utf8_decode r
  end.
