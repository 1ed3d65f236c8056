(* JLS 3: from the bytes of a file to its tokens.  Covers what the files of /repo contain: white space, // and /* */ comments, identifiers
   and keywords, decimal and hexadecimal integer literals, character literals (one ASCII character, or \0), string literals without
   escapes, separators and operators.  Anything else makes [lex] fail.  The character > is always a token of its own, so that the closing
   brackets of nested type arguments are read as such; a shift is two or three of them (JLS 3.5 has the same exception). *)
From Coq Require Import List Bool ZArith String Ascii Init.Byte Strings.Byte.
From Verif.Java Require Import Text.
Import ListNotations.

Inductive token :=
| T (s : string)                               (* identifier, keyword, separator or operator *)
| TNum (hex long : bool) (z : Z)               (* 12, 0x7F, 1L *)
| TLit (s : string)                            (* "..." *)
| TChr (z : Z).                                (* 'c', '\0' *)

Inductive kind := KBlank | KLine | KDigit | KLetter | KQuote | KApos | KSym | KOther.
Definition kind_of (c : byte) : kind :=
  match c with
  | x20 | x09 | x0d => KBlank
  | x0a => KLine
  | x30 | x31 | x32 | x33 | x34 | x35 | x36 | x37 | x38 | x39 => KDigit
  | x61 | x62 | x63 | x64 | x65 | x66 | x67 | x68 | x69 | x6a | x6b | x6c | x6d | x6e | x6f | x70 | x71 | x72 | x73 | x74 | x75 | x76 | x77 | x78 | x79 | x7a
  | x41 | x42 | x43 | x44 | x45 | x46 | x47 | x48 | x49 | x4a | x4b | x4c | x4d | x4e | x4f | x50 | x51 | x52 | x53 | x54 | x55 | x56 | x57 | x58 | x59 | x5a | x5f => KLetter
  | x22 => KQuote
  | x27 => KApos
  | x28 | x29 | x7b | x7d | x5b | x5d | x3b | x2c | x2e | x40 | x3d | x3c | x3e | x21 | x7e | x3f | x3a | x2b | x2d | x2a | x2f | x26 | x7c | x5e | x25 => KSym
  | _ => KOther
  end.

Definition word_of (w : list byte) : string := fold_left (fun s c => String (ascii_of_byte c) s) w EmptyString.   (* [w]: last character first *)
Definition str1 (a : byte) : string := String (ascii_of_byte a) EmptyString.
Definition str2 (a b : byte) : string := String (ascii_of_byte a) (str1 b).

(* operators of two characters that occur *)
Definition pair (a b : byte) : bool :=
  match a, b with
  | x3d, x3d | x21, x3d | x3c, x3d | x3e, x3d | x2b, x3d | x2d, x3d | x26, x3d | x7c, x3d | x5e, x3d   (* == != <= >= += -= &= |= ^= *)
  | x26, x26 | x7c, x7c | x2b, x2b | x2d, x2d | x3a, x3a | x3c, x3c | x2d, x3e => true                 (* && || ++ -- :: << -> *)
  | _, _ => false
  end.

(* value of a hexadecimal digit *)
Definition digit (c : byte) : option Z :=
  let n := Z.of_N (Byte.to_N c) in
  (if (48 <=? n) && (n <=? 57) then Some (n - 48)
   else if (65 <=? n) && (n <=? 70) then Some (n - 55)
   else if (97 <=? n) && (n <=? 102) then Some (n - 87)
   else None)%Z.
Fixpoint digits (base : Z) (w : list byte) (a : Z) : option Z :=
  match w with
  | [] => Some a
  | c :: r => match digit c with Some d => if (d <? base)%Z then digits base r (a * base + d)%Z else None | None => None end
  end.
(* an identifier, a keyword or an integer literal *)
Definition word (w : list byte) : option token :=
  match rev w with
  | c :: r =>
      match kind_of c with
      | KDigit =>
          let long := match w with x4c :: _ => true | _ => false end in
          let ds := if long then rev (tl w) else rev w in
          match ds with
          | x30 :: x78 :: hs => match digits 16 hs 0 with Some z => Some (TNum true long z) | None => None end
          | _ => match digits 10 ds 0 with Some z => Some (TNum false long z) | None => None end
          end
      | _ => Some (T (word_of w))
      end
  | [] => None
  end.
Definition chr (w : list byte) : option token :=
  match w with
  | [x30; x5c] => Some (TChr 0)
  | [x5c] => None
  | [c] => Some (TChr (Z.of_N (Byte.to_N c)))
  | _ => None
  end.

(* the reader: what it is in the middle of *)
Inductive lst := L0 | LWord (w : list byte) | LSym (a : byte) | LStr (w : list byte) | LChr (w : list byte) | LLine | LBlock (star : bool).

Definition fresh (c : byte) (acc : list token) : option (lst * list token) :=
  match kind_of c with
  | KBlank | KLine => Some (L0, acc)
  | KDigit | KLetter => Some (LWord [c], acc)
  | KQuote => Some (LStr [], acc)
  | KApos => Some (LChr [], acc)
  | KSym => Some (LSym c, acc)
  | KOther => None
  end.
Definition step (st : lst) (c : byte) (acc : list token) : option (lst * list token) :=
  match st with
  | L0 => fresh c acc
  | LWord w =>
      match kind_of c with
      | KDigit | KLetter => Some (LWord (c :: w), acc)
      | _ => match word w with Some t => fresh c (t :: acc) | None => None end
      end
  | LSym a =>
      match a, c with
      | x2f, x2f => Some (LLine, acc)
      | x2f, x2a => Some (LBlock false, acc)
      | _, _ => if pair a c then Some (L0, T (str2 a c) :: acc) else fresh c (T (str1 a) :: acc)
      end
  | LStr w =>
      match c with
      | x22 => Some (L0, TLit (word_of w) :: acc)
      | x5c | x0a => None
      | _ => Some (LStr (c :: w), acc)
      end
  | LChr w =>
      match c with
      | x27 => match chr w with Some t => Some (L0, t :: acc) | None => None end
      | x0a => None
      | _ => Some (LChr (c :: w), acc)
      end
  | LLine => match c with x0a => Some (L0, acc) | _ => Some (LLine, acc) end
  | LBlock star =>
      match c with
      | x2f => if star then Some (L0, acc) else Some (LBlock false, acc)
      | x2a => Some (LBlock true, acc)
      | _ => Some (LBlock false, acc)
      end
  end.
Fixpoint lexer (st : lst) (acc : list token) (cs : list byte) : option (list token) :=
  match cs with
  | [] =>
      match st with
      | L0 | LLine => Some (rev acc)
      | LWord w => match word w with Some t => Some (rev (t :: acc)) | None => None end
      | LSym a => Some (rev (T (str1 a) :: acc))
      | _ => None
      end
  | c :: r => match step st c acc with Some (st', acc') => lexer st' acc' r | None => None end
  end.
Definition lex (t : text) : option (list token) := lexer L0 [] (bytes_of t).

Example lex_sample :
  lex "int x = (y >>> 8) ^ 0xFF; // c
s.f('\0', "" a"");"%text
  = Some [T "int"; T "x"; T "="; T "("; T "y"; T ">"; T ">"; T ">"; TNum false false 8; T ")"; T "^"; TNum true false 255; T ";";
          T "s"; T "."; T "f"; T "("; TChr 0; T ","; TLit " a"; T ")"; T ";"].
Proof. reflexivity. Qed.
