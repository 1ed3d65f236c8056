(* Java primitive integers.

   A Java byte/short/int/long is a [Z] in the signed range of its width; every place where Java
   truncates is an explicit [wrap].  A byte in a buffer is a [Z] in 0..255 (its unsigned value).
   A char is a [Z] in 0..65535. *)
From Coq Require Import ZArith List Bool.
Import ListNotations.
Open Scope Z_scope.

(* JLS 5.1.3 narrowing to a signed [n]-bit integer: (byte), (short), (int) casts and overflow of arithmetic *)
Definition wrap (n : Z) (z : Z) : Z := (z + 2 ^ (n - 1)) mod 2 ^ n - 2 ^ (n - 1).

(* value range of a signed [n]-bit integer *)
Definition in_signed (n : Z) (z : Z) : bool := (- 2 ^ (n - 1) <=? z) && (z <? 2 ^ (n - 1)).

(* JLS 15.19: int shifts use the low five bits of the distance, long shifts the low six *)
Definition ishl (x s : Z) : Z := wrap 32 (Z.shiftl x (Z.land s 31)).
Definition ishr (x s : Z) : Z := Z.shiftr x (Z.land s 31).
Definition iushr (x s : Z) : Z := wrap 32 (Z.shiftr (x mod 2 ^ 32) (Z.land s 31)).
Definition lshl (x s : Z) : Z := wrap 64 (Z.shiftl x (Z.land s 63)).
Definition lshr (x s : Z) : Z := Z.shiftr x (Z.land s 63).
Definition lushr (x s : Z) : Z := wrap 64 (Z.shiftr (x mod 2 ^ 64) (Z.land s 63)).

(* a Java int literal written in hexadecimal, e.g. 0xEDB88320 *)
Definition hex32 (z : Z) : Z := wrap 32 z.

Inductive endian := BE | LE.

(* netty HeapByteBufUtil.setShort/setInt/setLong[LE]: byte k (counted from the low end) is (byte)(value >>> 8k) *)
Definition byte_at (z : Z) (k : nat) : Z := Z.land (Z.shiftr z (8 * Z.of_nat k)) 255.

Definition put_int (o : endian) (n : nat) (z : Z) : list Z :=
  match o with
  | LE => map (byte_at z) (seq 0 n)
  | BE => map (byte_at z) (rev (seq 0 n))
  end.

(* netty HeapByteBufUtil.getShort/getInt/getLong[LE]: or-ing of shifted unsigned bytes, result narrowed to the type *)
Fixpoint or_bytes (bs : list Z) : Z :=       (* low byte first *)
  match bs with
  | [] => 0
  | b :: r => Z.lor b (Z.shiftl (or_bytes r) 8)
  end.

Definition get_int (o : endian) (bs : list Z) : Z :=
  wrap (8 * Z.of_nat (length bs)) (or_bytes (match o with LE => bs | BE => rev bs end)).

(* the same bytes as an unsigned bit pattern (Float.intBitsToFloat / Double.longBitsToDouble) *)
Definition get_bits (o : endian) (bs : list Z) : Z :=
  or_bytes (match o with LE => bs | BE => rev bs end).

Definition is_byte (b : Z) : bool := (0 <=? b) && (b <? 256).
