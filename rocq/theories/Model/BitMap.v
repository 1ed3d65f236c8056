(* codec/src/main/java/com/finproto/bitmap: the four bitmaps.  A map is the value of its field [bits]. *)
From Coq Require Import ZArith List Bool.
From Verif.Model Require Import JavaPrim ByteBuf.
Import ListNotations.
Open Scope Z_scope.

(* Compound assignment "bits |= e" narrows the result to the type of bits (JLS 15.26.2). *)

(* ByteBitMap.java:9-23 set, clear, get; 26-28 write; 31-33 read; 36-38 bitCount *)
Definition byte_set (bits pos : Z) : Z := wrap 8 (Z.lor bits (ishl 1 (7 - pos))).
Definition byte_clear (bits pos : Z) : Z := wrap 8 (Z.land bits (Z.lnot (ishl 1 (7 - pos)))).
Definition byte_get (bits pos : Z) : bool := negb (Z.land bits (ishl 1 (7 - pos)) =? 0).
Definition byte_count : Z := 8.
Definition byte_write (bits : Z) (b : bytebuf) : option exn * bytebuf := write_int BE 1 bits b.
Definition byte_read (bits : Z) (b : bytebuf) : option exn * Z * bytebuf :=
  match read_bytes 1 b with
  | (inr bs, b') => (None, get_int BE bs, b')
  | (inl e, b') => (Some e, bits, b')
  end.

(* ShortBitMap.java:9-23 set, clear, get; 26-32 write; 35-39 read; 42-44 bitCount *)
Definition short_set (bits pos : Z) : Z := wrap 16 (Z.lor bits (ishl 1 (15 - pos))).
Definition short_clear (bits pos : Z) : Z := wrap 16 (Z.land bits (Z.lnot (ishl 1 (15 - pos)))).
Definition short_get (bits pos : Z) : bool := negb (Z.land bits (ishl 1 (15 - pos)) =? 0).
Definition short_count : Z := 16.
Definition short_write (bits : Z) (b : bytebuf) : option exn * bytebuf :=
  let high := wrap 8 (Z.land (ishr bits 8) 255) in
  let low := wrap 8 (Z.land bits 255) in
  let high := wrap 8 (Z.lor high 128) in
  match write_int BE 1 high b with
  | (None, b') => write_int BE 1 low b'
  | r => r
  end.
Definition short_read (bits : Z) (b : bytebuf) : option exn * Z * bytebuf :=
  match read_bytes 1 b with
  | (inl e, b') => (Some e, bits, b')
  | (inr x1, b') =>
      match read_bytes 1 b' with
      | (inl e, b'') => (Some e, bits, b'')
      | (inr x2, b'') =>
          let b1 := get_int BE x1 in let b2 := get_int BE x2 in
          (None, wrap 16 (Z.lor (ishl (Z.land b1 127) 8) (Z.land b2 127)), b'')
      end
  end.

(* IntBitMap.java:9-23 set, clear (sic: |=), get; 48-50 bitCount *)
Definition int_set (bits pos : Z) : Z := wrap 32 (Z.lor bits (ishl 1 (31 - pos))).
Definition int_clear (bits pos : Z) : Z := wrap 32 (Z.lor bits (ishl 1 (31 - pos))).
Definition int_get (bits pos : Z) : bool := negb (Z.land bits (ishl 1 (31 - pos)) =? 0).
Definition int_count : Z := 32.

(* LongBitMap.java:9-23 set, clear (sic: |=), get; 49-51 bitCount *)
Definition long_set (bits pos : Z) : Z := wrap 64 (Z.lor bits (lshl 1 (63 - pos))).
Definition long_clear (bits pos : Z) : Z := wrap 64 (Z.lor bits (lshl 1 (63 - pos))).
Definition long_get (bits pos : Z) : bool := negb (Z.land bits (lshl 1 (63 - pos)) =? 0).
Definition long_count : Z := 64.

(* the write loops: for (i = 0; i < n; i++) writeByte(group i) *)
Fixpoint write_groups (gs : list Z) (b : bytebuf) : option exn * bytebuf :=
  match gs with
  | [] => (None, b)
  | g :: r => match write_int BE 1 g b with
              | (None, b') => write_groups r b'
              | x => x
              end
  end.
(* IntBitMap.java:26-32 write *)
Definition int_group (bits i : Z) : Z :=
  let g := wrap 8 (Z.land (ishr bits (24 - i * 7)) 127) in
  if i <? 3 then wrap 8 (Z.lor g 128) else g.
Definition int_write (bits : Z) (b : bytebuf) : option exn * bytebuf :=
  write_groups (map (int_group bits) [0; 1; 2; 3]) b.
(* LongBitMap.java:26-33 write *)
Definition long_group (bits i : Z) : Z :=
  let g := wrap 8 (Z.land (lshr bits (49 - i * 7)) 127) in
  if i <? 7 then wrap 8 (Z.lor g 128) else g.
Definition long_write (bits : Z) (b : bytebuf) : option exn * bytebuf :=
  write_groups (map (long_group bits) [0; 1; 2; 3; 4; 5; 6; 7]) b.

(* IntBitMap.java:35-45, LongBitMap.java:36-46 read: bits = 0; do { ... } while (cont).  Each iteration consumes a
   byte or throws, so [fuel] = readable bytes + 1 iterations are enough (proved: the fuel never runs out).
   shift is an int; it can only overflow after 2^31/7 bytes, which a buffer may hold, so the wrap is kept. *)
Fixpoint read_loop (shl : Z -> Z -> Z) (w : Z) (fuel : nat) (bits shift : Z) (b : bytebuf) : option exn * Z * bytebuf :=
  match fuel with
  | O => (Some SOE, bits, b)
  | S k =>
      match read_bytes 1 b with
      | (inl e, b') => (Some e, bits, b')
      | (inr x, b') =>
          let v := get_int BE x in
          let bits' := wrap w (Z.lor bits (shl (Z.land v 127) shift)) in
          if negb (Z.land v 128 =? 0) then read_loop shl w k bits' (wrap 32 (shift + 7)) b'
          else (None, bits', b')
      end
  end.
Definition int_read (bits : Z) (b : bytebuf) : option exn * Z * bytebuf :=
  read_loop ishl 32 (S (length (readable b))) 0 0 b.
Definition long_read (bits : Z) (b : bytebuf) : option exn * Z * bytebuf :=
  read_loop lshl 64 (S (length (readable b))) 0 0 b.
