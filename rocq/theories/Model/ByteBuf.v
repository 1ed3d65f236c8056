(* io.netty.buffer.ByteBuf (netty 4.1.100.Final), as far as the library uses it.

   Not code of /repo: this is the contract of the dependency, read from its documentation and source
   (AbstractByteBuf).  Every method used in /repo is covered: writeByte/Short/Int/Long[LE], writeFloatLE,
   writeDoubleLE, writeBytes, setInt[LE], readX, readCharSequence, getUnsignedByte, readerIndex, writerIndex,
   readableBytes.

   Simplifications: the buffer is not shared, not released, not read-only; indices are [nat] (netty keeps
   them below maxCapacity, an int, see [buf_wf]). *)
From Coq Require Import ZArith List Bool.
From Verif.Model Require Import JavaPrim.
Import ListNotations.
Open Scope Z_scope.

(* exceptions the library can run into.
   IOOBE IndexOutOfBoundsException and subclasses; IAE IllegalArgumentException; NPE NullPointerException;
   SOE StackOverflowError; TYPE an operation on a value javac would have rejected (never happens to typed
   objects: C31) *)
Inductive exn := IOOBE | IAE | NPE | SOE | TYPE.

(* how a buffer grows: [extra n] spare bytes beyond the [n] needed, [fill i] the garbage found at index [i] *)
Record alloc := { extra : nat -> nat; fill : nat -> Z }.

Record bytebuf := {
  arr : list Z;         (* the whole backing array, capacity() = length arr *)
  ridx : nat;           (* readerIndex *)
  widx : nat;           (* writerIndex *)
  maxcap : Z;           (* maxCapacity *)
  cs_slack : bool;      (* true: readCharSequence may run into the spare capacity behind writerIndex, as 4.1.100 does;
                           false: it is checked against writerIndex *)
  policy : alloc
}.

Definition capacity (b : bytebuf) : nat := length (arr b).
Definition content (b : bytebuf) : list Z := firstn (widx b) (arr b).      (* bytes 0 .. writerIndex-1 *)
Definition readable (b : bytebuf) : list Z := skipn (ridx b) (content b).  (* readableBytes() = its length *)

Definition buf_wf (b : bytebuf) : bool :=
  forallb is_byte (arr b) && Nat.leb (ridx b) (widx b) && Nat.leb (widx b) (length (arr b))
  && (Z.of_nat (length (arr b)) <=? maxcap b) && (maxcap b <? 2 ^ 31).

(* AbstractByteBuf.ensureWritable0(n) when it succeeds: capacity is grown, never beyond maxCapacity *)
Definition grown (b : bytebuf) (n : nat) : list Z :=
  let need := (widx b + n)%nat in
  if Nat.leb need (length (arr b)) then arr b
  else
    let target := Z.to_nat (Z.min (maxcap b) (Z.of_nat (need + extra (policy b) need))) in
    arr b ++ map (fun i => fill (policy b) i mod 256) (seq (length (arr b)) (target - length (arr b))).

(* array [a] with [bs] stored from index [i] *)
Definition splice (a : list Z) (i : nat) (bs : list Z) : list Z :=
  firstn i a ++ bs ++ skipn (i + length bs) a.

Definition set_arr (b : bytebuf) (a : list Z) : bytebuf :=
  {| arr := a; ridx := ridx b; widx := widx b; maxcap := maxcap b; cs_slack := cs_slack b; policy := policy b |}.
Definition set_widx (b : bytebuf) (i : nat) : bytebuf :=
  {| arr := arr b; ridx := ridx b; widx := i; maxcap := maxcap b; cs_slack := cs_slack b; policy := policy b |}.
Definition set_ridx (b : bytebuf) (i : nat) : bytebuf :=
  {| arr := arr b; ridx := i; widx := widx b; maxcap := maxcap b; cs_slack := cs_slack b; policy := policy b |}.

(* AbstractByteBuf.writeBytes(byte[],..): ensureWritable (IndexOutOfBounds beyond maxCapacity, nothing written), store, advance *)
Definition write_bytes (bs : list Z) (b : bytebuf) : option exn * bytebuf :=
  if Z.of_nat (widx b + length bs) <=? maxcap b then
    (None, set_widx (set_arr b (splice (grown b (length bs)) (widx b) bs)) (widx b + length bs))
  else (Some IOOBE, b).

(* writeByte / writeShort[LE] / writeInt[LE] / writeLong[LE] (n = 1,2,4,8): low n bytes of the value *)
Definition write_int (o : endian) (n : nat) (z : Z) (b : bytebuf) : option exn * bytebuf :=
  write_bytes (put_int o n z) b.

(* setInt[LE](index, value): checked against capacity, does not move an index *)
Definition set_int (o : endian) (n : nat) (i : nat) (z : Z) (b : bytebuf) : option exn * bytebuf :=
  if Nat.leb (i + n) (length (arr b)) then (None, set_arr b (splice (arr b) i (put_int o n z)))
  else (Some IOOBE, b).

(* bytes [i, i+n) of an array *)
Definition slice (a : list Z) (i n : nat) : list Z := firstn n (skipn i a).

(* checkReadableBytes(n); the n bytes at readerIndex; readerIndex += n.  n is 1, 2, 4 or 8 *)
Definition read_bytes (n : nat) (b : bytebuf) : (exn + list Z) * bytebuf :=
  if Nat.leb (ridx b + n) (widx b) then (inr (slice (arr b) (ridx b) n), set_ridx b (ridx b + n))
  else (inl IOOBE, b).

(* readCharSequence(len, UTF_8) up to charset decoding: the raw bytes it decodes.
   AbstractByteBuf.readCharSequence -> getCharSequence -> toString -> ByteBufUtil.decodeString:
   len = 0 returns "" without any check; otherwise the only check is that of the array access *)
Definition cs_limit (b : bytebuf) : nat := if cs_slack b then length (arr b) else widx b.
Definition read_chars (len : Z) (b : bytebuf) : (exn + list Z) * bytebuf :=
  if len =? 0 then (inr [], b)
  else if (len <? 0) || (Z.of_nat (cs_limit b) <? Z.of_nat (ridx b) + len) then (inl IOOBE, b)
  else (inr (slice (arr b) (ridx b) (Z.to_nat len)), set_ridx b (ridx b + Z.to_nat len)).
