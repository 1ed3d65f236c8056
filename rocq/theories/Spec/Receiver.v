(* A program that receives a frame and checks it, on the Java text. *)
From Coq Require Import ZArith List Bool String.
From Verif.Model Require Import JavaPrim ByteBuf Checksum Ast Interp Show Heap.
From Verif.Spec Require Import Bytes Crc JavaState JavaRun.
From Verif.Java Require Import Syntax Sem.
Import ListNotations.
Open Scope Z_scope.

Definition with_buffer (b : bytebuf) (s : st) : st := {| s_h := s_h s; s_b := b; s_loc := s_loc s; s_stat := s_stat s |}.

(* C o = new C(); o.decode(buf); if (buf.isReadable()) return false; return service.verify(front, o.getChecksum());
   buf has the bytes that arrived, front all of them but the last four; the result is the answer and where o is *)
Definition receive_checked (pr : printers) (k d : nat) (c service : string) (buf front : bytebuf) (s : st) : res (bool * nat) :=
  do o s1 <- create_new c (with_buffer buf s);
  match o with
  | JT _ (HRef l) =>
      do x s2 <- invoke pr k d l "decode" [JBuf] s1;
      if (widx (s_b s2) <=? ridx (s_b s2))%nat then
        do z s3 <- invoke pr k d l "getChecksum" [] s2;
        do r s4 <- invoke_on pr k d service "verify" [JBuf; z] (with_buffer front s3);
        match r with JB a => Ret (a, l) s4 | _ => Bad end
      else Ret (false, l) s2
  | _ => Bad
  end.

(* the frames with a checksum at their end: byte order, algorithm asked for, the service of the library for it *)
Definition checked_frames : list (string * endian * string * string * service) :=
  [ ("sample.RootPacket", LE, CRC32, "Crc32ChecksumService", crc32_service);
    ("sse.SseBinary", BE, SSE_BIN, "SseBinChecksumService", sse_service);
    ("szse.SzseBinary", BE, SZSE_BIN, "SzseBinChecksumService", szse_service) ]%string.
(* what the service computes *)
Definition check_value (sv : string) (bs : list Z) : Z := if String.eqb sv "Crc32ChecksumService" then crc32_spec bs else sum_bytes bs mod 256.

(* Alterations that the checksum is made to notice (bits of a byte: low bit first, the order in which the CRCs take them).
   CRC32: a burst of at most 32 bits, or two single bits (wherever they are in messages of less than 2^29 bytes); the sums: one byte *)
Definition in_burst (n : nat) (bs bs' : list Z) : Prop :=
  exists x w w' y, bits_of bs = x ++ w ++ y /\ bits_of bs' = x ++ w' ++ y /\ w <> w' /\ List.length w = List.length w' /\ (List.length w <= n)%nat.
Definition two_flipped (bs bs' : list Z) : Prop :=
  exists x a m c y, bits_of bs = x ++ a :: m ++ c :: y /\ bits_of bs' = x ++ negb a :: m ++ negb c :: y /\ Z.of_nat (List.length m) < 2 ^ 32 - 2.
Definition one_byte (bs bs' : list Z) : Prop := exists x c c' y, bs = x ++ c :: y /\ bs' = x ++ c' :: y /\ c <> c'.
Definition altered (sv : string) (bs bs' : list Z) : Prop :=
  if String.eqb sv "Crc32ChecksumService" then in_burst 32 bs bs' \/ two_flipped bs bs' else one_byte bs bs'.
