(* Checksums as the standards define them: bit by bit. *)
From Coq Require Import ZArith List Bool.
Import ListNotations.
Open Scope Z_scope.

(* the bits of a byte, least significant first (reflected CRCs) *)
Definition byte_bits (x : Z) : list bool := map (fun i => Z.testbit x (Z.of_nat i)) (seq 0 8).
Definition bits_of (bs : list Z) : list bool := flat_map byte_bits bs.

(* shift register with reflected polynomial [p]: one message bit *)
Definition crc_bit (p r : Z) (bit : bool) : Z :=
  if xorb (Z.odd r) bit then Z.lxor (r / 2) p else r / 2.
Definition crc_reg (p init : Z) (bits : list bool) : Z := fold_left (crc_bit p) bits init.

(* CRC-16/MODBUS: poly 0x8005 reflected, init 0xFFFF, no final xor.  CRC-32/ISO-HDLC: poly 0x04C11DB7 reflected, init and xorout 0xFFFFFFFF *)
Definition poly16 : Z := 40961.        (* 0xA001 *)
Definition poly32 : Z := 3988292384.   (* 0xEDB88320 *)
Definition crc16_spec (bs : list Z) : Z := crc_reg poly16 65535 (bits_of bs).
Definition crc32_spec (bs : list Z) : Z := Z.lxor (crc_reg poly32 4294967295 (bits_of bs)) 4294967295.

(* byte sum *)
Definition sum_bytes (bs : list Z) : Z := fold_right Z.add 0 bs.
(* the C code quoted in the comments: char buf[]; unsigned int cks; cks += (unsigned int)buf[i]; cks % 256.
   [sgn] = char is signed *)
Definition c_char (sgn : bool) (x : Z) : Z := if sgn && (128 <=? x) then x - 256 else x.
Fixpoint c_sum (sgn : bool) (bs : list Z) (cks : Z) : Z :=
  match bs with
  | [] => cks mod 256
  | x :: r => c_sum sgn r ((cks + c_char sgn x mod 2 ^ 32) mod 2 ^ 32)
  end.

Definition parity (bits : list bool) : bool := fold_left xorb bits false.
(* the low [n] bits of a number *)
Definition low_bits (n : nat) (z : Z) : list bool := map (fun i => Z.testbit z (Z.of_nat i)) (seq 0 n).
