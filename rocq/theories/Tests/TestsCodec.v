(* The tests of the codec module of /repo, transcribed by hand (codec/src/test/java/com/finproto). *)
From Coq Require Import ZArith List Bool String Ascii.
From Verif.Model Require Import JavaPrim ByteBuf Utf8 Codec BitMap Checksum.
From Verif.Tests Require Import Script.
Import ListNotations.
Open Scope Z_scope.

Definition text (s : string) : list Z := map (fun c => Z.of_N (N_of_ascii c)) (list_ascii_of_string s).
(* String.trim(): chars up to U+0020 removed at both ends *)
Fixpoint drop_low (s : list Z) : list Z := match s with c :: r => if c <=? 32 then drop_low r else s | [] => [] end.
Definition jtrim (s : list Z) : list Z := rev (drop_low (rev (drop_low s))).
Definition both (P : bytebuf -> bool) : bool := P (fresh true) && P (fresh false).
Definition same (x y : list Z) : bool := if list_eq_dec Z.eq_dec x y then true else false.
Definition read_text (r : (exn + list Z) * bytebuf) : option (list Z * bytebuf) := match r with (inr s, b) => Some (s, b) | _ => None end.

(* BinaryCodecTest.java:27-81: value, length, bytes then in the buffer *)
Definition writes (v : jstring) (len : Z) (out : list Z) : bool :=
  both (fun b => match write_fixed_default v len b with (None, b') => same (readable b') out | _ => false end).
Example testWriteFixedString_NonNullValue : writes (Some (text "hello")) 8 (text "hello   ") = true. Proof. vm_compute. reflexivity. Qed.
Example testWriteFixedString_NullValue : writes None 5 (text "     ") = true. Proof. vm_compute. reflexivity. Qed.
Example testWriteFixedString_EmptyString : writes (Some []) 4 (text "    ") = true. Proof. vm_compute. reflexivity. Qed.
Example testWriteFixedString_StringLongerThanLength : writes (Some (text "this is too long")) 5 (text "this ") = true. Proof. vm_compute. reflexivity. Qed.

(* BinaryCodecTest.java:83-112 *)
Definition reads_back (bytes : list Z) (len : Z) (trim : bool) (out : list Z) : bool :=
  both (fun b => match write_bytes bytes b with
                 | (None, b1) => match read_text (read_fixed_default len b1) with
                                 | Some (s, b2) => same (if trim then jtrim s else s) out && same (readable b2) []
                                 | None => false
                                 end
                 | _ => false
                 end).
Example testReadFixedString : reads_back ([0] ++ text "hello" ++ [0; 0]) 8 true (text "hello") = true. Proof. vm_compute. reflexivity. Qed.
Example testReadFixedString_NonAscii : (* five hiragana *)
  let s := [12371; 12435; 12395; 12385; 12399] in
  reads_back (utf8_encode s) (Z.of_nat (List.length (utf8_encode s))) false s = true /\ List.length (utf8_encode s) = 15%nat.
Proof. vm_compute. split; reflexivity. Qed.

(* BinaryCodecTest.java:114-161: encode is writeFixedString(buf, "test", 10), decode is readFixedString(buf, 10) *)
Example testEncodeMethod : both (fun b => match write_fixed_default (Some (text "test")) 10 b with
  | (None, b1) => negb (same (readable b1) []) && match read_text (read_fixed_default 10 b1) with Some (s, _) => same (jtrim s) (text "test") | None => false end
  | _ => false end) = true.
Proof. vm_compute. reflexivity. Qed.
Example testDecodeMethod : both (fun b => match write_fixed_default (Some (text "decode_test")) 10 b with
  | (None, b1) => match read_text (read_fixed_default 10 (set_ridx b1 0)) with Some (_, b2) => same (readable b2) [] | None => false end
  | _ => false end) = true.
Proof. vm_compute. reflexivity. Qed.
Example testInterfaceContract : both (fun b => match write_fixed_default (Some (text "test")) 10 b with
  | (None, b1) => Nat.ltb (List.length (readable b)) (List.length (readable b1))
      && match read_text (read_fixed_default 10 b1) with Some (_, b2) => same (readable b2) [] | None => false end
  | _ => false end) = true.
Proof. vm_compute. reflexivity. Qed.

(* Crc16ChecksumServiceTest.java:11-17, Crc32ChecksumServiceTest.java:11-17; 0xCBF43926 is a negative int *)
Example testCalc_Crc16 : crc16_calc (wrapped (text "123456789")) = 19255. Proof. vm_compute. reflexivity. Qed.
Example testCalc_Crc32 : crc32_calc (wrapped (text "123456789")) = wrap 32 3421780262. Proof. vm_compute. reflexivity. Qed.

(* ByteBitMapTest.java *)
Definition poss : list Z := [0; 1; 2; 3; 4; 5; 6; 7].
Definition gets (m : Z) : list bool := map (byte_get m) poss.
Definition sets (l : list Z) : Z := fold_left byte_set l 0.
Example testSetAndGet : gets 0 = repeat false 8 /\ gets (sets [0; 3; 7]) = [true; false; false; true; false; false; false; true].
Proof. vm_compute. split; reflexivity. Qed.
Example testClear :
  let m := sets [0; 5] in
  byte_get m 0 = true /\ byte_get m 5 = true /\ byte_get (byte_clear m 0) 0 = false /\ byte_get (byte_clear m 0) 5 = true
  /\ byte_get (byte_clear (byte_clear m 0) 5) 5 = false.
Proof. vm_compute. repeat split. Qed.
Definition carries (m : Z) : bool :=
  both (fun b => match byte_write m b with
                 | (None, b1) => Nat.eqb (List.length (readable b1)) 1
                     && match byte_read 0 b1 with
                        | (None, m2, _) => forallb (fun p => Bool.eqb (byte_get m p) (byte_get m2 p)) poss
                        | _ => false
                        end
                 | _ => false
                 end).
Example testWriteAndRead : carries (sets [1; 4; 7]) = true. Proof. vm_compute. reflexivity. Qed.
Example testRoundTripAllBits :
  forallb (fun mask => carries (sets (filter (fun pos => Z.land (Z.shiftr (Z.of_nat mask) (7 - pos)) 1 =? 1) poss))) (seq 0 256) = true.
Proof. vm_compute. reflexivity. Qed.
Example testBitCount : byte_count = 8. Proof. reflexivity. Qed.
