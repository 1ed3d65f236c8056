(* Specification vocabulary: base-256 digits and UTF-8, by plain arithmetic. *)
From Coq Require Import ZArith List Bool.
From Verif.Model Require Import JavaPrim.
Import ListNotations.
Open Scope Z_scope.

(* the n base-256 digits of z, least significant first; for negative z this is two's complement *)
Fixpoint digits (n : nat) (z : Z) : list Z :=
  match n with
  | O => []
  | S n' => z mod 256 :: digits n' (z / 256)
  end.
(* an n-byte number in byte order o *)
Definition number (o : endian) (n : nat) (z : Z) : list Z :=
  match o with LE => digits n z | BE => rev (digits n z) end.

(* largest value of a signed n-byte length prefix *)
Definition max_prefix (n : nat) : Z := 2 ^ (8 * Z.of_nat n - 1) - 1.

(* Unicode scalar values of a UTF-16 string; an unpaired surrogate counts as '?' (U+003F) *)
Definition hi_sur (c : Z) : bool := (55296 <=? c) && (c <=? 56319).
Definition lo_sur (c : Z) : bool := (56320 <=? c) && (c <=? 57343).
Fixpoint scalars (s : list Z) : list Z :=
  match s with
  | [] => []
  | c :: r =>
      if hi_sur c then
        match r with
        | l :: r' => if lo_sur l then (65536 + (c - 55296) * 1024 + (l - 56320)) :: scalars r' else 63 :: scalars r
        | [] => [63]
        end
      else if lo_sur c then 63 :: scalars r
      else c :: scalars r
  end.
(* the code units of a scalar *)
Definition units (c : Z) : list Z := if c <? 65536 then [c] else [55296 + (c - 65536) / 1024; 56320 + (c - 65536) mod 1024].
(* RFC 3629 *)
Definition utf8_scalar (c : Z) : list Z :=
  if c <? 128 then [c]
  else if c <? 2048 then [192 + c / 64; 128 + c mod 64]
  else if c <? 65536 then [224 + c / 4096; 128 + (c / 64) mod 64; 128 + c mod 64]
  else [240 + c / 262144; 128 + (c / 4096) mod 64; 128 + (c / 64) mod 64; 128 + c mod 64].
Definition utf8 (s : list Z) : list Z := flat_map utf8_scalar (scalars s).

(* valid UTF-16: every surrogate is part of a pair *)
Fixpoint valid16 (s : list Z) : bool :=
  match s with
  | [] => true
  | c :: r =>
      (0 <=? c) && (c <=? 65535) &&
      (if hi_sur c then match r with l :: r' => lo_sur l && valid16 r' | [] => false end
       else negb (lo_sur c) && valid16 r)
  end.

Definition ascii (s : list Z) : bool := forallb (fun c => (0 <=? c) && (c <=? 127)) s.

(* a string in a fixed-width field: truncated to len bytes, filled up with the pad byte on one side.
   What the code does with an empty (or null) string and left padding, namely writing nothing at all, is
   written down here as it is; C47 is about it. *)
Definition fixed (len : nat) (pad : Z) (left_side : bool) (s : list Z) : list Z :=
  let t := firstn len (utf8 s) in
  let p := repeat (pad mod 256) (len - length t) in
  if left_side then match s with [] => [] | _ => p ++ t end else t ++ p.

(* removing the longest run of ch at one side *)
Fixpoint drop_run (ch : Z) (s : list Z) : list Z :=
  match s with
  | [] => []
  | c :: r => if c =? ch then drop_run ch r else s
  end.
Definition strip (ch : Z) (left_side : bool) (s : list Z) : list Z :=
  if left_side then drop_run ch s else rev (drop_run ch (rev s)).

(* the chars of a string reference; null counts as empty *)
Definition text_of (v : option (list Z)) : list Z := match v with Some s => s | None => [] end.
