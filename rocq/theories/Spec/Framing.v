(* Cutting a byte stream into frames by their length field. *)
From Coq Require Import ZArith List Bool.
From Verif.Model Require Import JavaPrim.
Import ListNotations.
Open Scope Z_scope.

(* the unsigned number some bytes denote *)
Fixpoint magnitude (bs : list Z) : Z := match bs with [] => 0 | b :: r => b + 256 * magnitude r end.    (* low byte first *)
Definition unsigned (o : endian) (bs : list Z) : Z := magnitude (match o with LE => bs | BE => rev bs end).

(* a frame: off bytes, a 4-byte length in byte order o, as many bytes as it says, [after] more bytes.
   None: not all of it is there *)
Definition next_frame (off : nat) (o : endian) (after : nat) (bs : list Z) : option (list Z * list Z) :=
  if Nat.ltb (length bs) (off + 4) then None
  else let n := (off + 4 + Z.to_nat (unsigned o (firstn 4 (skipn off bs))) + after)%nat in
       if Nat.ltb (length bs) n then None else Some (firstn n bs, skipn n bs).
(* all complete frames and what is left *)
Fixpoint cut_frames (fuel : nat) (off : nat) (o : endian) (after : nat) (bs : list Z) : list (list Z) * list Z :=
  match fuel with
  | O => ([], bs)
  | S k => match next_frame off o after bs with
           | Some (f, r) => let '(fs, more) := cut_frames k off o after r in (f :: fs, more)
           | None => ([], bs)
           end
  end.
(* a frame has at least one byte (off + 4 > 0), so this many attempts are enough *)
Definition frames_in (off : nat) (o : endian) (after : nat) (bs : list Z) : list (list Z) * list Z :=
  cut_frames (length bs) off o after bs.
