(* Fixed-width fields: reading them off a byte string. *)
From Coq Require Import ZArith List Bool String.
From Verif.Model Require Import JavaPrim Ast Utf8.
From Verif.Spec Require Import Bytes Wire Reading.
Import ListNotations.
Open Scope Z_scope.

Definition fixed_width (w : wire) : bool :=
  match w with WInt _ _ | WFlt _ _ | WFix _ _ _ | WLen _ _ | WSum _ _ _ => true | _ => false end.
Definition width (w : wire) : nat :=
  match w with
  | WInt n _ | WFlt n _ | WLen n _ | WSum n _ _ => n
  | WFix len _ _ => Z.to_nat len
  | _ => O
  end.
Definition flat (L : layout) : bool := forallb (fun fw => fixed_width (snd fw)) L.
Fixpoint total_width (L : layout) : nat := match L with [] => O | (_, w) :: L' => width w + total_width L' end.

Definition scalar_of (w : wire) (bs : list Z) : val :=
  match w with
  | WInt _ o | WLen _ o | WSum _ o _ => VInt (get_int o bs)
  | WFlt _ o => VFlt (get_bits o bs)
  | WFix _ pad lft => VStr (strip pad lft (utf8_decode bs))
  | _ => VNull
  end.
(* the fields of a flat layout, read off the front of bs *)
Fixpoint parse (L : layout) (bs : list Z) : list (string * val) :=
  match L with
  | [] => []
  | (f, w) :: L' => (f, scalar_of w (firstn (width w) bs)) :: parse L' (skipn (width w) bs)
  end.

(* no left-padded string is null or empty *)
Definition lefts_filled (fs : list (string * val)) (L : layout) : bool :=
  all2 (fun fv fw => match snd fw with WFix _ _ true => negb (match text (snd fv) with [] => true | _ => false end) | _ => true end) fs L.
