(* Sizes and shapes of message objects. *)
From Coq Require Import ZArith List Bool String.
From Verif.Model Require Import JavaPrim Ast.
From Verif.Spec Require Import Bytes Wire Reading.
Import ListNotations.
Open Scope Z_scope.

Definition sum_of {A} (f : A -> nat) : list A -> nat :=
  fix go l := match l with [] => O | a :: r => (f a + go r)%nat end.

(* number of list elements in an object, at all levels *)
Fixpoint elems (v : val) : nat :=
  match v with
  | VList l => List.length l + sum_of elems l
  | VObj _ fs => sum_of (fun fv => elems (snd fv)) fs
  | _ => O
  end.
(* number of string chars in an object, at all levels *)
Fixpoint chars (v : val) : nat :=
  match v with
  | VStr s => List.length s
  | VList l => sum_of chars l
  | VObj _ fs => sum_of (fun fv => chars (snd fv)) fs
  | _ => O
  end.

(* every list has at most as many elements, every dynamic string at most as many chars, as its length prefix can announce *)
Fixpoint countable (Y : layouts) (v : val) (w : wire) {struct v} : bool :=
  match v with
  | VStr s => match w with WDyn n _ => Z.of_nat (List.length s) <=? max_prefix n | _ => true end
  | VList l => match w with WList n _ w' => (Z.of_nat (List.length l) <=? max_prefix n) && forallb (fun x => countable Y x w') l | _ => true end
  | VObj c fs => match find c Y with
                 | Some L => all2 (fun fv fw => countable Y (snd fv) (snd fw)) fs L
                 | None => true
                 end
  | _ => true
  end.

(* no sub-object, body, object in a list, or boxed number in a list is null *)
Fixpoint no_nulls (Y : layouts) (v : val) (w : wire) {struct v} : bool :=
  match v with
  | VNull => match w with WInt _ _ | WFlt _ _ | WObj _ | WBody _ => false | _ => true end
  | VList l => match w with WList _ _ w' => forallb (fun x => no_nulls Y x w') l | _ => true end
  | VObj c fs => match find c Y with
                 | Some L => all2 (fun fv fw => no_nulls Y (snd fv) (snd fw)) fs L
                 | None => true
                 end
  | _ => true
  end.
(* no list of the object, at any level, contains a null *)
Fixpoint lists_no_nulls (Y : layouts) (v : val) (w : wire) {struct v} : bool :=
  match v with
  | VList l => match w with WList _ _ w' => forallb (fun x => no_nulls Y x w') l | _ => true end
  | VObj c fs => match find c Y with
                 | Some L => all2 (fun fv fw => lists_no_nulls Y (snd fv) (snd fw)) fs L
                 | None => true
                 end
  | _ => true
  end.

(* number of bytes a value takes on the wire *)
Definition sum2 {A B} (p : A -> B -> nat) : list A -> list B -> nat :=
  fix go l m :=
    match l, m with
    | a :: l', b :: m' => (p a b + go l' m')%nat
    | _, _ => O
    end.
Fixpoint size_of (Y : layouts) (v : val) (w : wire) {struct v} : nat :=
  match w with
  | WInt n _ | WFlt n _ | WLen n _ | WSum n _ _ => n
  | WFix len _ lft => if lft && (match text v with [] => true | _ => false end) then O else Z.to_nat len
  | WDyn n _ => n + List.length (utf8 (text v))
  | WList n _ w' => n + match v with VList l => sum_of (fun x => size_of Y x w') l | _ => O end
  | WObj _ | WBody _ =>
      match v with
      | VObj c fs => match find c Y with Some L => sum2 (fun fv fw => size_of Y (snd fv) (snd fw)) fs L | None => O end
      | _ => O
      end
  end.
