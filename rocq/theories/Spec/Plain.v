(* When the text of a message says everything about it. *)
From Coq Require Import ZArith List Bool String.
From Verif.Model Require Import JavaPrim Ast.
From Verif.Spec Require Import Bytes Wire Text.
Import ListNotations.
Open Scope Z_scope.

(* a word: not empty, not "null", no comma and no bracket *)
Definition mark (c : Z) : bool := (c =? 44) || (c =? 91) || (c =? 93).
Definition word (s : list Z) : bool :=
  match s with [] => false | _ => true end && negb (existsb mark s) && negb (if list_eq_dec Z.eq_dec s (letters "null") then true else false).
(* no comma, no bracket, not "null"; may be empty *)
Definition phrase (s : list Z) : bool := match s with [] => true | _ => word s end.

(* every string in a list is a word, every other string is a phrase, every object is of a class in [module] *)
Fixpoint plain (module : string -> bool) (inlist : bool) (v : val) : bool :=
  match v with
  | VStr s => if inlist then word s else phrase s
  | VList l => forallb (plain module true) l
  | VObj c fs => module c && forallb (fun fv => plain module false (snd fv)) fs
  | _ => true
  end.
