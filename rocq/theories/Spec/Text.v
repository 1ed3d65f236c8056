(* The text of a message: the simple name of its class and every field by name, in declaration order. *)
From Coq Require Import ZArith List Bool String Ascii Decimal DecimalString.
From Verif.Model Require Import JavaPrim Ast.
From Verif.Spec Require Import Bytes Wire.
Import ListNotations.
Open Scope Z_scope.

(* UTF-16 of an ASCII string *)
Definition letters (s : string) : list Z := map (fun a => Z.of_N (N_of_ascii a)) (list_ascii_of_string s).
(* decimal notation, by the standard library *)
Definition decimal (z : Z) : list Z := letters (NilZero.string_of_int (Z.to_int z)).
Fixpoint join (sep : list Z) (xs : list (list Z)) : list Z :=
  match xs with
  | [] => []
  | [x] => x
  | x :: r => x ++ sep ++ join sep r
  end.
(* the part after the last dot *)
Fixpoint simple_name (s : string) : string :=
  match s with
  | EmptyString => EmptyString
  | String a r => if existsb (Ascii.eqb ".") (list_ascii_of_string s) then simple_name r else s
  end.

(* [ff], [fd]: text of a float and of a double, by their bits *)
Fixpoint text (Y : layouts) (ff fd : Z -> list Z) (v : val) (w : wire) {struct v} : list Z :=
  match v with
  | VNull => letters "null"
  | VInt z => decimal z
  | VFlt z => match w with WFlt 4 _ => ff z | _ => fd z end
  | VStr s => s
  | VList l => match w with
               | WList _ _ w' => letters "[" ++ join (letters ", ") (map (fun x => text Y ff fd x w') l) ++ letters "]"
               | _ => []
               end
  | VObj c fs =>
      match find c Y with
      | Some L =>
          letters (simple_name c) ++ letters " ["
          ++ join (letters ", ")
               ((fix go (fs : list (string * val)) (L : layout) : list (list Z) :=
                   match fs, L with
                   | (f, x) :: fs', (_, w) :: L' => (letters f ++ letters "=" ++ text Y ff fd x w) :: go fs' L'
                   | _, _ => []
                   end) fs L)
          ++ letters "]"
      | None => []
      end
  end.
