(* Messages whose bytes survive decoding and encoding again, though the object may not survive. *)
From Coq Require Import ZArith List Bool String.
From Verif.Model Require Import JavaPrim Ast.
From Verif.Spec Require Import Bytes Wire Reading.
Import ListNotations.
Open Scope Z_scope.

(* every string of the value satisfies pf (in fixed-width fields) or pd (in dynamic ones; those in lists are also not empty) *)
Fixpoint all_strings (pf : nat -> Z -> bool -> list Z -> bool) (pd : list Z -> bool) (Y : layouts) (v : val) (w : wire) {struct v} : bool :=
  match w with
  | WFix len pad lft => pf (Z.to_nat len) pad lft (text v)
  | WDyn _ _ => pd (text v)
  | WList _ _ w' =>
      match v with
      | VList l => forallb (fun x => all_strings pf pd Y x w' && match w', text x with WDyn _ _, [] => false | _, _ => true end) l
      | _ => true
      end
  | WObj _ | WBody _ =>
      match v with
      | VObj c fs => match find c Y with
                     | Some L => all2 (fun fv fw => all_strings pf pd Y (snd fv) (snd fw)) fs L
                     | None => true
                     end
      | _ => true
      end
  | _ => true
  end.

Definition bytes_eqb (a b : list Z) : bool := if list_eq_dec Z.eq_dec a b then true else false.
(* the cut after len bytes falls between two characters *)
Definition cut_clean (len : nat) (s : list Z) : bool :=
  existsb (fun k => bytes_eqb (utf8 (firstn k s)) (firstn len (utf8 s))) (seq 0 (S (List.length s))).
(* what is left after the cut is not all pads *)
Definition some_text (len : nat) (pad : Z) (s : list Z) : bool := existsb (fun b => negb (b =? pad)) (firstn len (utf8 s)).
Definition resendable (len : nat) (pad : Z) (lft : bool) (s : list Z) : bool := cut_clean len s && (negb lft || some_text len pad s).

(* ASCII strings *)
Definition ascii_some (len : nat) (pad : Z) (lft : bool) (s : list Z) : bool :=
  ascii s && (negb lft || existsb (fun c => negb (c =? pad)) (firstn len s)).
