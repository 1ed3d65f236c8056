(* One byte order per protocol. *)
From Coq Require Import ZArith List Bool String.
From Verif.Model Require Import JavaPrim Ast.
From Verif.Spec Require Import Bytes Wire.
Import ListNotations.
Open Scope Z_scope.

(* class names start with the protocol *)
Definition protocols : list (string * endian) := [("sse.", BE); ("szse.", BE); ("risk.", BE); ("bjse.", LE); ("sample.", LE)]%string.

(* the bytes of a value as in Spec/Wire.v, but with every number in byte order o, whatever the layouts say *)
Fixpoint ser_in (o : endian) (Y : layouts) (v : val) (w : wire) {struct v} : list Z :=
  match v, w with
  | VInt z, WInt n _ | VInt z, WLen n _ | VInt z, WSum n _ _ | VFlt z, WFlt n _ => number o n z
  | VNull, WFix len pad lft => fixed (Z.to_nat len) pad lft []
  | VStr s, WFix len pad lft => fixed (Z.to_nat len) pad lft s
  | VNull, WDyn n _ => number o n 0
  | VStr s, WDyn n _ => number o n (Z.of_nat (List.length (utf8 s))) ++ utf8 s
  | VNull, WList n _ _ => number o n 0
  | VList l, WList n _ w' => number o n (Z.of_nat (List.length l)) ++ flat_map (fun x => ser_in o Y x w') l
  | VObj c fs, WObj _ | VObj c fs, WBody _ =>
      match find c Y with
      | Some L => concat2 (fun fv fw => ser_in o Y (snd fv) (snd fw)) fs L
      | None => []
      end
  | _, _ => []
  end.

(* every object inside is of a class whose name starts with p *)
Fixpoint within (p : string) (v : val) : bool :=
  match v with
  | VList l => forallb (within p) l
  | VObj c fs => prefix p c && forallb (fun fv => within p (snd fv)) fs
  | _ => true
  end.
