(* Bean naming: the accessors of field abc are getAbc and setAbc. *)
From Coq Require Import ZArith List Bool String Ascii.
From Verif.Model Require Import JavaPrim Ast.
Import ListNotations.

Definition upper (a : ascii) : ascii :=
  let n := nat_of_ascii a in if Nat.leb 97 n && Nat.leb n 122 then ascii_of_nat (n - 32) else a.
Definition capital (s : string) : string := match s with EmptyString => EmptyString | String a r => String (upper a) r end.
Definition getter (f : string) : string := "get" ++ capital f.
Definition setter (f : string) : string := "set" ++ capital f.

(* gs is fs with field f holding x *)
Definition assigned (f : string) (x : val) (fs gs : list (string * val)) : Prop :=
  map fst gs = map fst fs /\ forall g y, In (g, y) gs <-> (g = f /\ y = x /\ In f (map fst fs)) \/ (g <> f /\ In (g, y) fs).
