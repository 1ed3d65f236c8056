(* The same objects without the users' subclasses. *)
From Coq Require Import List Bool String.
From Verif.Model Require Import Ast Interp Heap Subclass.
From Verif.Spec Require Import Sharing.
Import ListNotations.

(* every object as one of the library class it is derived from *)
Definition recast_cell (S : subclasses) (k : cell) : cell := match k with CObj c fs => CObj (base S c) fs | CList vs => CList vs end.
Definition recast (S : subclasses) (h : heap) : heap := map (recast_cell S) h.
(* the factories create an object of the library class wherever they create one of a subclass *)
Definition plain (S : subclasses) (E : env) : env :=
  {| classes := classes E; factory := fun c k => option_map (base S) (factory E c k); checksum := checksum E |}.
(* users' classes have names of their own and are derived from classes that exist *)
Definition derived (S : subclasses) (cs : list (string * class_def)) : Prop :=
  forall d c, In (d, c) S -> assoc d cs = None /\ exists cd, assoc c cs = Some cd.
(* no object that belongs to a and object that belongs to b are of two classes derived from one class (or one from the other) *)
Definition told_apart (S : subclasses) (h : heap) (a b : hval) : Prop :=
  forall l m c fs c' gs, reach h a l -> reach h b m -> nth_error h l = Some (CObj c fs) -> nth_error h m = Some (CObj c' gs) -> base S c = base S c' -> c = c'.
(* what each cell is: an object of a class, or a list *)
Definition kind (k : cell) : option string := match k with CObj c _ => Some c | CList _ => None end.
Definition kinds (h : heap) : list (option string) := map kind h.
