(* Classes that users derive from the message classes of the library.  None of the generated classes is final
   (e.g. sample-bin/src/main/java/com/finproto/sample/messages/RootPacket.java:13), so a user may write  class D extends RootPacket { ... },
   or  new SubPacket() {{ setFieldU32(1); }}, which makes an anonymous class.  A subclass inherits encode, decode, equals, hashCode and
   toString (RootPacket.java:51-113), and the factory the inherited decode asks is that of the class it is written in (RootPacket.java:76,115-141).

   Simplifications: the subclass overrides none of those five methods.  Fields it adds are left out: no inherited method can name them.  Getters and
   setters it adds or overrides are left out as well: none of the five methods calls one. *)
From Coq Require Import ZArith List Bool String.
From Verif.Model Require Import JavaPrim Ast Interp Heap.
Import ListNotations.

(* the users' classes, each with the class of the library at the end of its chain of superclasses *)
Definition subclasses := list (string * string).
Definition base (S : subclasses) (c : string) : string := match assoc c S with Some b => b | None => c end.

(* JLS 8.4.8: the inherited members; Heap.v finds methods by the class of an object *)
Definition inherited (cs : list (string * class_def)) (S : subclasses) : list (string * class_def) :=
  flat_map (fun dc => match assoc (snd dc) cs with Some cd => [(fst dc, cd)] | None => [] end) S.
(* the library E and the users' classes; the factories of E may create objects of those, too: register(key, D::new), RootPacket.java:129-131 *)
Definition with_subclasses (S : subclasses) (E : env) : env :=
  {| classes := classes E ++ inherited (classes E) S;
     factory := fun c => factory E (base S c);
     checksum := checksum E |}.
