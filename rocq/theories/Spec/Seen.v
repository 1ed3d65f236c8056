(* What other threads see of a message while a thread runs decode on it. *)
From Coq Require Import ZArith List Bool String.
From Verif.Model Require Import JavaPrim ByteBuf Ast Interp Heap DecodeThreads.
From Verif.Spec Require Import Bytes Wire.
Import ListNotations.

(* the heap after n steps of a thread that calls decode on the object at l; a getter called then reads from it *)
Definition seen_after (E : env) (h : heap) (l d : nat) (b : bytebuf) (n : nat) : heap :=
  fst (Nat.iter n (fun st => decoder_step E (fst st) (snd st)) (h, denter E h (HRef l) [] d b)).
(* the heap when decode has ended *)
Definition seen_at_end (E : env) (h : heap) (l d : nat) (b : bytebuf) : heap := snd (fst (hdecode E d h (HRef l) b)).
(* f comes before g on the wire, or is g *)
Definition not_after (L : layout) (f g : string) : Prop := (f = g /\ In f (map fst L)) \/ exists A B C w w', L = A ++ (f, w) :: B ++ (g, w') :: C.
(* a number or a string *)
Definition single_value (w : wire) : Prop := match w with WObj _ | WBody _ | WList _ _ _ => False | _ => True end.
