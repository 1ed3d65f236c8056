(* How much is in the heap: objects and lists (its length), elements of lists, chars of strings. *)
From Coq Require Import ZArith List String.
From Verif.Model Require Import JavaPrim Ast Show Heap.
From Verif.Spec Require Import Sizes.
Import ListNotations.
Open Scope nat_scope.

Definition list_items (h : heap) : nat := sum_of (fun c => match c with CList vs => List.length vs | CObj _ _ => 0 end) h.
Definition val_chars (v : hval) : nat := match v with HStr s => List.length s | _ => 0 end.
Definition text_size (h : heap) : nat :=
  sum_of (fun c => match c with CObj _ fs => sum_of (fun fv => val_chars (snd fv)) fs | CList vs => sum_of val_chars vs end) h.
