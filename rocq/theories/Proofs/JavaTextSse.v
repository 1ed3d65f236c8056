(* The files of module sse: text and tree agree. *)
From Coq Require Import List Bool.
From Verif.Java Require Import Sources FilesSse.
Lemma sse_text : forallb same_text sse_files = true.
Proof. vm_cast_no_check (eq_refl true). Qed.
