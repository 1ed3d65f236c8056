(* The files of module szse: text and tree agree. *)
From Coq Require Import List Bool.
From Verif.Java Require Import Sources FilesSzse.
Lemma szse_text : forallb same_text szse_files = true.
Proof. vm_cast_no_check (eq_refl true). Qed.
