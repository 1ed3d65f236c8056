(* The files of module bjse: text and tree agree. *)
From Coq Require Import List Bool.
From Verif.Java Require Import Sources FilesBjse.
Lemma bjse_text : forallb same_text bjse_files = true.
Proof. vm_cast_no_check (eq_refl true). Qed.
