(* The files of module sample: text and tree agree. *)
From Coq Require Import List Bool.
From Verif.Java Require Import Sources FilesSample.
Lemma sample_text : forallb same_text sample_files = true.
Proof. vm_cast_no_check (eq_refl true). Qed.
