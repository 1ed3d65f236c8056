(* The files of module risk: text and tree agree. *)
From Coq Require Import List Bool.
From Verif.Java Require Import Sources FilesRisk.
Lemma risk_text : forallb same_text risk_files = true.
Proof. vm_cast_no_check (eq_refl true). Qed.
