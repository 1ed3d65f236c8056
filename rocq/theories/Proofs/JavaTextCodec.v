(* The files of codec: text and tree agree. *)
From Coq Require Import List Bool.
From Verif.Java Require Import Lex Syntax CodecTrees.
From Verif.Proofs Require Import JavaText.

Definition is_tree (p : Text.text * file) : bool :=
  match lex (fst p) with Some ts => tokens_eqb ts (p_file (snd p)) && wf_class (f_class (snd p)) | None => false end.
Lemma codec_text : forallb is_tree codec_files = true.
Proof. vm_cast_no_check (eq_refl true). Qed.
Lemma codec_reads : forall t f, In (t, f) codec_files -> reads t f.
Proof.
  intros t f H. pose proof codec_text as C. rewrite forallb_forall in C. specialize (C _ H). unfold is_tree in C. cbn [fst snd] in C.
  destruct (lex t) as [ts|] eqn:L; [|discriminate]. apply andb_prop in C as [C1 C2]. split; [|exact C2]. rewrite L. f_equal. now apply tokens_eqb_eq.
Qed.
