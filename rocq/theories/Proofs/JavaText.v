(* The test [same_text] is sound: where it answers true, the text is the tree. *)
From Coq Require Import List Bool String ZArith.
From Verif.Java Require Import Text Lex Syntax Source Sources.
Import ListNotations.

Lemma token_eqb_eq : forall a b, token_eqb a b = true -> a = b.
Proof.
  intros [x|h l z|x|z] [y|h' l' z'|y|z'] H; cbn in H; try discriminate.
  - apply String.eqb_eq in H. now subst.
  - apply andb_prop in H as [H Hz]. apply andb_prop in H as [Hh Hl]. apply eqb_prop in Hh, Hl. apply Z.eqb_eq in Hz. now subst.
  - apply String.eqb_eq in H. now subst.
  - apply Z.eqb_eq in H. now subst.
Qed.
Lemma tokens_eqb_eq : forall a b, tokens_eqb a b = true -> a = b.
Proof.
  induction a as [|x a IH]; intros [|y b] H; cbn in H; try discriminate; [reflexivity|].
  apply andb_prop in H as [H1 H2]. rewrite (token_eqb_eq _ _ H1), (IH _ H2). reflexivity.
Qed.
Lemma same_text_reads : forall s, same_text s = true -> reads (s_text s) (tree s).
Proof.
  intros s H. unfold same_text in H. destruct (lex (s_text s)) as [ts|] eqn:L; [|discriminate].
  apply andb_prop in H as [H1 H2]. split; [|exact H2]. rewrite L. f_equal. now apply tokens_eqb_eq.
Qed.
Lemma all_same_text : forall l, forallb same_text l = true -> forall s, In s l -> reads (s_text s) (tree s).
Proof. intros l H s Hs. apply same_text_reads. rewrite forallb_forall in H. now apply H. Qed.
