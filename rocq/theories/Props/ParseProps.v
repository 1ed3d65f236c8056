(* C83: the text of a file has one tree. *)
From Coq Require Import List Bool ZArith String Arith Lia.
From Verif.Java Require Import Lex Syntax Parse Sem CodecTrees Program Source Sources.
From Verif.Spec Require Import JavaRun.
From Verif.Proofs Require Import ParseFacts.
From Verif.Props Require Import JavaStaticProps.
Import ListNotations.
Open Scope string_scope.
Open Scope list_scope.

(* two trees of Java with the same tokens are the same *)
Theorem C83_tokens_determine_the_tree : forall f g, proper f = true -> proper g = true -> p_file f = p_file g -> f = g.
Proof. exact one_tree. Qed.
(* parsing (deterministic, JLS 19) finds it *)
Theorem C83_parsing : forall f, proper f = true -> exists N, forall k, (N <= k)%nat -> parse_file k (p_file f) = Some f.
Proof. exact file_parsed. Qed.
(* so each of the 188 files has exactly one tree, the one that is run in C73-C82 *)
Lemma all_proper : forallb (fun tf => proper (snd tf)) all_files = true. Proof. vm_compute. reflexivity. Qed.
Theorem C83_text_has_one_tree : forall t f, In (t, f) all_files ->
  proper f = true /\ lex t = Some (p_file f)
  /\ (forall g, proper g = true -> lex t = Some (p_file g) -> g = f)
  /\ (exists N, forall k, (N <= k)%nat -> exists ts, lex t = Some ts /\ parse_file k ts = Some f).
Proof.
  intros t f H. pose proof all_proper as A. rewrite forallb_forall in A. specialize (A _ H). cbn [snd] in A. destruct (C72_text_reads_as_tree t f H) as (L & _).
  split; [exact A|]. split; [exact L|]. split.
  - intros g G Lg. apply one_tree; auto. congruence.
  - destruct (file_parsed f A) as (N & HN). exists N. intros k Hk. exists (p_file f). auto.
Qed.

(* return e; in a class of its own *)
Definition returning (e : expr) : file :=
  {| f_package := ["a"]; f_imports := [["java"; "util"; "List"]];
     f_class := Class ["public"] "class" "A" [] [] [] [MMethod [("Override", None)] ["public"] [] (Ty "int" []) "f" [(Ty "int" [], "x")] (Some [SReturn (Some e)])] |}.
Definition x_ : expr := EName "x".
(* x - x - x has two nestings with the same tokens, one is Java; (x) - x is a difference, (int) x a cast; x < x > x is not a type *)
Example C83_meets :
  p_file (returning (EBin OSub (EBin OSub x_ x_) x_)) = p_file (returning (EBin OSub x_ (EBin OSub x_ x_)))
  /\ proper (returning (EBin OSub (EBin OSub x_ x_) x_)) = true /\ proper (returning (EBin OSub x_ (EBin OSub x_ x_))) = false
  /\ parse_file 40 (p_file (returning (EBin OSub (EParen x_) x_))) = Some (returning (EBin OSub (EParen x_) x_))
  /\ parse_file 40 (p_file (returning (ECast (Ty "int" []) x_))) = Some (returning (ECast (Ty "int" []) x_))
  /\ parse_file 40 (p_file (returning (EParen (EBin OGt (EBin OLt x_ x_) x_)))) = Some (returning (EParen (EBin OGt (EBin OLt x_ x_) x_)))
  /\ List.length all_files = 188%nat.
Proof. vm_compute. repeat split. Qed.
Print Assumptions C83_tokens_determine_the_tree.
Print Assumptions C83_parsing.
Print Assumptions C83_text_has_one_tree.
