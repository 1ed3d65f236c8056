(* A message file: its text, and the classes of Gen*.v it is said to contain. *)
From Coq Require Import List Bool String.
From Verif.Model Require Import Ast.
From Verif.Java Require Import Text Lex Syntax Source.
Import ListNotations.

Record source_class := { sc_def : class_def; sc_flip : bool; sc_form : factory_form; sc_mods : list string }.
Record source := { s_text : text; s_package : list string; s_imports : list (list string); s_main : source_class; s_nested : list source_class }.

Definition tree_of (nested : list jclass) (c : source_class) : jclass := j_class (sc_mods c) (sc_flip c) (sc_form c) nested (sc_def c).
Definition tree (s : source) : file :=
  {| f_package := s_package s; f_imports := s_imports s; f_class := tree_of (map (tree_of []) (s_nested s)) (s_main s) |}.
Definition same_text (s : source) : bool :=
  match lex (s_text s) with Some ts => tokens_eqb ts (p_file (tree s)) && wf_class (f_class (tree s)) | None => false end.
