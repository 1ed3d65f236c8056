(* The lexer on literals and operators, among them some that do not occur in /repo (tests, not proofs). *)
From Coq Require Import ZArith List Bool String.
From Verif.Java Require Import Text Lex.
Import ListNotations.

Example lex_literals : lex "0xaf 0XY 0xAfL 10L 007 0"%text = None.
Proof. reflexivity. Qed.
Example lex_hex : lex "0xaf 0xAfL 10L 0 0xEDB88320 'a' '\0' ""x /* y"""%text
  = Some [TNum true false 175; TNum true true 175; TNum false true 10; TNum false false 0; TNum true false 3988292384; TChr 97; TChr 0; TLit "x /* y"].
Proof. reflexivity. Qed.
Example lex_comments : lex "a/*b*/c/**/d/***/e// f /* g
h/*/i*/j"%text = Some [T "a"; T "c"; T "d"; T "e"; T "h"; T "j"].
Proof. reflexivity. Qed.
Example lex_operators : lex "a+++b>>>=c!=-d::e->f"%text = Some [T "a"; T "++"; T "+"; T "b"; T ">"; T ">"; T ">="; T "c"; T "!="; T "-"; T "d"; T "::"; T "e"; T "->"; T "f"].
Proof. reflexivity. Qed.
