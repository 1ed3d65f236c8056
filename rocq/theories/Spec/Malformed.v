(* What becomes of bytes that are not UTF-8.

   Bytes are read from the left.  If they start with the form of a code point, that is one character (U+FFFD for a surrogate);
   otherwise the longest piece that could have been the beginning of such a form - one byte if there is none - becomes one U+FFFD. *)
From Coq Require Import ZArith List Bool.
From Verif.Spec Require Import Bytes.
Import ListNotations.
Open Scope Z_scope.

Definition code_point (c : Z) : Prop := 0 <= c <= 1114111.
Definition shown (c : Z) : list Z := if hi_sur c || lo_sur c then [65533] else units c.
(* p is the beginning of the form of some code point *)
Definition begins (p : list Z) : Prop := exists c t, code_point c /\ utf8_scalar c = p ++ t.

Inductive decodes : list Z -> list Z -> Prop :=
| D_nil : decodes [] []
| D_char c r s : code_point c -> decodes r s -> decodes (utf8_scalar c ++ r) (shown c ++ s)
| D_bad p r s : p <> [] ->
    (forall c t, code_point c -> p ++ r <> utf8_scalar c ++ t) ->
    (length p = 1%nat \/ begins p) ->
    (forall q t, p ++ r = q ++ t -> (length p < length q)%nat -> ~ begins q) ->
    decodes r s -> decodes (p ++ r) (65533 :: s).
