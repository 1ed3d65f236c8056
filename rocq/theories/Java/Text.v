(* The text of a source file: its bytes.  The string notation lets Src*.v hold the files of /repo verbatim (only the quotation mark is
   doubled, as Coq wants it). *)
From Coq Require Import List Init.Byte.

Inductive text := Text (l : list byte).
Definition text_of (l : list byte) : text := Text l.
Definition bytes_of (t : text) : list byte := match t with Text l => l end.
Declare Scope text_scope.
Delimit Scope text_scope with text.
String Notation text text_of bytes_of : text_scope.
