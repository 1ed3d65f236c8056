(* Sequences of messages written to, and read from, one buffer. *)
From Coq Require Import List String.
From Verif.Model Require Import ByteBuf Ast Interp.
Import ListNotations.

(* encode each message in turn; stop at the first exception *)
Fixpoint encode_seq (E : env) (d : nat) (vs : list val) (b : bytebuf) : option exn * list val * bytebuf :=
  match vs with
  | [] => (None, [], b)
  | v :: r => match encode E d v b with
              | (None, v1, b1) => let '(e, r1, b2) := encode_seq E d r b1 in (e, v1 :: r1, b2)
              | (Some e, v1, b1) => (Some e, v1 :: r, b1)
              end
  end.
(* decode one new object of each class in turn *)
Fixpoint decode_seq (E : env) (d : nat) (cs : list string) (b : bytebuf) : option exn * list val * bytebuf :=
  match cs with
  | [] => (None, [], b)
  | c :: r => match decode E d (new_obj E c) b with
              | (None, v1, b1) => let '(e, r1, b2) := decode_seq E d r b1 in (e, v1 :: r1, b2)
              | (Some e, _, b1) => (Some e, [], b1)
              end
  end.
