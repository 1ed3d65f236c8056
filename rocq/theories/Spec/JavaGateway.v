(* A gateway: a program that takes frames apart and puts them together again, on the Java text. *)
From Coq Require Import ZArith List Bool String.
From Verif.Model Require Import JavaPrim ByteBuf Ast Interp Show Heap.
From Verif.Spec Require Import Bytes JavaState JavaRun.
From Verif.Java Require Import Syntax Sem.
Import ListNotations.

(* for each frame, in a buffer of its own: o = new C(); o.decode(frame); o.encode(out);  the objects, and out in the end *)
Fixpoint passes (pr : printers) (k d : nat) (mk : list Z -> bytebuf) (c : string) (fs : list (list Z)) (out : bytebuf) (s : st) : res (list nat * bytebuf) :=
  match fs with
  | [] => Ret ([], out) s
  | f :: r =>
      do o s1 <- create_new c (set_b s (mk f));
      match o with
      | JT _ (HRef l) =>
          do x s2 <- invoke pr k d l "decode" [JBuf] s1;
          do y s3 <- invoke pr k d l "encode" [JBuf] (set_b s2 out);
          do z s4 <- passes pr k d mk c r (s_b s3) s3; Ret (l :: fst z, snd z) s4
      | _ => Bad
      end
  end.
