(* A receiver to which bytes come in pieces, as a program on the Java text. *)
From Coq Require Import ZArith List Bool String.
From Verif.Model Require Import JavaPrim ByteBuf Ast Interp Show Heap.
From Verif.Spec Require Import Bytes Locality JavaState JavaRun.
From Verif.Java Require Import Syntax Sem.
Import ListNotations.
Open Scope Z_scope.

(* how the receiver makes a buffer of the bytes it has: any way that leaves no spare capacity behind them *)
Definition holder (mk : list Z -> bytebuf) : Prop :=
  forall bs, (forall x, In x bs -> 0 <= x < 256) -> Z.of_nat (List.length bs) < 2 ^ 31 -> buf_wf (mk bs) = true /\ unpadded (mk bs) /\ readable (mk bs) = bs.

Section Receiver.
  Variable pr : printers.
  Variables k d : nat.
  Variable mk : list Z -> bytebuf.

  (* With the bytes [u] in hand and messages of the classes cs to come: o = new C(); o.decode(buffer of u).  IndexOutOfBoundsException: give o up and wait for more bytes; else go on with the next.
     The messages, the classes of those still to come, the bytes not used. *)
  Fixpoint attempts (cs : list string) (u : list Z) (s : st) : res (list nat * list string * list Z) :=
    match cs with
    | [] => Ret ([], [], u) s
    | c :: r =>
        do o s1 <- create_new c (set_b s (mk u));
        match o with
        | JT _ (HRef l) =>
            match invoke pr k d l "decode" [JBuf] s1 with
            | Ret _ s2 => do x s3 <- attempts r (readable (s_b s2)) s2; let '(ls, cs', u') := x in Ret (l :: ls, cs', u') s3
            | Exc IOOBE s2 => Ret ([], cs, u) s2
            | Exc e s2 => Exc e s2
            | Bad => Bad
            end
        | _ => Bad
        end
    end.
  (* one piece after the other *)
  Fixpoint arrivals (pieces : list (list Z)) (cs : list string) (u : list Z) (s : st) : res (list nat * list string * list Z) :=
    match pieces with
    | [] => Ret ([], cs, u) s
    | p :: r => do x s1 <- attempts cs (u ++ p) s; let '(ls, cs', u') := x in
                do y s2 <- arrivals r cs' u' s1; let '(ls', cs'', u'') := y in Ret (ls ++ ls', cs'', u'') s2
    end.
End Receiver.
