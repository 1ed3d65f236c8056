(* What a call does, whatever bound the interpreter of Java/Sem.v is given. *)
From Coq Require Import List String.
From Verif.Model Require Import JavaPrim ByteBuf Show Heap.
From Verif.Java Require Import Syntax Sem.

Definition overflowed (r : res jval) : Prop := exists s, r = Exc SOE s.
(* o.m(args), o at l, with d stack frames left, ends with r *)
Definition outcome (P : program) (pr : printers) (d l : nat) (m : string) (args : list jval) (s : st) (r : res jval) : Prop :=
  r <> Bad /\ exists k, vcalls P pr k d m l args s = r.
(* C.m(args) for a static method or a singleton *)
Definition outcome_on (P : program) (pr : printers) (d : nat) (c m : string) (args : list jval) (s : st) (r : res jval) : Prop :=
  r <> Bad /\ exists k, run P pr (vcalls P pr k d) k None c m args s = r.
