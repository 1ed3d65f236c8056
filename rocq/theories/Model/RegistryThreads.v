(* A thread that calls encode while other threads call methods of ChecksumServiceFactory (ChecksumServiceFactory.java:20-39).
   encode as in EncodeThreads.v, one statement at a time; the others as in Threads.v, one HashMap call at a time.
   encode asks the registry in one statement, once per frame (RootPacket.java:62-67, SseBinary.java:74-78, SzseBinary.java:74-78):
     ChecksumService<ByteBuf, Integer> checksumService = ChecksumServiceFactory.getInstance().getChecksumService("SSE_BIN");
     if (checksumService != null) { this.checksum = (int) checksumService.calc(byteBuf); }

   Simplifications: this statement is one step (the HashMap call is its only access to what the other threads change, calc sees only the
   buffer); each step is atomic and all threads see it. *)
From Coq Require Import ZArith List Bool String.
From Verif.Model Require Import JavaPrim ByteBuf Checksum Ast Interp Factory Heap EncodeThreads Threads.
Import ListNotations.

(* whose turn it is: the thread that encodes, or thread number i of the others *)
Inductive turn := Mine | Theirs (i : nat).
(* C, W: classes and factories *)
Fixpoint mixed_run (C : list (string * class_def)) (W : factories) (sched : list turn) (c : cache) (ts : list thread) (h : heap) (t : encoder) : cache * list thread * heap * encoder :=
  match sched with
  | [] => (c, ts, h, t)
  | Mine :: r => let '(h', t') := encoder_step (env_of C W c) h t in mixed_run C W r c ts h' t'
  | Theirs i :: r => let '(c', ts') := step i c ts in mixed_run C W r c' ts' h t
  end.
