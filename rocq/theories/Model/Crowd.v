(* Threads that encode and decode messages of their own (DecodeThreads.v), while others call the methods of ChecksumServiceFactory
   (ChecksumServiceFactory.java:20-39, as in Threads.v) and register and remove message types (e.g. RootPacket.java:134-140, as in FactoryRace.v).

   Simplifications: those of DecodeThreads.v, Threads.v and FactoryRace.v: each statement, each HashMap call is one atomic step that all threads see. *)
From Coq Require Import ZArith List Bool String.
From Verif.Model Require Import JavaPrim ByteBuf Checksum Ast Interp Factory Heap EncodeThreads DecodeThreads FactoryRace.
From Verif.Model Require Threads.
Import ListNotations.

(* whose turn it is: a thread that encodes and decodes, one that uses the checksum registry, or one that changes a factory *)
Inductive who := Worker (i : nat) | Services (i : nat) | Registers (x : fturn).
(* C: classes; R, W: checksum registry and factories; ts: the threads that use R *)
Fixpoint crowd_run (C : list (string * class_def)) (sched : list who) (R : cache) (W : factories) (ts : list Threads.thread) (h : heap) (ws : list worker)
    : cache * factories * heap * list worker :=
  match sched with
  | [] => (R, W, h, ws)
  | Worker i :: r => let '(h', ws') := workers_step (env_of C W R) i h ws in crowd_run C r R W ts h' ws'
  | Services i :: r => let '(R', ts') := Threads.step i R ts in crowd_run C r R' W ts' h ws
  | Registers x :: r => crowd_run C r R (changed x W) ts h ws
  end.
