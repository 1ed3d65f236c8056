(* ChecksumServiceFactory.registry (ChecksumServiceFactory.java:28-34) called by several threads.

   The method is not synchronised: the containsKey test (line 29) and the put (line 32) are separate steps between
   which other threads may run.  Simplification: each of the two HashMap calls is one atomic step (HashMap gives even less),
   and threads only call registry, once each. *)
From Coq Require Import List Bool String.
From Verif.Model Require Import Checksum.
Import ListNotations.

Inductive thread :=
| Calling (s : service)              (* before the test *)
| Passed (s : service)               (* the test found the name free; put is still to come *)
| Answered (s : service) (r : bool). (* returned r *)

Definition thread_step (c : cache) (t : thread) : cache * thread :=
  match t with
  | Calling s => if cache_get c (algorithm s) then (c, Answered s false) else (c, Passed s)
  | Passed s => (cache_put c (algorithm s) s, Answered s true)
  | Answered _ _ => (c, t)
  end.

(* thread number i makes a step (nothing happens if there is no such thread) *)
Fixpoint step (i : nat) (c : cache) (ts : list thread) : cache * list thread :=
  match ts, i with
  | [], _ => (c, [])
  | t :: r, O => let '(c', t') := thread_step c t in (c', t' :: r)
  | t :: r, S j => let '(c', r') := step j c r in (c', t :: r')
  end.
Fixpoint steps (sched : list nat) (c : cache) (ts : list thread) : cache * list thread :=
  match sched with
  | [] => (c, ts)
  | i :: r => let '(c', ts') := step i c ts in steps r c' ts'
  end.
