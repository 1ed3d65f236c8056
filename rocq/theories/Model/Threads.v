(* ChecksumServiceFactory (ChecksumServiceFactory.java:6-40) used by several threads, each of which makes any number of calls.

   The methods are not synchronised: in registry (lines 28-34) the containsKey test (line 29) and the put (line 32) are separate
   steps between which other threads may run; removeChecksumService (20-22), clearAllChecksumService (24-26) and getChecksumService
   (37-39) each make one HashMap call.  Simplification: each HashMap call is one atomic step that all threads see (HashMap itself
   promises less). *)
From Coq Require Import List Bool String.
From Verif.Model Require Import Checksum.
Import ListNotations.

Inductive call := CReg (s : service) | CRem (n : string) | CClear | CGet (n : string).
Inductive answer := AReg (s : service) (r : bool) | ARem (n : string) | AClear | AGet (n : string) (r : option service).

(* where a thread is: calls still to make, whether it is between the two steps of registry, answers it got (latest last) *)
Record thread := { todo : list call; mid : option service; got : list answer }.
Definition start (p : list call) : thread := {| todo := p; mid := None; got := [] |}.

Definition thread_step (c : cache) (t : thread) : cache * thread :=
  match mid t with
  | Some s => (cache_put c (algorithm s) s, {| todo := todo t; mid := None; got := got t ++ [AReg s true] |})
  | None =>
      match todo t with
      | [] => (c, t)
      | CReg s :: r => if cache_get c (algorithm s) then (c, {| todo := r; mid := None; got := got t ++ [AReg s false] |})
                       else (c, {| todo := r; mid := Some s; got := got t |})
      | CRem n :: r => (remove_service c n, {| todo := r; mid := None; got := got t ++ [ARem n] |})
      | CClear :: r => (clear_services c, {| todo := r; mid := None; got := got t ++ [AClear] |})
      | CGet n :: r => (c, {| todo := r; mid := None; got := got t ++ [AGet n (get_service c n)] |})
      end
  end.

(* thread number i makes a step (nothing happens if there is no such thread) *)
Fixpoint step (i : nat) (c : cache) (ts : list thread) : cache * list thread :=
  match ts, i with
  | [], _ => (c, [])
  | t :: r, O => let '(c', t') := thread_step c t in (c', t' :: r)
  | t :: r, S j => let '(c', r') := step j c r in (c', t :: r')
  end.
Fixpoint steps (sched : list nat) (c : cache) (ts : list thread) : cache * list thread :=
  match sched with
  | [] => (c, ts)
  | i :: r => let '(c', ts') := step i c ts in steps r c' ts'
  end.
