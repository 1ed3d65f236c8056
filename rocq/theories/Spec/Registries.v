(* The states of the checksum registry while threads use it. *)
From Coq Require Import List Bool String.
From Verif.Model Require Import Checksum Threads RegistryThreads.
Import ListNotations.

(* the registry at the turns of the thread that encodes, in order; the threads that call its methods are not affected by that one *)
Fixpoint registries (sched : list turn) (c : cache) (ts : list thread) : list cache :=
  match sched with
  | [] => []
  | Mine :: r => c :: registries r c ts
  | Theirs i :: r => registries r (fst (step i c ts)) (snd (step i c ts))
  end.
(* those states, or the one at the start if encode has ended without a turn *)
Definition seen_registries (sched : list turn) (c : cache) (ts : list thread) : list cache := match registries sched c ts with [] => [c] | cs => cs end.
