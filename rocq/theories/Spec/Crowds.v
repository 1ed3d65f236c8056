(* The states of registry and factories while threads use them; a thread on its own. *)
From Coq Require Import List Bool String.
From Verif.Model Require Import JavaPrim ByteBuf Checksum Ast Interp Factory Heap DecodeThreads FactoryRace Crowd.
From Verif.Model Require Threads.
From Verif.Spec Require Import Worlds.
Import ListNotations.

(* registry and factories at the turns of worker i, in order; the workers do not change them *)
Fixpoint moments (i : nat) (sched : list who) (R : cache) (W : factories) (ts : list Threads.thread) : list (cache * factories) :=
  match sched with
  | [] => []
  | Worker k :: r => if Nat.eqb k i then (R, W) :: moments i r R W ts else moments i r R W ts
  | Services k :: r => moments i r (fst (Threads.step k R ts)) W (snd (Threads.step k R ts))
  | Registers x :: r => moments i r R (changed x W) ts
  end.
(* one worker that nobody else works beside, with these states at its turns *)
Fixpoint by_itself (C : list (string * class_def)) (ms : list (cache * factories)) (h : heap) (w : worker) : heap * worker :=
  match ms with
  | [] => (h, w)
  | (R, W) :: r => let '(h', w') := worker_step (env_of C W R) h w in by_itself C r h' w'
  end.
(* calls one after the other, the first exception ends them; P says what one call does, given the states at the turns it took *)
Inductive each_in_turn (P : list (cache * factories) -> heap -> bytebuf -> call -> option exn -> heap -> bytebuf -> Prop)
    : list (cache * factories) -> heap -> bytebuf -> list call -> option exn -> heap -> bytebuf -> Prop :=
| turn_none ms h b : each_in_turn P ms h b [] None h b
| turn_last ms ms' h b c r x h1 b1 : P ms h b c (Some x) h1 b1 -> each_in_turn P (ms ++ ms') h b (c :: r) (Some x) h1 b1
| turn_next ms ms' h b c r e h1 b1 h2 b2 : P ms h b c None h1 b1 -> each_in_turn P ms' h1 b1 r e h2 b2 -> each_in_turn P (ms ++ ms') h b (c :: r) e h2 b2.
(* encode with a state that the registry had, decode with states that the factories had *)
Definition called (C : list (string * class_def)) (R0 : cache) (W0 : factories) (ms : list (cache * factories)) (h : heap) (b : bytebuf) (c : call) (e : option exn) (h1 : heap) (b1 : bytebuf) : Prop :=
  match does c with
  | Encodes => exists R, In R (map fst ms) /\ hencode (env_of C W0 R) (deep c) h (HRef (on c)) b = (e, h1, b1)
  | Decodes => exists W, patched (map snd ms) W /\ hdecode (env_of C W R0) (deep c) h (HRef (on c)) b = (e, h1, b1)
  end.
