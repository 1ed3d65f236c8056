(* The states of the message factories while threads use them. *)
From Coq Require Import List Bool String.
From Verif.Model Require Import Ast Interp Factory FactoryRace.
Import ListNotations.

(* the factories at the turns of the thread that decodes, in order *)
Fixpoint worlds (sched : list fturn) (W : factories) : list factories :=
  match sched with
  | [] => []
  | FMine :: r => W :: worlds r W
  | x :: r => worlds r (changed x W)
  end.
(* those states, or the one at the start if decode has ended without a turn *)
Definition seen_worlds (sched : list fturn) (W : factories) : list factories := match worlds sched W with [] => [W] | Ws => Ws end.
(* the factory of class o creates the same in both *)
Definition same_factory (W V : factories) (o : string) : Prop := forall k, lookup_factory W o k = lookup_factory V o k.
(* every factory is as it is in one of Vs *)
Definition patched (Vs : list factories) (W : factories) : Prop := forall o, exists V, In V Vs /\ same_factory W V o.
(* what a factory creates has a lower rank than the class it belongs to: no message can contain, through bodies, one of its own class *)
Definition layered (rank : string -> nat) (W : factories) : Prop := forall o k c, lookup_factory W o k = Some c -> rank c < rank o.
(* a call that does not concern the factory of class o *)
Definition leaves (o : string) (x : fturn) : Prop := match x with FMine => True | FReg o' _ _ | FRem o' _ => o' <> o end.
