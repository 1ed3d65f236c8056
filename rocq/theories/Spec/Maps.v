(* Abstract bit maps: sets of positions with a history of set and clear calls. *)
From Coq Require Import ZArith List Bool.
Import ListNotations.
Open Scope Z_scope.

Inductive map_op := MSet (p : Z) | MClear (p : Z).
Definition op_pos (o : map_op) : Z := match o with MSet p | MClear p => p end.

(* what the last call naming [p] did; None if no call names it *)
Fixpoint last_call (p : Z) (ops : list map_op) : option bool :=
  match ops with
  | [] => None
  | o :: r => match last_call p r with
              | Some x => Some x
              | None => if op_pos o =? p then Some (match o with MSet _ => true | MClear _ => false end) else None
              end
  end.
(* all positions in 0 .. n-1 *)
Definition in_range (n : Z) (ops : list map_op) : Prop := Forall (fun o => 0 <= op_pos o < n) ops.

(* a run of calls on a map with the given set and clear *)
Definition run (set clear : Z -> Z -> Z) (ops : list map_op) (bits : Z) : Z :=
  fold_left (fun b o => match o with MSet p => set b p | MClear p => clear b p end) ops bits.

(* bit [j] of what a continuation-byte reader assembles from [bytes], low group first, the shift taken modulo [w] *)
Fixpoint grouped (w : Z) (bytes : list Z) (shift j : Z) : bool :=
  match bytes with
  | [] => false
  | x :: r => Z.testbit (x mod 128) (j - shift mod w) || grouped w r (shift + 7) j
  end.
