(* What a map with messages as keys should answer. *)
From Coq Require Import ZArith List Bool String.
From Verif.Model Require Import Ast Interp Library Heap HashKeys.
From Verif.Spec Require Import Bytes Wire Equality Layouts Sharing.
Import ListNotations.

(* k refers to a message with content x (NaNs made one, as equals does) that holds no object of a field-less class and needs no more than d frames *)
Definition message_at (Y : layouts) (d : nat) (h : heap) (k : hval) (x : val) : Prop :=
  heap_ok lib_classes h /\ k <> HNull /\ exists t c, fits h k (TObj c) /\ shows h k t /\ (nesting t <= d)%nat /\ has_void Y t = false /\ x = one_nan Y t (WObj c).

Section Answers.
  Context {A : Type}.
  Variable content : hval -> val.
  (* the value for content x after the calls [past], the latest first: that of the latest put of a message with this content, unless it has been removed since *)
  Inductive answer : list (call A) -> val -> option A -> Prop :=
  | none_yet x : answer [] x None
  | was_put k a past : answer (Put k a :: past) (content k) (Some a)
  | was_removed k past : answer (Remove k :: past) (content k) None
  | only_asked k past x r : answer past x r -> answer (Get k :: past) x r
  | another o past x r : content (key_of_call o) <> x -> answer past x r -> answer (o :: past) x r.
  (* at every call the keys used so far are messages with the content they had when they were used first *)
  Fixpoint unchanging (Y : layouts) (d : nat) (ks : list hval) (cs : list (heap * call A)) : Prop :=
    match cs with
    | [] => True
    | (h, o) :: r => Forall (fun k => message_at Y d h k (content k)) (key_of_call o :: ks) /\ unchanging Y d (key_of_call o :: ks) r
    end.
End Answers.
