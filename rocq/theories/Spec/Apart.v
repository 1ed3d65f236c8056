(* Messages that have nothing in common; graphs of the same shape. *)
From Coq Require Import ZArith List Bool String.
From Verif.Model Require Import JavaPrim ByteBuf Ast Interp Heap EncodeThreads DecodeThreads.
From Verif.Spec Require Import Sharing.
Import ListNotations.

(* two values, two cells, given which location corresponds to which *)
Definition same_value (R : nat -> nat -> Prop) (v w : hval) : Prop := match v, w with HRef a, HRef b => R a b | HRef _, _ | _, HRef _ => False | _, _ => v = w end.
Definition same_cell (R : nat -> nat -> Prop) (k m : cell) : Prop :=
  match k, m with
  | CObj c fs, CObj c' gs => c = c' /\ Forall2 (fun x y => fst x = fst y /\ same_value R (snd x) (snd y)) fs gs
  | CList vs, CList ws => Forall2 (same_value R) vs ws
  | _, _ => False
  end.
(* R pairs the locations of two heaps one to one, and paired cells have the same content *)
Definition pairs (R : nat -> nat -> Prop) (h g : heap) : Prop :=
  (forall a b, R a b -> exists k m, nth_error h a = Some k /\ nth_error g b = Some m /\ same_cell R k m)
  /\ (forall a b a' b', R a b -> R a' b' -> (a = a' <-> b = b')).
(* the values vs in h and ws in g make up the same graph: same objects, same sharing, other addresses *)
Definition alike (h : heap) (vs : list hval) (g : heap) (ws : list hval) : Prop := exists R, pairs R h g /\ Forall2 (same_value R) vs ws.

(* every reference below l leads somewhere *)
Definition sound_below (h : heap) (l : nat) : Prop := forall m, reach h (HRef l) m -> (m < List.length h)%nat.
(* no object or list belongs to both *)
Definition unrelated (h : heap) (l m : nat) : Prop := forall k, reach h (HRef l) k -> ~ reach h (HRef m) k.

(* the calls cs one after the other, with nobody else: the first exception, the heap, the buffer *)
Fixpoint alone (E : env) (h : heap) (b : bytebuf) (cs : list call) : option exn * heap * bytebuf :=
  match cs with
  | [] => (None, h, b)
  | c :: r =>
      match (match does c with Encodes => hencode | Decodes => hdecode end) E (deep c) h (HRef (on c)) b with
      | (None, h', b') => alone E h' b' r
      | x => x
      end
  end.
Definition targets (cs : list call) : list hval := map (fun c => HRef (on c)) cs.
