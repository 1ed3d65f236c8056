(* Several calls of encode at the same time: when they do not concern each other. *)
From Coq Require Import ZArith List Bool String.
From Verif.Model Require Import JavaPrim ByteBuf Ast Interp Heap.
From Verif.Spec Require Import Bytes Wire Sharing.
Import ListNotations.

(* a thread: the message it encodes, how many calls fit on its stack, the buffer it writes to *)
Record job := { whom : nat; limit : nat; into : bytebuf }.

(* the objects below r have no length and no checksum field *)
Definition plain_below (Y : layouts) (h : heap) (r : nat) : Prop :=
  forall c fs f v m c' gs g, nth_error h r = Some (CObj c fs) -> In (f, v) fs -> reach h v m -> nth_error h m = Some (CObj c' gs) -> ~ computed Y c' g.
(* c has a checksum field, for the service called alg *)
Definition checksummed (Y : layouts) (c alg : string) : Prop := exists L f n o, find c Y = Some L /\ In (f, WSum n o alg) L.
(* two threads with the same message: what is unread in their buffers is equal, or the message has no checksum that some service computes *)
Definition agreed (Y : layouts) (E : env) (h : heap) (i j : job) : Prop :=
  whom i = whom j -> forall c fs alg, nth_error h (whom i) = Some (CObj c fs) -> checksummed Y c alg -> checksum E alg <> None -> readable (into i) = readable (into j).
