(* A thread that calls decode while other threads call register and remove of the message factories (e.g. RootPacket.java:134-140).
   decode as in DecodeThreads.v, one statement at a time.  decode asks a factory in one statement (RootPacket.java:76), whose create
   (RootPacket.java:126-132) makes one HashMap call:
     this.payload = PayloadFactory.getInstance().create(this.msgType);
   register and remove make one HashMap call on the map that create reads (register of SseBinary.java:209-212 one more, on reverseMap,
   which decode does not use), so what the other threads do is a sequence of such calls, in any order.

   Simplifications: each HashMap call is one atomic step that all threads see; so is each statement; the checksum registry is not used
   by decode. *)
From Coq Require Import ZArith List Bool String.
From Verif.Model Require Import JavaPrim ByteBuf Checksum Ast Interp Factory Heap DecodeThreads.
Import ListNotations.

(* whose turn it is: the thread that decodes, or another one that calls register(k, c::new) or remove(k) on the factory of a class *)
Inductive fturn := FMine | FReg (owner : string) (k : key) (c : string) | FRem (owner : string) (k : key).
Definition changed (x : fturn) (W : factories) : factories :=
  match x with
  | FMine => W
  | FReg o k c => on_factory W o (fun m => register m k c)
  | FRem o k => on_factory W o (fun m => snd (unregister m k))
  end.
(* C, R: classes and checksum registry *)
Fixpoint decode_run (C : list (string * class_def)) (R : cache) (sched : list fturn) (W : factories) (h : heap) (t : decoder) : factories * heap * decoder :=
  match sched with
  | [] => (W, h, t)
  | FMine :: r => let '(h', t') := decoder_step (env_of C W R) h t in decode_run C R r W h' t'
  | x :: r => decode_run C R r (changed x W) h t
  end.
