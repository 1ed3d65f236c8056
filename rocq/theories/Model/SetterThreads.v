(* A thread that calls encode while other threads call setters on objects of the same heap.
   encode as in EncodeThreads.v, one statement at a time; a setter assigns one field (e.g. RootPacket.java:23-25, this.msgType = msgType;).

   Simplifications: a step of encode and a call of a setter are atomic, and all threads see them. A step reads a field at most once:
   byteBuf.writeX(this.f) and writeFixedString(byteBuf, this.f, ...) are one step; a string with a length prefix is tested and then
   written (StringPacket.java:126-132), a body is tested and then encoded (RootPacket.java:58-60), which are two steps with a field read
   each. Only for lists one step does the work of several reads, which is why Spec/Torn.v has no setters of lists.
   The Java memory model is not modelled. *)
From Coq Require Import ZArith List Bool String.
From Verif.Model Require Import JavaPrim ByteBuf Utf8 Ast Interp Heap EncodeThreads.
Import ListNotations.

(* whose turn it is: the thread that encodes, or some thread that calls a setter: x.setF(v), x the object at l *)
Inductive moment := Turn | Sets (l : nat) (f : string) (v : hval).
(* tested: the next statement is a string with a length prefix that was not null or empty when it was tested, or a body that was not null *)
Record caller := { work : encoder; tested : bool }.
Definition untested (r : heap * encoder) : heap * caller := (fst r, {| work := snd r; tested := false |}).
Definition caller_step (E : env) (h : heap) (c : caller) : heap * caller :=
  let t := work c in
  match ended t, stack t with
  | None, Body this (EDyn f zn zo n o :: r) loc :: k =>
      if tested c then
        (* byte[] bytes = this.f.getBytes(StandardCharsets.UTF_8); byteBuf.writeX(bytes.length); byteBuf.writeBytes(bytes); *)
        let '(e, b) := match field h this f with
                       | HNull => (Some NPE, out t)
                       | HStr s => match write_int o n (Z.of_nat (List.length (utf8_encode s))) (out t) with
                                   | (None, b') => write_bytes (utf8_encode s) b'
                                   | x => x
                                   end
                       | _ => (Some TYPE, out t)
                       end in
        untested (h, goes_on (Body this r loc :: k) (room t) e b)
      else match field h this f with
           | HStr (_ :: _) => (h, {| work := t; tested := true |})
           | _ => untested (encoder_step E h t)   (* StringUtil.isNullOrEmpty(this.f): byteBuf.writeX(0) *)
           end
  | None, Body this (EObjOpt f :: r) loc :: k =>
      if tested c then untested (h, enter E h (field h this f) (Body this r loc :: k) t)   (* this.f.encode(byteBuf) *)
      else match field h this f with
           | HNull => untested (encoder_step E h t)
           | _ => (h, {| work := t; tested := true |})
           end
  | _, _ => untested (encoder_step E h t)
  end.
Definition moment_step (E : env) (m : moment) (h : heap) (c : caller) : heap * caller :=
  match m with Turn => caller_step E h c | Sets l f v => (put_field h l f v, c) end.
Fixpoint moments_run (E : env) (ms : list moment) (h : heap) (c : caller) : heap * caller :=
  match ms with
  | [] => (h, c)
  | m :: r => let '(h', c') := moment_step E m h c in moments_run E r h' c'
  end.
(* the first moment of a thread that calls v.encode(byteBuf) with d calls to go until the stack overflows *)
Definition calls_encode (E : env) (h : heap) (v : hval) (d : nat) (b : bytebuf) : caller := {| work := begin E h v d b; tested := false |}.
