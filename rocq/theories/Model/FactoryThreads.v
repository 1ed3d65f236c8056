(* SseBinary.BodyMessageFactory (SseBinary.java:129-225) used by several threads, each of which makes any number of calls.

   The methods are not synchronised.  register (lines 209-212) puts into bodyMap (line 210) and then into reverseMap (line 211); other
   threads may run in between.  create (201-207) reads bodyMap once into a local variable, remove (214-216) and getMsgType (218-220)
   make one HashMap call each.  Simplification: each HashMap call is one atomic step that all threads see (HashMap itself promises less). *)
From Coq Require Import ZArith List Bool String.
From Verif.Model Require Import JavaPrim ByteBuf Ast Factory.
Import ListNotations.

(* PReg clazz t c: register(clazz, t, c::new) *)
Inductive fcall := PReg (clazz : string) (t : Z) (c : string) | PRem (t : Z) | PCreate (t : Z) | PType (clazz : string).
Inductive fanswer := QReg (clazz : string) (t : Z) (c : string) | QRem (t : Z) (r : bool) | QCreate (t : Z) (r : exn + string) | QType (clazz : string) (r : option Z).

(* calls still to make, the register call it is in the middle of, the answers it got (latest last) *)
Record fthread := { ftodo : list fcall; fmid : option (string * Z * string); fgot : list fanswer }.
Definition fstart (p : list fcall) : fthread := {| ftodo := p; fmid := None; fgot := [] |}.

Definition fthread_step (s : sse_factory) (u : fthread) : sse_factory * fthread :=
  match fmid u with
  | Some (clazz, t, c) => ({| body_map := body_map s; reverse_map := r_put (reverse_map s) clazz t |}, {| ftodo := ftodo u; fmid := None; fgot := fgot u ++ [QReg clazz t c] |})
  | None =>
      match ftodo u with
      | [] => (s, u)
      | PReg clazz t c :: r => ({| body_map := f_put (body_map s) (KInt t) c; reverse_map := reverse_map s |}, {| ftodo := r; fmid := Some (clazz, t, c); fgot := fgot u |})
      | PRem t :: r => (snd (sse_unregister s t), {| ftodo := r; fmid := None; fgot := fgot u ++ [QRem t (fst (sse_unregister s t))] |})
      | PCreate t :: r => (s, {| ftodo := r; fmid := None; fgot := fgot u ++ [QCreate t (sse_create s t)] |})
      | PType clazz :: r => (s, {| ftodo := r; fmid := None; fgot := fgot u ++ [QType clazz (sse_get_msg_type s clazz)] |})
      end
  end.

(* thread number i makes a step (nothing happens if there is no such thread) *)
Fixpoint fstep (i : nat) (s : sse_factory) (us : list fthread) : sse_factory * list fthread :=
  match us, i with
  | [], _ => (s, [])
  | u :: r, O => let '(s', u') := fthread_step s u in (s', u' :: r)
  | u :: r, S j => let '(s', r') := fstep j s r in (s', u :: r')
  end.
Fixpoint fsteps (sched : list nat) (s : sse_factory) (us : list fthread) : sse_factory * list fthread :=
  match sched with
  | [] => (s, us)
  | i :: r => let '(s', us') := fstep i s us in fsteps r s' us'
  end.
