(* Several threads that call encode at the same time, on messages of one heap (perhaps on the same message), each with its own buffer.
   The methods are those of Heap.v (Gen*.v, forms in Ast.v; e.g. RootPacket.java:52-70), here one statement at a time: between two
   statements of a thread, or two elements of a list, other threads may run.

   Simplifications: a statement is one atomic step that all threads see (a statement reads or assigns at most one field that some encode
   assigns, so a finer division adds nothing but the Java memory model, which is not modelled); the checksum registry does not change (RegistryThreads.v lets it). *)
From Coq Require Import ZArith List Bool String.
From Verif.Model Require Import JavaPrim ByteBuf Utf8 Codec Ast Interp Heap.
Import ListNotations.
Open Scope Z_scope.

(* the call stack, innermost first: the statements of an encode still to execute with its int locals, or the elements of a list still to encode *)
Inductive item := Body (this : nat) (ss : list estmt) (loc : list (string * nat)) | Loop (x : eelem) (vs : list hval).
Record encoder := { stack : list item; room : nat (* calls that still fit on the stack *); out : bytebuf; ended : option (option exn) }.

(* v.encode(byteBuf): dispatch as in Heap.hencode; k: what is to be done after the call *)
Definition enter (E : env) (h : heap) (v : hval) (k : list item) (t : encoder) : encoder :=
  let stop e := {| stack := []; room := room t; out := out t; ended := Some (Some e) |} in
  match v, room t with
  | HNull, _ => stop NPE
  | _, O => stop SOE
  | HRef l, S d =>
      match nth_error h l with
      | Some (CObj c _) => match find_class E c with
                           | Some cd => {| stack := Body l (c_enc cd) [] :: k; room := d; out := out t; ended := None |}
                           | None => stop TYPE
                           end
      | _ => stop TYPE
      end
  | _, _ => stop TYPE
  end.
(* the first moment of a thread that calls v.encode(byteBuf) with d calls to go until the stack overflows *)
Definition begin (E : env) (h : heap) (v : hval) (d : nat) (b : bytebuf) : encoder :=
  enter E h v [] {| stack := []; room := d; out := b; ended := None |}.

(* after a statement without calls *)
Definition goes_on (k : list item) (d : nat) (e : option exn) (b : bytebuf) : encoder :=
  match e with
  | None => {| stack := k; room := d; out := b; ended := None |}
  | Some e => {| stack := []; room := d; out := b; ended := Some (Some e) |}
  end.
Definition no_call (h : heap) (v : hval) (b : bytebuf) : option exn * heap * bytebuf := (Some TYPE, h, b).

(* one step: a statement, an element of a list, or the return from a call *)
Definition encoder_step (E : env) (h : heap) (t : encoder) : heap * encoder :=
  match ended t, stack t with
  | Some _, _ => (h, t)
  | None, [] => (h, {| stack := []; room := room t; out := out t; ended := Some None |})
  | None, Body this [] loc :: k => (h, {| stack := k; room := S (room t); out := out t; ended := None |})
  | None, Body this (s :: r) loc :: k =>
      let k' := Body this r loc :: k in
      match s with
      | EObj f => (h, enter E h (field h this f) k' t)
      | EObjOpt f => match field h this f with
                     | HNull => (h, {| stack := k'; room := room t; out := out t; ended := None |})
                     | v => (h, enter E h v k' t)
                     end
      | EList f zn zo cast n o x =>
          match field h this f with
          | HNull => let '(e, b) := write_int zo zn 0 (out t) in (h, goes_on k' (room t) e b)
          | v => match elements h v with
                 | Some [] => let '(e, b) := write_int zo zn 0 (out t) in (h, goes_on k' (room t) e b)
                 | Some vs => let '(e, b) := write_int o n (wrap cast (Z.of_nat (List.length vs))) (out t) in (h, goes_on (Loop x vs :: k') (room t) e b)
                 | None => (h, goes_on k' (room t) (Some TYPE) (out t))
                 end
          end
      | _ => let '(e, (h', loc', b)) := hexec_estmt no_call (checksum E) this s (h, loc, out t) in (h', goes_on (Body this r loc' :: k) (room t) e b)
      end
  | None, Loop x [] :: k => (h, {| stack := k; room := room t; out := out t; ended := None |})
  | None, Loop x (v :: vs) :: k =>
      match x with
      | XObj => (h, enter E h v (Loop x vs :: k) t)
      | _ => let '(e, h', b) := henc_elem no_call x h v (out t) in (h', goes_on (Loop x vs :: k) (room t) e b)
      end
  end.

(* thread number i makes a step (nothing happens if there is no such thread) *)
Fixpoint encoders_step (E : env) (i : nat) (h : heap) (ts : list encoder) : heap * list encoder :=
  match ts, i with
  | [], _ => (h, [])
  | t :: r, O => let '(h', t') := encoder_step E h t in (h', t' :: r)
  | t :: r, S j => let '(h', r') := encoders_step E j h r in (h', t :: r')
  end.
Fixpoint encoders_run (E : env) (sched : list nat) (h : heap) (ts : list encoder) : heap * list encoder :=
  match sched with
  | [] => (h, ts)
  | i :: r => let '(h', ts') := encoders_step E i h ts in encoders_run E r h' ts'
  end.
