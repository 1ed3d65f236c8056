(* Threads that call decode or encode at the same time, on messages of one heap, each with its own buffer.  encode: EncodeThreads.v; decode:
   the methods are those of Heap.v (Gen*.v, forms in Ast.v; e.g. RootPacket.java:73-79), here one statement at a time: between two
   statements of a thread, or two iterations of a loop, other threads may run.

   Simplifications: a statement is one atomic step that all threads see; the factories and the checksum registry do not change (FactoryRace.v lets the factories). *)
From Coq Require Import ZArith List Bool String.
From Verif.Model Require Import JavaPrim ByteBuf Utf8 Codec Ast Interp Heap EncodeThreads.
Import ListNotations.
Open Scope Z_scope.

(* the call stack, innermost first: the statements still to execute (of decode of class c), the iterations of a list loop still to do, or the
   element to be added to the list when its decode has returned *)
Inductive ditem :=
| DBody (this : nat) (c : string) (ss : list dstmt)
| DLoop (this : nat) (f : string) (y : delem) (n : nat)
| DAdd (this : nat) (f : string) (x : hval).
Record decoder := { dstack : list ditem; droom : nat (* calls that still fit on the stack *); src : bytebuf; dended : option (option exn) }.

(* v.decode(byteBuf): dispatch as in Heap.hdecode; k: what is to be done after the call *)
Definition denter (E : env) (h : heap) (v : hval) (k : list ditem) (d : nat) (b : bytebuf) : decoder :=
  let stop e := {| dstack := []; droom := d; src := b; dended := Some (Some e) |} in
  match v, d with
  | HNull, _ => stop NPE
  | _, O => stop SOE
  | HRef l, S d' =>
      match nth_error h l with
      | Some (CObj c _) => match find_class E c with
                           | Some cd => {| dstack := DBody l c (c_dec cd) :: k; droom := d'; src := b; dended := None |}
                           | None => stop TYPE
                           end
      | _ => stop TYPE
      end
  | _, _ => stop TYPE
  end.

(* after a statement without calls *)
Definition dgoes_on (k : list ditem) (d : nat) (e : option exn) (b : bytebuf) : decoder :=
  match e with
  | None => {| dstack := k; droom := d; src := b; dended := None |}
  | Some e => {| dstack := []; droom := d; src := b; dended := Some (Some e) |}
  end.

(* one step: a statement, an iteration of a loop, or the return from a call *)
Definition decoder_step (E : env) (h : heap) (t : decoder) : heap * decoder :=
  let d := droom t in
  let b := src t in
  match dended t, dstack t with
  | Some _, _ => (h, t)
  | None, [] => (h, {| dstack := []; droom := d; src := b; dended := Some None |})
  | None, DBody this c [] :: k => (h, dgoes_on k (S d) None b)
  | None, DBody this c (s :: r) :: k =>
      let k' := DBody this c r :: k in
      match s with
      | DObj f => (h, denter E h (field h this f) k' d b)
      | DList f n o y =>
          match read_bytes n b with
          | (inl e, b') => (h, dgoes_on k' d (Some e) b')
          | (inr bs, b') =>
              let len := get_int o bs in
              if len >? 0 then
                let '(h1, l) := alloc_cell h (CList []) in
                (put_field h1 this f l, dgoes_on (DLoop this f y (Z.to_nat len) :: k') d None b')
              else (h, dgoes_on k' d None b')
          end
      | _ => let '(e, (h', b')) := hexec_dstmt no_call (hnew E) (factory E c) this s (h, b) in (h', dgoes_on k' d e b')
      end
  | None, DLoop this f y O :: k => (h, dgoes_on k d None b)
  | None, DLoop this f y (S n) :: k =>
      match y with
      | YObj c => let '(h1, x) := hnew E h c in (h1, denter E h1 x (DAdd this f x :: DLoop this f y n :: k) d b)
      | _ => let '(e, (h', b')) := hdec_elem no_call (hnew E) this f y (h, b) in (h', dgoes_on (DLoop this f y n :: k) d e b')
      end
  | None, DAdd this f x :: k => (list_add h (field h this f) x, dgoes_on k d None b)
  end.

(* a thread *)
Inductive thread := Encoding (t : encoder) | Decoding (t : decoder).
Definition thread_step (E : env) (h : heap) (t : thread) : heap * thread :=
  match t with
  | Encoding t => let '(h', t') := encoder_step E h t in (h', Encoding t')
  | Decoding t => let '(h', t') := decoder_step E h t in (h', Decoding t')
  end.
(* None: still running; Some None: returned; Some (Some e): threw e *)
Definition finished (t : thread) : option (option exn) := match t with Encoding t => ended t | Decoding t => dended t end.
Definition its_buffer (t : thread) : bytebuf := match t with Encoding t => out t | Decoding t => src t end.

(* a program of one thread: calls of encode and decode on messages, one after the other, with one buffer; an exception ends it.
   No code of /repo: this is what a user of the library runs in a thread *)
Inductive op := Encodes | Decodes.
Record call := { does : op; on : nat (* where the message is *); deep : nat (* calls that fit on the stack *) }.
Record worker := { now : thread; todo : list call }.
Definition starts (E : env) (h : heap) (b : bytebuf) (c : call) : thread :=
  match does c with
  | Encodes => Encoding (begin E h (HRef (on c)) (deep c) b)
  | Decodes => Decoding (denter E h (HRef (on c)) [] (deep c) b)
  end.
Definition ready (b : bytebuf) (cs : list call) : worker := {| now := Encoding {| stack := []; room := 0; out := b; ended := Some None |}; todo := cs |}.
Definition worker_step (E : env) (h : heap) (w : worker) : heap * worker :=
  match finished (now w), todo w with
  | None, cs => let '(h', t) := thread_step E h (now w) in (h', {| now := t; todo := cs |})
  | Some None, c :: r => (h, {| now := starts E h (its_buffer (now w)) c; todo := r |})
  | _, _ => (h, w)
  end.
(* None: still running; Some None: all calls have returned; Some (Some e): e has been thrown *)
Definition done (w : worker) : option (option exn) :=
  match finished (now w), todo w with
  | Some (Some e), _ => Some (Some e)
  | Some None, [] => Some None
  | _, _ => None
  end.

(* worker number i makes a step (nothing happens if there is no such worker) *)
Fixpoint workers_step (E : env) (i : nat) (h : heap) (ws : list worker) : heap * list worker :=
  match ws, i with
  | [], _ => (h, [])
  | w :: r, O => let '(h', w') := worker_step E h w in (h', w' :: r)
  | w :: r, S j => let '(h', r') := workers_step E j h r in (h', w :: r')
  end.
Fixpoint workers_run (E : env) (sched : list nat) (h : heap) (ws : list worker) : heap * list worker :=
  match sched with
  | [] => (h, ws)
  | i :: r => let '(h', ws') := workers_step E i h ws in workers_run E r h' ws'
  end.
