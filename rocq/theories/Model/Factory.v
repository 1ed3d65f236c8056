(* Message factories: the nested enums  <X>MessageFactory  of the frame and extension classes, e.g.
   sample-bin/.../RootPacket.java (PayloadMessageFactory), sse-bin/.../SseBinary.java (BodyMessageFactory),
   szse-bin/.../NewOrder.java (ApplExtendMessageFactory), and the private static map of
   TradeCaptureCofirm.java (no register/remove API).

   State: HashMap<key, Supplier>.  A supplier  C::new  is represented by the class name C.  Simplification:
   suppliers are constructors of library classes. *)
From Coq Require Import ZArith List Bool String.
From Verif.Model Require Import JavaPrim ByteBuf Checksum Ast Interp.
Import ListNotations.

Definition fmap := list (key * string).

Fixpoint f_get (m : fmap) (k : key) : option string :=
  match m with
  | [] => None
  | (k', c) :: r => if key_eqb k k' then Some c else f_get r k
  end.
Definition f_remove (m : fmap) (k : key) : fmap := filter (fun e => negb (key_eqb k (fst e))) m.
Definition f_put (m : fmap) (k : key) (c : string) : fmap := (k, c) :: f_remove m k.

(* RootPacket.java:134-136 register(key, supplier): map.put *)
Definition register (m : fmap) (k : key) (c : string) : fmap := f_put m k c.
(* RootPacket.java:138-140 remove(key): return null != map.remove(key) *)
Definition unregister (m : fmap) (k : key) : bool * fmap :=
  (match f_get m k with Some _ => true | None => false end, f_remove m k).
(* RootPacket.java:126-132 create(key): IllegalArgumentException when absent, else supplier.get() *)
Definition create (m : fmap) (k : key) : exn + string :=
  match f_get m k with Some c => inr c | None => inl IAE end.

(* the static initialiser: register calls in order, e.g. RootPacket.java:119-124 *)
Definition static_init (es : list (key * string)) : fmap :=
  fold_left (fun m e => register m (fst e) (snd e)) es [].

(* sse-bin/.../SseBinary.java BodyMessageFactory: two maps *)
Record sse_factory := { body_map : fmap; reverse_map : list (string * Z) }.
Fixpoint r_put (m : list (string * Z)) (c : string) (t : Z) : list (string * Z) :=
  match m with
  | [] => [(c, t)]
  | (c', t') :: r => if String.eqb c c' then (c, t) :: r else (c', t') :: r_put r c t
  end.
(* SseBinary.java:209-212 register(clazz, msgType, supplier): bodyMap.put(msgType, supplier); reverseMap.put(clazz, msgType) *)
Definition sse_register (s : sse_factory) (clazz : string) (t : Z) (c : string) : sse_factory :=
  {| body_map := f_put (body_map s) (KInt t) c; reverse_map := r_put (reverse_map s) clazz t |}.
(* SseBinary.java:214-216 remove(msgType): bodyMap only; 201-207 create *)
Definition sse_unregister (s : sse_factory) (t : Z) : bool * sse_factory :=
  let '(r, m) := unregister (body_map s) (KInt t) in (r, {| body_map := m; reverse_map := reverse_map s |}).
Definition sse_create (s : sse_factory) (t : Z) : exn + string := create (body_map s) (KInt t).
(* SseBinary.java:218-220 getMsgType(clazz): null when absent *)
Definition sse_get_msg_type (s : sse_factory) (clazz : string) : option Z := assoc clazz (reverse_map s).
(* SseBinary.java:160-167 MessageType.fromValue: first constant with that value, else IllegalArgumentException *)
Fixpoint from_value (ts : list (string * Z)) (v : Z) : exn + string :=
  match ts with
  | [] => inl IAE
  | (n, t) :: r => if Z.eqb t v then inr n else from_value r v
  end.

(* all factories of the library, by owning class *)
Definition factories := list (string * fmap).
Definition lookup_factory (W : factories) (owner : string) (k : key) : option string :=
  match assoc owner W with Some m => f_get m k | None => None end.

(* register/remove on the factory of one class; the others are different enum singletons with their own map *)
Fixpoint on_factory (W : factories) (owner : string) (f : fmap -> fmap) : factories :=
  match W with
  | [] => []
  | (o, m) :: r => if String.eqb owner o then (o, f m) :: r else (o, m) :: on_factory r owner f
  end.

(* the world seen by encode/decode *)
Definition env_of (cs : list (string * class_def)) (W : factories) (R : cache) : env :=
  {| classes := cs; factory := lookup_factory W;
     checksum := fun name => option_map calc (get_service R name) |}.
