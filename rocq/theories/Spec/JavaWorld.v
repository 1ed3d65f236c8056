(* The library inside a larger program: other classes, other objects in the heap, other static fields.  [inside]: the library's part of the
   larger program's state, at other addresses. *)
From Coq Require Import ZArith List Bool String Ascii.
From Verif.Model Require Import JavaPrim ByteBuf Ast Interp Show Heap.
From Verif.Java Require Import Syntax Sem Program.
Import ListNotations.
Open Scope list_scope.
Open Scope nat_scope.

(* ---------- names ---------- *)
(* up to the first dot *)
Fixpoint head (s : string) : string := match s with EmptyString => EmptyString | String a r => if Ascii.eqb a "." then EmptyString else String a (head r) end.
Fixpoint dotless (s : string) : bool := match s with EmptyString => true | String a r => negb (Ascii.eqb a ".") && dotless r end.
(* the library's packages (those of Program.v), the classes of its codec package, and java.* *)
Definition heads : list string :=
  [""; "java"; "sample"; "risk"; "sse"; "szse"; "bjse"; "BitMap"; "ByteBitMap"; "IntBitMap"; "LongBitMap"; "ShortBitMap"; "BinaryCodec"; "ChecksumAlgorithms"; "ChecksumService";
   "ChecksumServiceFactory"; "Crc16ChecksumService"; "Crc32ChecksumService"; "SseBinChecksumService"; "SzseBinChecksumService"]%string.
Definition library_name (c : string) : bool := existsb (String.eqb (head c)) heads.
(* names of the library or of the classes it imports: what the library's text can mean.  Other classes are in other packages. *)
Definition known (c : string) : bool := library_name c || dotless c.

(* the larger program: the library's classes, and classes with other names *)
Definition extends (P : program) : Prop := forall c, known c = true -> assoc c P = assoc c lib_program.
(* its other static fields *)
Definition foreign (ext : list (string * jval)) : Prop :=
  (forall c y, library_name c = true -> assoc (c ++ "." ++ y)%string ext = None) /\ forall c x, known c = true -> dotless x = true -> assoc (c ++ "." ++ x)%string ext = None.

(* ---------- states ---------- *)
(* f: where the library's object number l is *)
Definition hval_in (f : list nat) (a b : hval) : Prop :=
  match a, b with HRef l, HRef m => nth_error f l = Some m | HRef _, _ | _, HRef _ => False | _, _ => a = b end.
Definition cell_in (f : list nat) (a b : cell) : Prop :=
  match a, b with
  | CObj c fs, CObj c' gs => c' = c /\ known c = true /\ Forall2 (fun x y => fst y = fst x /\ hval_in f (snd x) (snd y)) fs gs
  | CList vs, CList ws => Forall2 (hval_in f) vs ws
  | _, _ => False
  end.
Definition heap_in (f : list nat) (h H : heap) : Prop :=
  List.length f = List.length h /\ NoDup f /\ forall l m, nth_error f l = Some m -> exists a b, nth_error h l = Some a /\ nth_error H m = Some b /\ cell_in f a b.
Definition plain_value (v : jval) : bool := match v with JB _ | JVoid | JBuf | JBytes _ | JCharset | JSvc _ _ | JArr _ => true | _ => false end.
Inductive jval_in (f : list nat) : jval -> jval -> Prop :=
| in_plain v : plain_value v = true -> jval_in f v v
| in_t t a b : hval_in f a b -> jval_in f (JT t a) (JT t b)
| in_one c : known c = true -> jval_in f (JOne c) (JOne c)
| in_const c x : library_name c = true -> jval_in f (JConst c x) (JConst c x)
| in_sup c : jval_in f (JSup c) (JSup c)   (* C::new, of any class *)
| in_cls c : known c = true -> jval_in f (JCls c) (JCls c)
| in_vals vs ws : Forall2 (jval_in f) vs ws -> jval_in f (JVals vs) (JVals ws)
| in_map m n : (forall k, m k = None <-> n k = None) -> (forall k v w, m k = Some v -> n k = Some w -> jval_in f v w) -> jval_in f (JMap m) (JMap n).
Definition named_in {A} (R : A -> A -> Prop) (x y : string * A) : Prop := fst y = fst x /\ R (snd x) (snd y).
Definition inside (ext : list (string * jval)) (f : list nat) (s t : st) : Prop :=
  heap_in f (s_h s) (s_h t) /\ s_b t = s_b s
  /\ Forall2 (named_in (fun x y => fst y = fst x /\ jval_in f (snd x) (snd y))) (s_loc s) (s_loc t)
  /\ exists own, s_stat t = own ++ ext /\ Forall2 (named_in (jval_in f)) (s_stat s) own.
(* f lists objects of the library and lists, and everything they refer to *)
Definition whole (f : list nat) (H : heap) : Prop :=
  NoDup f /\ forall m, In m f -> exists c, nth_error H m = Some c
    /\ match c with
       | CObj n fs => known n = true /\ Forall (fun x => forall l, snd x = HRef l -> In l f) fs
       | CList vs => Forall (fun v => forall l, v = HRef l -> In l f) vs
       end.
(* what may happen to the larger state: new objects, and changes to the library's objects *)
Definition grown (f : list nat) (H : heap) (f' : list nat) (H' : heap) : Prop :=
  f' = f ++ seq (List.length H) (List.length H' - List.length H)
  /\ List.length H <= List.length H' /\ forall m, m < List.length H -> ~ In m f -> nth_error H' m = nth_error H m.
(* the end of a call in the library alone, and in the larger program *)
Definition ends_in {A} (R : list nat -> A -> A -> Prop) (ext : list (string * jval)) (f : list nat) (H : heap) (r r' : res A) : Prop :=
  match r with
  | Bad => True
  | Ret a s => exists f' a' t, r' = Ret a' t /\ grown f H f' (s_h t) /\ inside ext f' s t /\ R f' a a'
  | Exc e s => exists f' t, r' = Exc e t /\ grown f H f' (s_h t) /\ inside ext f' s t
  end.
