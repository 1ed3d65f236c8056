(* Programs that use the library: any sequence of the calls javac lets them make, on any objects, lists and buffers, run as the library's Java text.
   What a program computes by itself (numbers, strings, which call comes next) is not restricted: a program here is the sequence of calls that one of its runs makes.
   java.util.List and ByteBuf methods the program calls itself are their effects: a list holds any values of its element type, a buffer any bytes. *)
From Coq Require Import ZArith List Bool String.
From Verif.Model Require Import JavaPrim ByteBuf Checksum Ast Interp Factory Show Heap Library.
From Verif.Java Require Import Lex Syntax Source Sources Sem CodecTrees Init Program.
From Verif.Spec Require Import Access Sharing JavaState JavaRun.
Import ListNotations.
Open Scope Z_scope.
Open Scope list_scope.

(* i, j: numbers of variables; n: number of a buffer.  A call that returns a value puts it into a new variable. *)
Inductive op :=
| OValue (t : ftype) (v : hval)              (* a number or string the program computed, or null *)
| ONew (c : string)                          (* new C() *)
| ONewList (u : ftype)                       (* new ArrayList<U>() *)
| OFill (i : nat) (js : list (option nat))   (* add, set, remove, clear, sort, ... on list i: afterwards it holds these variables; None: null *)
| OElem (i : nat) (z : Z)                    (* list.get(z) *)
| OCast (c : string) (i : nat)               (* x instanceof C ? (C) x : null *)
| OGet (i : nat) (f : string)                (* x.getF() *)
| OSet (i : nat) (f : string) (j : nat)      (* x.setF(y) *)
| OBuf (b : bytebuf)                         (* a new buffer with any content *)
| OTouch (n : nat) (b : bytebuf)             (* the program reads or writes buffer n, which is then b *)
| OEncode (i n : nat)                        (* x.encode(buf) *)
| ODecode (i n : nat)                        (* x.decode(buf) *)
| OEquals (i j : nat)                        (* x.equals(y) *)
| OHash (i : nat)                            (* x.hashCode() *)
| OString (i : nat)                          (* x.toString() *)
| OCalc (c : string) (n : nat)               (* new C().calc(buf), C a checksum service *)
| OCall (x : call).                          (* registry, factories *)

(* ---------- what javac checks ---------- *)
Definition flat (t : ftype) : Prop := match t with TList (TList _) => False | _ => True end.
Definition scalar (t : ftype) (v : hval) : Prop := match v with HRef _ => False | _ => flat t /\ fits [] v t end.
Definition assignable (t u : ftype) : Prop := t = u \/ (u = TCodec /\ exists c, t = TObj c).
Definition receiver (t : ftype) : Prop := t = TCodec \/ exists c, t = TObj c.
Definition calc_classes : list string := ["Crc16ChecksumService"; "Crc32ChecksumService"; "SseBinChecksumService"; "SzseBinChecksumService"]%string.
(* G: types of the variables so far; n: number of buffers so far *)
Inductive accepts (G : list ftype) (n : nat) : op -> list ftype -> nat -> Prop :=
| a_value t v : scalar t v -> accepts G n (OValue t v) (G ++ [t]) n
| a_new c : assoc c lib_classes <> None -> accepts G n (ONew c) (G ++ [TObj c]) n
| a_list u : flat (TList u) -> accepts G n (ONewList u) (G ++ [TList u]) n
| a_fill i js u : nth_error G i = Some (TList u) -> Z.of_nat (List.length js) < 2 ^ 31 -> (forall j, In (Some j) js -> exists t, nth_error G j = Some t /\ assignable t u) -> accepts G n (OFill i js) G n
| a_elem i z u : nth_error G i = Some (TList u) -> accepts G n (OElem i z) (G ++ [u]) n
| a_cast c i t : assoc c lib_classes <> None -> nth_error G i = Some t -> receiver t -> accepts G n (OCast c i) (G ++ [TObj c]) n
| a_get i f c cd t : nth_error G i = Some (TObj c) -> assoc c lib_classes = Some cd -> In (f, t) (c_fields cd) -> accepts G n (OGet i f) (G ++ [t]) n
| a_set i f j c cd t u : nth_error G i = Some (TObj c) -> assoc c lib_classes = Some cd -> In (f, u) (c_fields cd) -> nth_error G j = Some t -> assignable t u -> accepts G n (OSet i f j) G n
| a_buf b : buf_wf b = true -> accepts G n (OBuf b) G (S n)
| a_touch m b : (m < n)%nat -> buf_wf b = true -> accepts G n (OTouch m b) G n
| a_encode i m t : nth_error G i = Some t -> receiver t -> (m < n)%nat -> accepts G n (OEncode i m) G n
| a_decode i m t : nth_error G i = Some t -> receiver t -> (m < n)%nat -> accepts G n (ODecode i m) G n
| a_equals i j t u : nth_error G i = Some t -> receiver t -> nth_error G j = Some u -> accepts G n (OEquals i j) G n
| a_hash i t : nth_error G i = Some t -> receiver t -> accepts G n (OHash i) (G ++ [TInt]) n
| a_string i t : nth_error G i = Some t -> receiver t -> accepts G n (OString i) (G ++ [TStr]) n
| a_calc c m : In c calc_classes -> (m < n)%nat -> accepts G n (OCalc c m) (G ++ [TInt]) n
| a_call x : sensible x -> accepts G n (OCall x) (match x with CCreate _ _ => G ++ [TCodec] | _ => G end) n.
Inductive accepted : list (nat * op) -> list ftype -> nat -> list ftype -> nat -> Prop :=
| acc_nil G n : accepted [] G n G n
| acc_cons d o p G n G1 n1 G2 n2 : accepts G n o G1 n1 -> accepted p G1 n1 G2 n2 -> accepted ((d, o) :: p) G n G2 n2.

(* ---------- what happens ---------- *)
Record client := { c_heap : heap; c_stat : list (string * jval); c_vars : list (ftype * hval); c_bufs : list bytebuf }.
Definition no_buf : bytebuf := {| arr := []; ridx := 0; widx := 0; maxcap := 0; cs_slack := false; policy := {| extra := fun _ => 0%nat; fill := fun _ => 0 |} |}.
Definition var (s : client) (i : nat) : hval := match nth_error (c_vars s) i with Some (_, v) => v | None => HNull end.
Definition type_at (s : client) (i : nat) : ftype := match nth_error (c_vars s) i with Some (t, _) => t | None => TCodec end.
Definition jvar (s : client) (i : nat) : jval := JT (type_name (type_at s i)) (var s i).
Definition buf (s : client) (n : nat) : bytebuf := nth n (c_bufs s) no_buf.
Definition push (s : client) (t : ftype) (v : hval) : client := {| c_heap := c_heap s; c_stat := c_stat s; c_vars := c_vars s ++ [(t, v)]; c_bufs := c_bufs s |}.
Definition set_heap (s : client) (h : heap) : client := {| c_heap := h; c_stat := c_stat s; c_vars := c_vars s; c_bufs := c_bufs s |}.
Definition set_bufs (s : client) (bs : list bytebuf) : client := {| c_heap := c_heap s; c_stat := c_stat s; c_vars := c_vars s; c_bufs := bs |}.

(* readCharSequence of netty 4.1.100 can leave the reader index behind the writer index (cs_slack in ByteBuf.v).  A program does not use such a buffer again: here it is replaced by an empty one of capacity 0 *)
Definition settle (b : bytebuf) : bytebuf := if Nat.leb (ridx b) (widx b) then b else no_buf.
(* what a call looks like to the program: the value, or the exception, which it catches *)
Definition reply : Type := (exn + jval)%type.
(* the call f into the library, with buffer n.  [t]: type of the variable for the result; it holds its default value after an exception *)
Definition perform (s : client) (n : nat) (t : option ftype) (f : st -> res jval) : option (reply * client) :=
  let after (v : option jval) (s' : st) :=
    {| c_heap := s_h s'; c_stat := s_stat s';
       c_vars := c_vars s ++ match t with Some t => [(t, match v with Some (JT _ w) => w | _ => hdefault t end)] | None => [] end;
       c_bufs := upd (c_bufs s) n (settle (s_b s')) |} in
  match f (at_rest (c_heap s) (buf s n) (c_stat s)) with
  | Ret v s' => Some (inr v, after (Some v) s')
  | Exc e s' => Some (inl e, after None s')
  | Bad => None
  end.
(* x.m(args) *)
Definition send (pr : printers) (k d : nat) (v : hval) (m : string) (args : list jval) (s : st) : res jval :=
  match v with HNull => Exc NPE s | HRef l => invoke pr k d l m args s | _ => Bad end.
Definition boxed (t : ftype) : bool := match t with TByte | TShort | TInt | TLong | TFloat | TDouble => true | _ => false end.
Definition client_step (pr : printers) (k d : nat) (o : op) (s : client) : option (reply * client) :=
  let none := List.length (c_bufs s) in                                        (* no buffer *)
  match o with
  | OValue t v => Some (inr (JT (type_name t) v), push s t v)
  | ONew c => perform s none (Some (TObj c)) (create_new c)
  | ONewList u => let '(h, v) := alloc_cell (c_heap s) (CList []) in Some (inr (JT (type_name (TList u)) v), push (set_heap s h) (TList u) v)
  | OFill i js => match var s i with
                  | HNull => Some (inl NPE, s)
                  | HRef l => match nth_error (c_heap s) l with
                              | Some (CList _) => Some (inr JVoid, set_heap s (upd (c_heap s) l (CList (map (fun j => match j with Some j => var s j | None => HNull end) js))))
                              | _ => None
                              end
                  | _ => None
                  end
  | OElem i z => match type_at s i, var s i with
                 | TList u, HNull => Some (inl NPE, push s u (hdefault u))
                 | TList u, HRef l => match nth_error (c_heap s) l with
                              | Some (CList vs) => if z <? 0 then Some (inl IOOBE, push s u (hdefault u))
                                                   else match nth_error vs (Z.to_nat z) with
                                                        | Some HNull => if boxed u then Some (inl NPE, push s u (hdefault u)) else Some (inr (JT (type_name u) HNull), push s u HNull)    (* int x = list.get(z) *)
                                                        | Some v => Some (inr (JT (type_name u) v), push s u v)
                                                        | None => Some (inl IOOBE, push s u (hdefault u))
                                                        end
                              | _ => None
                              end
                 | _, _ => None
                 end
  | OCast c i => let v := if String.eqb (class_of (c_heap s) (var s i)) c then var s i else HNull in Some (inr (JT (T1 c) v), push s (TObj c) v)
  | OGet i f => match type_at s i with
                | TObj c => match assoc c lib_classes with Some cd => perform s none (Some (type_of f (c_fields cd))) (send pr k d (var s i) (getter f) []) | None => None end
                | _ => None
                end
  | OSet i f j => perform s none None (send pr k d (var s i) (setter f) [jvar s j])
  | OBuf b => Some (inr JBuf, set_bufs s (c_bufs s ++ [b]))
  | OTouch n b => Some (inr JVoid, set_bufs s (upd (c_bufs s) n b))
  | OEncode i n => perform s n None (send pr k d (var s i) "encode"%string [JBuf])
  | ODecode i n => perform s n None (send pr k d (var s i) "decode"%string [JBuf])
  | OEquals i j => perform s none None (send pr k d (var s i) "equals"%string [JT (T1 "Object") (var s j)])
  | OHash i => perform s none (Some TInt) (send pr k d (var s i) "hashCode"%string [])
  | OString i => perform s none (Some TStr) (send pr k d (var s i) "toString"%string [])
  | OCalc c n => perform s n (Some TInt) (invoke_on pr k d c "calc"%string [JBuf])
  | OCall x => perform s none (match x with CCreate _ _ => Some TCodec | _ => None end) (java_call pr k d x)
  end.
(* each call with the stack depth left for it *)
Fixpoint client_run (pr : printers) (k : nat) (p : list (nat * op)) (s : client) : option (list reply * client) :=
  match p with
  | [] => Some ([], s)
  | (d, o) :: r => match client_step pr k d o s with
                   | Some (x, s1) => match client_run pr k r s1 with Some (xs, s2) => Some (x :: xs, s2) | None => None end
                   | None => None
                   end
  end.

(* ---------- what a program can rely on ---------- *)
Definition is_value (v : jval) : Prop := exists t w, v = JT t w.
Definition java_int (v : jval) : Prop := exists t z, v = JT t (HInt z) /\ - 2 ^ 31 <= z < 2 ^ 31.
Definition may (es : list exn) (p : jval -> Prop) (r : reply) : Prop := match r with inl e => In e es | inr v => p v end.
Definition outcome (o : op) (r : reply) : Prop :=
  match o with
  | OValue _ _ | ONew _ | ONewList _ | OCast _ _ => may [] is_value r
  | OBuf _ => may [] (eq JBuf) r
  | OTouch _ _ => may [] (eq JVoid) r
  | OFill _ _ => may [NPE] (eq JVoid) r
  | OElem _ _ => may [NPE; IOOBE] is_value r
  | OGet _ _ => may [NPE; SOE] is_value r
  | OSet _ _ _ => may [NPE; SOE] (eq JVoid) r
  | OEncode _ _ => may [NPE; IOOBE; SOE] (eq JVoid) r
  | ODecode _ _ => may [NPE; IOOBE; IAE; SOE] (eq JVoid) r
  | OEquals _ _ => may [NPE; SOE] (fun v => exists b, v = JB b) r
  | OHash _ => may [NPE; SOE] java_int r
  | OString _ => may [NPE; SOE] (fun v => exists u, v = jstr u) r
  | OCalc _ _ => may [] java_int r
  | OCall x => may (match x with CCreate _ _ | CFromValue _ => [IAE] | _ => [] end) (fun _ => True) r
  end.
(* the state of a running program: every variable holds a value of its type, and the same of all objects, lists and buffers *)
Definition in_order (s : client) (G : list ftype) (n : nat) : Prop :=
  heap_ok lib_classes (c_heap s) /\ (forall l vs, nth_error (c_heap s) l = Some (CList vs) -> Z.of_nat (List.length vs) < 2 ^ 31)
  /\ (exists R W V, running (c_stat s) R W V)
  /\ Forall2 (fun x t => fst x = t /\ fits (c_heap s) (snd x) t) (c_vars s) G
  /\ Forall (fun b => buf_wf b = true) (c_bufs s) /\ List.length (c_bufs s) = n.
