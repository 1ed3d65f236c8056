(* What the Java trees of Syntax.v do: an interpreter for the part of the language and of its library that /repo uses (JLS 14, 15), over the
   heap of Model/Heap.v and the buffer of Model/ByteBuf.v.  It knows nothing about messages: it runs whatever tree it is given, statement by
   statement.

   Programs are taken to be accepted by javac.  Where a program could not have been, or uses something not covered, the result is [Bad];
   the theorems about the interpreter (Props/JavaMessageProps.v, Props/JavaStaticProps.v) say that it is not, so nothing rests on what was left out.

   Simplifications: a value carries its static type ([JT]) where Java's compiler would know it; locals shadow fields and fields shadow
   classes, as in JLS 6.4; a method is found by name and number of arguments (no two methods of one class agree in both); inherited methods
   are run with the names of the object's class in scope; frames are counted for calls on objects, not for calls of the form m(...) or on
   singletons; arrays and maps belong to one static or singleton field (they are not copied to other variables in /repo). *)
From Coq Require Import ZArith List Bool String Ascii.
From Verif.Model Require Import JavaPrim ByteBuf Utf8 Codec Ast Interp Show Heap.
From Verif.Java Require Import Lex Syntax.
Import ListNotations.
Open Scope Z_scope.
Open Scope list_scope.

(* keys of a HashMap *)
Inductive mkey := MNull | MKey (k : key) | MCls (c : string).

Inductive jval :=
| JT (t : ty) (v : hval)                    (* a number, a String, a reference, null; [t]: static type *)
| JB (b : bool)
| JVoid
| JBuf                                      (* the ByteBuf *)
| JBytes (bs : list Z)                      (* a byte[], each byte by its unsigned value *)
| JCharset
| JSvc (alg : list Z) (c : list Z -> Z)     (* a ChecksumService: what algorithm() answers, what calc computes from the readable bytes *)
| JOne (c : string)                         (* the constant INSTANCE of enum c; an object of class c, if it has no state *)
| JConst (c x : string)                     (* constant x of enum c, if there are several *)
| JSup (c : string)                         (* C::new *)
| JCls (c : string)                         (* a class *)
| JArr (zs : list Z)                        (* an int[] *)
| JVals (vs : list jval)                    (* an array of references, as values() of an enum *)
| JMap (m : mkey -> option jval).           (* a HashMap *)

(* heap, buffer, locals (innermost first, with declared type), static and singleton fields ("C.x") *)
Record st := { s_h : heap; s_b : bytebuf; s_loc : list (string * (ty * jval)); s_stat : list (string * jval) }.
Definition set_h (s : st) (h : heap) : st := {| s_h := h; s_b := s_b s; s_loc := s_loc s; s_stat := s_stat s |}.
Definition set_b (s : st) (b : bytebuf) : st := {| s_h := s_h s; s_b := b; s_loc := s_loc s; s_stat := s_stat s |}.
Definition set_loc (s : st) (l : list (string * (ty * jval))) : st := {| s_h := s_h s; s_b := s_b s; s_loc := l; s_stat := s_stat s |}.
Definition set_stat (s : st) (l : list (string * jval)) : st := {| s_h := s_h s; s_b := s_b s; s_loc := s_loc s; s_stat := l |}.

Inductive res (A : Type) := Ret (a : A) (s : st) | Exc (e : exn) (s : st) | Bad.
Arguments Ret {A}. Arguments Exc {A}. Arguments Bad {A}.
Definition bind {A B} (r : res A) (f : A -> st -> res B) : res B := match r with Ret a s => f a s | Exc e s => Exc e s | Bad => Bad end.
Notation "'do' x s <- r ; k" := (bind r (fun x s => k)) (at level 200, x name, s name, r at level 100, k at level 200).

(* ---------- programs ---------- *)
Definition program := list (string * jclass).     (* by qualified name *)

Definition members (c : jclass) : list member := match c with Class _ _ _ _ _ _ ms => ms end.
Definition supers (c : jclass) : list ty := match c with Class _ _ _ _ ss _ _ => ss end.
Definition consts (c : jclass) : list (string * list expr) := match c with Class _ _ _ _ _ cs _ => cs end.
Definition is_static (mods : list string) : bool := existsb (String.eqb "static") mods.

(* the declared type of an instance field *)
Definition field_in (ms : list member) (x : string) : option ty :=
  match find (fun m => match m with MField mods _ y _ => String.eqb x y && negb (is_static mods) | _ => false end) ms with
  | Some (MField _ t _ _) => Some t
  | _ => None
  end.
Definition field_ty (P : program) (c x : string) : option ty := match assoc c P with Some d => field_in (members d) x | None => None end.
(* the method m with n parameters *)
Definition method_in (ms : list member) (m : string) (n : nat) : option (list (ty * string) * list stmt) :=
  match find (fun d => match d with MMethod _ _ _ _ m' ps (Some _) => String.eqb m m' && Nat.eqb n (List.length ps) | _ => false end) ms with
  | Some (MMethod _ _ _ _ _ ps (Some b)) => Some (ps, b)
  | _ => None
  end.
Fixpoint inherited (P : program) (ss : list ty) (m : string) (n : nat) : option (list (ty * string) * list stmt) :=
  match ss with
  | [] => None
  | Ty c _ :: r => match assoc c P with
                   | Some d => match method_in (members d) m n with Some x => Some x | None => inherited P r m n end
                   | None => inherited P r m n
                   end
  | _ :: r => inherited P r m n
  end.
Definition find_method (P : program) (c m : string) (n : nat) : option (list (ty * string) * list stmt) :=
  match assoc c P with
  | Some d => match method_in (members d) m n with Some x => Some x | None => inherited P (supers d) m n end
  | None => None
  end.

(* JLS 6.5: the class a simple name stands for in class c: a member of c, of the classes around c, of the package, or an imported one *)
Fixpoint parent_from (s acc cur : string) : string :=          (* what is before the last dot *)
  match s with
  | EmptyString => acc
  | String a r => if Ascii.eqb a "."%char then parent_from r cur (cur ++ String a EmptyString)%string else parent_from r acc (cur ++ String a EmptyString)%string
  end.
Definition parent (s : string) : string := parent_from s EmptyString EmptyString.
Fixpoint resolve_in (n : nat) (P : program) (c x : string) : string :=
  match n with
  | O => x
  | S k => let q := (c ++ "." ++ x)%string in match assoc q P with Some _ => q | None => resolve_in k P (parent c) x end
  end.
Definition resolve (P : program) (c x : string) : string := resolve_in 3 P c x.

(* ---------- types and numbers ---------- *)
Definition T1 (n : string) : ty := Ty n [].
Definition is_prim (t : ty) : bool :=
  match t with Ty n [] => existsb (String.eqb n) ["byte"; "short"; "int"; "long"; "char"; "float"; "double"]%string | _ => false end.
Definition is_name (t : ty) (n : string) : bool := match t with Ty m _ => String.eqb m n | _ => false end.
Definition is_long (t : ty) : bool := is_name t "long" || is_name t "Long".
Definition is_float (t : ty) : bool := is_name t "float" || is_name t "Float".
Definition is_char (t : ty) : bool := is_name t "char" || is_name t "Character".
(* JLS 5.1.3 *)
Definition cast_z (t : ty) (z : Z) : Z :=
  if is_name t "byte" then wrap 8 z else if is_name t "short" then wrap 16 z else if is_name t "int" then wrap 32 z
  else if is_name t "long" then wrap 64 z else if is_name t "char" then z mod 65536 else z.
(* JLS 4.12.5 *)
Definition default_of (t : ty) : hval :=
  if is_prim t then if is_name t "float" || is_name t "double" then HFlt 0 else HInt 0 else HNull.
Definition jint (z : Z) : jval := JT (T1 "int") (HInt z).
Definition jstr (s : list Z) : jval := JT (T1 "String") (HStr s).
Definition jnull : jval := JT (T1 "null") HNull.

(* unboxing: the number in v *)
Definition num {A} (v : jval) (s : st) (k : ty -> Z -> res A) : res A :=
  match v with JT t (HInt z) => k t z | JT _ HNull => Exc NPE s | _ => Bad end.
(* assignment to a variable of type t *)
Definition conv {A} (t : ty) (v : jval) (s : st) (k : jval -> res A) : res A :=
  match v with
  | JT _ HNull => if is_prim t then Exc NPE s else k (JT t HNull)
  | JT _ w => k (JT t w)
  | w => k w
  end.

(* JLS 5.6, 15.17-15.22 *)
Definition arith (o : binop) (t1 : ty) (x : Z) (t2 : ty) (y : Z) : option jval :=
  let long := is_long t1 || is_long t2 in
  let rt := if long then T1 "long" else T1 "int" in
  let w := if long then 64 else 32 in
  let sh (i l : Z -> Z -> Z) := Some (JT (if is_long t1 then T1 "long" else T1 "int") (HInt (if is_long t1 then l x y else i x y))) in
  match o with
  | OAdd => Some (JT rt (HInt (wrap w (x + y))))
  | OSub => Some (JT rt (HInt (wrap w (x - y))))
  | OMul => Some (JT rt (HInt (wrap w (x * y))))
  | ORem => if y =? 0 then None else Some (JT rt (HInt (Z.rem x y)))
  | OBAnd => Some (JT rt (HInt (Z.land x y)))
  | OBOr => Some (JT rt (HInt (Z.lor x y)))
  | OXor => Some (JT rt (HInt (Z.lxor x y)))
  | OShl => sh ishl lshl
  | OShr => sh ishr lshr
  | OUshr => sh iushr lushr
  | OLt => Some (JB (x <? y))
  | OGt => Some (JB (y <? x))
  | OLe => Some (JB (x <=? y))
  | OGe => Some (JB (y <=? x))
  | OEq => Some (JB (x =? y))
  | ONe => Some (JB (negb (x =? y)))
  | _ => None
  end.
(* == on references; None: not covered *)
Definition is_object (v : jval) : bool :=
  match v with JT t (HInt _) | JT t (HFlt _) => negb (is_prim t) | JT _ HNull => false | JB _ | JVoid => false | _ => true end.
Definition same (a b : jval) : option bool :=
  match a, b with
  | JT _ HNull, JT _ HNull => Some true
  | JT _ HNull, v => if is_object v then Some false else None
  | v, JT _ HNull => if is_object v then Some false else None
  | JT _ (HRef l), JT _ (HRef m) => Some (Nat.eqb l m)
  | JT _ (HRef _), JT _ _ | JT _ _, JT _ (HRef _) => Some false
  | JCls c, JCls d => Some (String.eqb c d)
  | _, _ => None
  end.
Definition is_numeric (v : jval) : bool := match v with JT t (HInt _) => is_prim t | _ => false end.
Definition is_stringy (v : jval) : bool := match v with JT t _ => is_name t "String" | _ => false end.

(* ---------- io.netty.buffer.ByteBuf ---------- *)
Definition width_of (m : string) : option (nat * endian) :=
  if String.eqb m "Byte" then Some (1%nat, BE)
  else if String.eqb m "Short" then Some (2%nat, BE) else if String.eqb m "ShortLE" then Some (2%nat, LE)
  else if String.eqb m "Int" then Some (4%nat, BE) else if String.eqb m "IntLE" then Some (4%nat, LE)
  else if String.eqb m "Long" then Some (8%nat, BE) else if String.eqb m "LongLE" then Some (8%nat, LE)
  else None.
Definition fwidth_of (m : string) : option (nat * endian) :=
  if String.eqb m "Float" then Some (4%nat, BE) else if String.eqb m "FloatLE" then Some (4%nat, LE)
  else if String.eqb m "Double" then Some (8%nat, BE) else if String.eqb m "DoubleLE" then Some (8%nat, LE)
  else None.
Definition type_of_width (n : nat) : ty := T1 (match n with 1%nat => "byte" | 2%nat => "short" | 4%nat => "int" | _ => "long" end)%string.
Definition type_of_fwidth (n : nat) : ty := T1 (match n with 4%nat => "float" | _ => "double" end)%string.
Fixpoint strip (p m : string) : option string :=
  match p, m with
  | EmptyString, _ => Some m
  | String a p', String b m' => if Ascii.eqb a b then strip p' m' else None
  | _, _ => None
  end.
Definition done (s : st) (r : option exn * bytebuf) : res jval :=
  match r with (None, b) => Ret JBuf (set_b s b) | (Some e, b) => Exc e (set_b s b) end.
Definition got (s : st) {A} (r : (exn + A) * bytebuf) (f : A -> jval) : res jval :=
  match r with (inr a, b) => Ret (f a) (set_b s b) | (inl e, b) => Exc e (set_b s b) end.
Definition buf_call (m : string) (args : list jval) (s : st) : res jval :=
  match strip "write" m with
  | Some suf =>
      if String.eqb suf "rIndex" then match args with [] => Ret (jint (Z.of_nat (widx (s_b s)))) s | _ => Bad end else
      match width_of suf with
      | Some (n, o) => match args with [v] => num v s (fun _ z => done s (write_int o n z (s_b s))) | _ => Bad end
      | None =>
      match fwidth_of suf with
      | Some (n, o) =>
          match args with
          | [v] => match v with JT _ (HFlt z) => done s (write_int o n z (s_b s)) | JT _ HNull => Exc NPE s | _ => Bad end
          | _ => Bad
          end
      | None =>
          if String.eqb suf "Bytes" then
            match args with
            | [JBytes bs] => done s (write_bytes bs (s_b s))
            | [JBytes bs; JT _ (HInt i); JT _ (HInt n)] =>
                if (i =? 0) && (n <=? Z.of_nat (List.length bs)) then done s (write_prefix bs n (s_b s)) else Bad
            | _ => Bad
            end
          else Bad
      end
      end
  | None =>
  match strip "set" m with
  | Some suf =>
      match width_of suf with
      | Some (n, o) =>
          match args with
          | [i; v] => num i s (fun _ i => num v s (fun _ z => if i <? 0 then Exc IOOBE s else done s (set_int o n (Z.to_nat i) z (s_b s))))
          | _ => Bad
          end
      | None => Bad
      end
  | None =>
      if String.eqb m "readCharSequence" then
        match args with
        | [JT _ (HInt n); JCharset] => got s (read_chars n (s_b s)) (fun bs => JT (T1 "CharSequence") (HStr (utf8_decode bs)))
        | _ => Bad
        end
      else if String.eqb m "readerIndex" then match args with [] => Ret (jint (Z.of_nat (ridx (s_b s)))) s | _ => Bad end
      else if String.eqb m "readableBytes" then match args with [] => Ret (jint (Z.of_nat (widx (s_b s)) - Z.of_nat (ridx (s_b s)))) s | _ => Bad end
      else if String.eqb m "getUnsignedByte" then
        match args with
        | [JT _ (HInt i)] => if (0 <=? i) && (i <? Z.of_nat (List.length (arr (s_b s)))) then Ret (JT (T1 "short") (HInt (nth (Z.to_nat i) (arr (s_b s)) 0))) s
                             else Exc IOOBE s
        | _ => Bad
        end
      else match strip "read" m, args with
           | Some suf, [] =>
               match width_of suf, fwidth_of suf with
               | Some (n, o), _ => got s (read_bytes n (s_b s)) (fun bs => JT (type_of_width n) (HInt (get_int o bs)))
               | _, Some (n, o) => got s (read_bytes n (s_b s)) (fun bs => JT (type_of_fwidth n) (HFlt (get_bits o bs)))
               | _, _ => Bad
               end
           | _, _ => Bad
           end
  end
  end.

(* ---------- String ---------- *)
Definition str_call (u : list Z) (m : string) (args : list jval) (s : st) : res jval :=
  if String.eqb m "toString" then match args with [] => Ret (jstr u) s | _ => Bad end
  else if String.eqb m "getBytes" then match args with [JCharset] => Ret (JBytes (utf8_encode u)) s | _ => Bad end
  else if String.eqb m "length" then match args with [] => Ret (jint (Z.of_nat (List.length u))) s | _ => Bad end
  else if String.eqb m "charAt" then
    match args with
    | [JT _ (HInt i)] => if (0 <=? i) && (i <? Z.of_nat (List.length u)) then Ret (JT (T1 "char") (HInt (nth (Z.to_nat i) u 0))) s else Exc IOOBE s
    | _ => Bad
    end
  else if String.eqb m "substring" then
    match args with
    | [JT _ (HInt i); JT _ (HInt j)] =>
        if (0 <=? i) && (i <=? j) && (j <=? Z.of_nat (List.length u)) then Ret (jstr (substring u (Z.to_nat i) (Z.to_nat j))) s else Exc IOOBE s
    | _ => Bad
    end
  else Bad.

(* ---------- java.util.ArrayList ---------- *)
Definition elem_type (t : ty) : ty := match t with Ty _ [u] => u | _ => T1 "Object" end.
Definition hval_of (v : jval) : option hval := match v with JT _ w => Some w | _ => None end.
Definition list_call (t : ty) (l : nat) (vs : list hval) (m : string) (args : list jval) (s : st) : res jval :=
  if String.eqb m "size" then match args with [] => Ret (jint (Z.of_nat (List.length vs))) s | _ => Bad end
  else if String.eqb m "get" then
    match args with
    | [JT _ (HInt i)] => if 0 <=? i then match nth_error vs (Z.to_nat i) with Some v => Ret (JT (elem_type t) v) s | None => Exc IOOBE s end else Exc IOOBE s
    | _ => Bad
    end
  else if String.eqb m "add" then
    match args with
    | [v] => match hval_of v with Some w => Ret (JB true) (set_h s (list_add (s_h s) (HRef l) w)) | None => Bad end
    | _ => Bad
    end
  else Bad.

(* ---------- java.util.HashMap, held by the field key ---------- *)
Definition mkey_of (v : jval) : option mkey :=
  match v with
  | JT _ HNull => Some MNull
  | JT _ (HInt z) => Some (MKey (KInt z))
  | JT _ (HStr u) => Some (MKey (KStr u))
  | JCls c => Some (MCls c)
  | _ => None
  end.
Definition mkey_eqb (a b : mkey) : bool :=
  match a, b with
  | MNull, MNull => true
  | MKey x, MKey y => key_eqb x y
  | MCls x, MCls y => String.eqb x y
  | _, _ => false
  end.
Definition m_set (m : mkey -> option jval) (k : mkey) (v : option jval) : mkey -> option jval := fun k' => if mkey_eqb k' k then v else m k'.
Definition or_null (v : option jval) : jval := match v with Some x => x | None => jnull end.
Fixpoint put_assoc {A} (k : string) (x : A) (l : list (string * A)) : list (string * A) :=
  match l with [] => [] | (k', a) :: r => if String.eqb k k' then (k', x) :: r else (k', a) :: put_assoc k x r end.
Definition put_stat (s : st) (x : string) (v : jval) : st := set_stat s (put_assoc x v (s_stat s)).
Definition map_call (x : string) (f : mkey -> option jval) (m : string) (args : list jval) (s : st) : res jval :=
  match args with
  | [] => if String.eqb m "clear" then Ret JVoid (put_stat s x (JMap (fun _ => None))) else Bad
  | [k] => match mkey_of k with
           | Some k => if String.eqb m "get" then Ret (or_null (f k)) s
                       else if String.eqb m "containsKey" then Ret (JB (match f k with Some _ => true | None => false end)) s
                       else if String.eqb m "remove" then Ret (or_null (f k)) (put_stat s x (JMap (m_set f k None)))
                       else Bad
           | None => Bad
           end
  | [k; v] => match mkey_of k with
              | Some k => if String.eqb m "put" then Ret (or_null (f k)) (put_stat s x (JMap (m_set f k (Some v)))) else Bad
              | None => Bad
              end
  | _ => Bad
  end.

(* ---------- objects ---------- *)
Definition instance_fields (ms : list member) : list (string * ty) :=
  flat_map (fun m => match m with MField mods t x _ => if is_static mods then [] else [(x, t)] | _ => [] end) ms.
(* new C() for a class without constructors and field initialisers.  A checksum service has no state: its class says all *)
Definition new_object (P : program) (c : string) (s : st) : res jval :=
  match assoc c P with
  | Some d => if existsb (fun t => is_name t "ChecksumService") (supers d) then Ret (JOne c) s else
              let '(h', v) := alloc_cell (s_h s) (CObj c (map (fun f => (fst f, default_of (snd f))) (instance_fields (members d)))) in
              Ret (JT (T1 c) v) (set_h s h')
  | None => Bad
  end.
Definition class_of (h : heap) (v : hval) : string :=
  match v with
  | HRef l => match nth_error h l with Some (CObj c _) => c | Some (CList _) => "java.util.ArrayList"%string | None => EmptyString end
  | HStr _ => "java.lang.String"%string
  | HInt _ | HFlt _ => "java.lang.Number"%string
  | HNull => EmptyString
  end.

(* constants with arguments: MessageType, not INSTANCE *)
Definition is_const (d : jclass) (x : string) : bool := existsb (fun e => String.eqb x (fst e) && match snd e with [] => false | _ => true end) (consts d).
Record cx := { x_this : option nat; x_class : string }.    (* this; the class whose method runs *)

Section Run.
  Variable P : program.
  Variable pr : printers.
  (* x.m(args) on the object at l, one frame deeper *)
  Variable vcall : string -> nat -> list jval -> st -> res jval.

  (* ---------- java.util.Objects, String.valueOf ---------- *)
  (* a.equals(b) for anything but lists, a, b not null *)
  Definition jeq_item (t : ty) (a b : hval) (s : st) : res jval :=
    match a, b with
    | HNull, HNull => Ret (JB true) s
    | HInt x, HInt y => Ret (JB (x =? y)) s
    | HFlt x, HFlt y => Ret (JB (if is_float t then canon32 x =? canon32 y else canon64 x =? canon64 y)) s
    | HStr x, HStr y => Ret (JB (if list_eq_dec Z.eq_dec x y then true else false)) s
    | HRef l, HRef m =>
        if Nat.eqb l m then Ret (JB true) s
        else match nth_error (s_h s) l, nth_error (s_h s) m with
             | Some (CObj _ _), Some (CObj _ _) => vcall "equals" l [JT (T1 "Object") b] s
             | _, _ => Ret (JB false) s
             end
    | _, _ => Ret (JB false) s
    end.
  Fixpoint jeq_items (t : ty) (x y : list hval) (s : st) : res jval :=
    match x, y with
    | [], [] => Ret (JB true) s
    | u :: x', w :: y' => match jeq_item t u w s with
                          | Ret (JB true) s' => jeq_items t x' y' s'
                          | r => r
                          end
    | _, _ => Ret (JB false) s
    end.
  (* Objects.equals; ArrayList.equals: o == this, or element by element *)
  Definition jeq (t : ty) (a b : hval) (s : st) : res jval :=
    match elements (s_h s) a, elements (s_h s) b with
    | Some x, Some y => match a, b with
                        | HRef l, HRef m => if Nat.eqb l m then Ret (JB true) s else jeq_items (elem_type t) x y s
                        | _, _ => Bad
                        end
    | _, _ => jeq_item t a b s
    end.

  Definition jhash_item (t : ty) (a : hval) (s : st) : res Z :=
    match a with
    | HNull => Ret 0 s
    | HInt z => Ret (if is_long t then fold64 z else z) s
    | HFlt z => Ret (if is_float t then wrap 32 (canon32 z) else fold64 (wrap 64 (canon64 z))) s
    | HStr u => Ret (hash_chars u) s
    | HRef l => do v s' <- vcall "hashCode" l [] s; num v s' (fun _ z => Ret z s')
    end.
  Fixpoint jhash_items (t : ty) (l : list hval) (k : Z) (s : st) : res Z :=
    match l with
    | [] => Ret k s
    | x :: r => do i s' <- jhash_item t x s; jhash_items t r (hash_step k i) s'
    end.
  Definition jhash (t : ty) (a : hval) (s : st) : res Z :=
    match elements (s_h s) a with Some l => jhash_items (elem_type t) l 1 s | None => jhash_item t a s end.
  (* Objects.hash(...) *)
  Fixpoint jhash_args (args : list jval) (k : Z) (s : st) : res Z :=
    match args with
    | [] => Ret k s
    | JT t v :: r => do i s' <- jhash t v s; jhash_args r (hash_step k i) s'
    | _ => Bad
    end.

  Definition jshow_item (t : ty) (a : hval) (s : st) : res (list Z) :=
    match a with
    | HNull => Ret (chars "null") s
    | HInt z => Ret (if is_char t then [z] else show_int z) s
    | HFlt z => Ret (if is_float t then show_float pr z else show_double pr z) s
    | HStr u => Ret u s
    | HRef l => do v s' <- vcall "toString" l [] s; match v with JT _ (HStr u) => Ret u s' | _ => Bad end
    end.
  Fixpoint jshow_items (t : ty) (l : list hval) (s : st) : res (list Z) :=
    match l with
    | [] => Ret [] s
    | [x] => jshow_item t x s
    | x :: r => do a s' <- jshow_item t x s; do b s'' <- jshow_items t r s'; Ret (a ++ chars ", " ++ b) s''
    end.
  (* String.valueOf; AbstractCollection.toString *)
  Definition jshow (v : jval) (s : st) : res (list Z) :=
    match v with
    | JT t a => match elements (s_h s) a with
                | Some l => do u s' <- jshow_items (elem_type t) l s; Ret (chars "[" ++ u ++ chars "]") s'
                | None => jshow_item t a s
                end
    | _ => Bad
    end.

  (* static methods of the library *)
  Definition lib_call (c m : string) (args : list jval) (s : st) : res jval :=
    if String.eqb c "StringUtil" && String.eqb m "isNullOrEmpty" then
      match args with
      | [JT _ HNull] => Ret (JB true) s
      | [JT _ (HStr u)] => Ret (JB (match u with [] => true | _ => false end)) s
      | _ => Bad
      end
    else if String.eqb c "Math" && String.eqb m "min" then
      match args with [JT _ (HInt x); JT _ (HInt y)] => Ret (jint (Z.min x y)) s | _ => Bad end
    else if String.eqb c "Objects" && String.eqb m "equals" then
      match args with [JT t a; JT _ b] => jeq t a b s | _ => Bad end
    else if String.eqb c "Objects" && String.eqb m "hash" then
      do z s' <- jhash_args args 1 s; Ret (jint z) s'
    else Bad.

  Section Body.
    (* m(args): the method m of class c, this unchanged; loops run at most [k] times *)
    Variable call : option nat -> string -> string -> list jval -> st -> res jval.
    Variable k : nat.

    Definition name_val (x0 : cx) (x : string) (s : st) : res jval :=
      match assoc x (s_loc s) with
      | Some (_, v) => Ret v s
      | None =>
          match x_this x0, field_ty P (x_class x0) x with
          | Some l, Some t => Ret (JT t (field (s_h s) l x)) s
          | _, _ =>
              match assoc (x_class x0 ++ "." ++ x)%string (s_stat s) with
              | Some v => Ret v s
              | None =>
                  match assoc (x_class x0) P with
                  | Some d => if existsb (fun e => String.eqb x (fst e)) (consts d) then Ret (JOne (x_class x0)) s else Ret (JCls (resolve P (x_class x0) x)) s
                  | None => Ret (JCls x) s
                  end
              end
          end
      end.
    Definition field_val (v : jval) (x : string) (s : st) : res jval :=
      match v with
      | JT _ (HRef l) => match nth_error (s_h s) l with
                         | Some (CObj c _) => match field_ty P c x with Some t => Ret (JT t (field (s_h s) l x)) s | None => Bad end
                         | _ => Bad
                         end
      | JT _ HNull => Exc NPE s
      | JBytes bs => if String.eqb x "length" then Ret (jint (Z.of_nat (List.length bs))) s else Bad
      | JCls c => if String.eqb c "StandardCharsets" && String.eqb x "UTF_8" then Ret JCharset s
                  else match assoc (c ++ "." ++ x)%string (s_stat s) with
                       | Some w => Ret w s
                       | None => match assoc c P with Some d => if is_const d x then Ret (JConst c x) s else Bad | None => Bad end
                       end
      | JConst c n => match assoc (c ++ "." ++ n ++ "." ++ x)%string (s_stat s) with Some w => Ret w s | None => Bad end
      | _ => Bad
      end.
    (* a method of an enum constant; covered if it returns a field *)
    Definition const_call (c n m : string) (args : list jval) (s : st) : res jval :=
      match args, find_method P c m 0 with
      | [], Some ([], [SReturn (Some (EName x))]) => match assoc (c ++ "." ++ n ++ "." ++ x)%string (s_stat s) with Some w => Ret w s | None => Bad end
      | _, _ => Bad
      end.
    (* e.m(args) once receiver and arguments are known; [x]: the static or singleton field the receiver was read from *)
    Definition dispatch (x0 : cx) (x : string) (v : jval) (m : string) (args : list jval) (s : st) : res jval :=
      match v with
      | JBuf => buf_call m args s
      | JT _ HNull => Exc NPE s
      | JT _ (HStr u) => if String.eqb m "getClass" then Ret (JCls (class_of (s_h s) (HStr u))) s else str_call u m args s
      | JT t (HRef l) =>
          match nth_error (s_h s) l with
          | Some (CList vs) => if String.eqb m "getClass" then Ret (JCls (class_of (s_h s) (HRef l))) s else list_call t l vs m args s
          | Some (CObj c _) => if String.eqb m "getClass" then Ret (JCls c) s else vcall m l args s
          | None => Bad
          end
      | JT _ w => if String.eqb m "getClass" then Ret (JCls (class_of (s_h s) w)) s else Bad
      | JSvc a f => if String.eqb m "calc" then match args with [JBuf] => Ret (JT (T1 "Integer") (HInt (f (readable (s_b s))))) s | _ => Bad end
                    else if String.eqb m "algorithm" then match args with [] => Ret (jstr a) s | _ => Bad end
                    else Bad
      | JSup c => if String.eqb m "get" then new_object P c s else Bad
      | JMap f => map_call (x_class x0 ++ "." ++ x)%string f m args s
      | JOne c => call None c m args s
      | JConst c n => const_call c n m args s
      | JCls c => match assoc c P with Some _ => call None c m args s | None => lib_call c m args s end
      | _ => Bad
      end.
    Definition var_of (e : expr) : string := match e with EName x => x | _ => EmptyString end.

    (* assignment; [l]: a name, this.f, or an element of an array held by a static field *)
    Definition assign (x0 : cx) (x : string) (v : jval) (s : st) : res jval :=
      match assoc x (s_loc s) with
      | Some (t, _) => conv t v s (fun w => Ret w (set_loc s (put_assoc x (t, w) (s_loc s))))
      | None =>
          match x_this x0, field_ty P (x_class x0) x with
          | Some l, Some t => conv t v s (fun w => match hval_of w with Some u => Ret w (set_h s (put_field (s_h s) l x u)) | None => Bad end)
          | _, _ => Ret v (put_stat s (x_class x0 ++ "." ++ x)%string v)
          end
      end.
    Definition assign_field (x0 : cx) (x : string) (v : jval) (s : st) : res jval :=
      match x_this x0, field_ty P (x_class x0) x with
      | Some l, Some t => conv t v s (fun w => match hval_of w with Some u => Ret w (set_h s (put_field (s_h s) l x u)) | None => Bad end)
      | _, _ => Bad
      end.
    Definition set_nth (zs : list Z) (i : nat) (z : Z) : list Z := firstn i zs ++ match skipn i zs with [] => [] | _ :: r => z :: r end.
    Definition assign_index (x0 : cx) (x : string) (i : Z) (v : jval) (s : st) : res jval :=
      match assoc (x_class x0 ++ "." ++ x)%string (s_stat s), v with
      | Some (JArr zs), JT _ (HInt z) =>
          if (0 <=? i) && (i <? Z.of_nat (List.length zs)) then Ret v (put_stat s (x_class x0 ++ "." ++ x)%string (JArr (set_nth zs (Z.to_nat i) z)))
          else Exc IOOBE s
      | _, _ => Bad
      end.
    Definition lvalue_type (x0 : cx) (x : string) (s : st) : option ty :=
      match assoc x (s_loc s) with Some (t, _) => Some t | None => field_ty P (x_class x0) x end.

    Definition binary (o : binop) (a b : jval) (s : st) : res jval :=
      match o with
      | OAdd => if is_stringy a || is_stringy b
                then do u s' <- jshow a s; do w s'' <- jshow b s'; Ret (jstr (u ++ w)) s''
                else num a s (fun t x => num b s (fun t' y => match arith o t x t' y with Some v => Ret v s | None => Bad end))
      | OEq | ONe => if is_numeric a || is_numeric b
                     then num a s (fun t x => num b s (fun t' y => match arith o t x t' y with Some v => Ret v s | None => Bad end))
                     else match same a b with Some r => Ret (JB (match o with OEq => r | _ => negb r end)) s | None => Bad end
      | _ => num a s (fun t x => num b s (fun t' y => match arith o t x t' y with Some v => Ret v s | None => Bad end))
      end.

    Fixpoint eval (x0 : cx) (e : expr) (s : st) {struct e} : res jval :=
      let eval_args := (fix go (l : list expr) (s : st) : res (list jval) :=
        match l with [] => Ret [] s | a :: r => do v s' <- eval x0 a s; do vs s'' <- go r s'; Ret (v :: vs) s'' end) in
      match e with
      | ENull => Ret jnull s
      | EThis => match x_this x0 with Some l => Ret (JT (T1 (x_class x0)) (HRef l)) s | None => Bad end
      | EBool b => Ret (JB b) s
      | EInt hex z => Ret (jint (if hex then hex32 z else z)) s
      | ELong z => Ret (JT (T1 "long") (HInt z)) s
      | EChr z => Ret (JT (T1 "char") (HInt z)) s
      | EStr u => Ret (jstr (chars u)) s
      | EName x => name_val x0 x s
      | EField a x => do v s' <- eval x0 a s; field_val v x s'
      | ECall a m args => do v s' <- eval x0 a s; do vs s'' <- eval_args args s'; dispatch x0 (var_of a) v m vs s''
      | ECallU m args =>
          do vs s' <- eval_args args s;
          if String.eqb m "getClass" then match x_this x0 with Some l => Ret (JCls (class_of (s_h s') (HRef l))) s' | None => Bad end
          else if String.eqb m "values" then
            match assoc (x_class x0) P, vs with Some d, [] => Ret (JVals (map (fun e => JConst (x_class x0) (fst e)) (consts d))) s' | _, _ => Bad end
          else call (x_this x0) (x_class x0) m vs s'
      | ENew t args =>
          do vs s' <- eval_args args s;
          match t, vs with
          | TyDia c, [] => if String.eqb c "ArrayList" then let '(h', v) := alloc_cell (s_h s') (CList []) in Ret (JT t v) (set_h s' h')
                           else if String.eqb c "HashMap" then Ret (JMap (fun _ => None)) s' else Bad
          | Ty c [], [] => new_object P (resolve P (x_class x0) c) s'
          | _, _ => Bad
          end
      | ENewArr t n => do v s' <- eval x0 n s; num v s' (fun _ z => if 0 <=? z then Ret (JArr (repeat 0 (Z.to_nat z))) s' else Bad)
      | EIndex a i =>
          do v s' <- eval x0 a s; do w s'' <- eval x0 i s';
          match v with
          | JArr zs => num w s'' (fun _ z => if (0 <=? z) && (z <? Z.of_nat (List.length zs)) then Ret (jint (nth (Z.to_nat z) zs 0)) s'' else Exc IOOBE s'')
          | _ => Bad
          end
      | ECast t a =>
          do v s' <- eval x0 a s;
          if is_prim t then num v s' (fun _ z => Ret (JT t (HInt (cast_z t z))) s')
          else match v with
               | JT _ (HRef l) =>
                   match t with
                   | Ty c _ => match assoc (resolve P (x_class x0) c) P with
                               | Some _ => if String.eqb (class_of (s_h s') (HRef l)) (resolve P (x_class x0) c) then Ret (JT t (HRef l)) s' else Bad
                               | None => Ret (JT t (HRef l)) s'
                               end
                   | _ => Bad
                   end
               | JT _ w => Ret (JT t w) s'
               | w => Ret w s'
               end
      | EParen a => eval x0 a s
      | ENot a => do v s' <- eval x0 a s; match v with JB b => Ret (JB (negb b)) s' | _ => Bad end
      | EInv a => do v s' <- eval x0 a s; num v s' (fun t z => Ret (JT (if is_long t then T1 "long" else T1 "int") (HInt (Z.lnot z))) s')
      | EBin OAnd a b => do v s' <- eval x0 a s;
                         match v with JB true => do w s'' <- eval x0 b s'; match w with JB _ => Ret w s'' | _ => Bad end | JB false => Ret v s' | _ => Bad end
      | EBin OOr a b => do v s' <- eval x0 a s;
                        match v with JB false => do w s'' <- eval x0 b s'; match w with JB _ => Ret w s'' | _ => Bad end | JB true => Ret v s' | _ => Bad end
      | EBin o a b => do v s' <- eval x0 a s; do w s'' <- eval x0 b s'; binary o v w s''
      | EInc (EName x) => do v s' <- name_val x0 x s; num v s' (fun t z => do w s'' <- assign x0 x (JT t (HInt (cast_z t (z + 1)))) s'; Ret v s'')
      | EDec (EName x) => do v s' <- name_val x0 x s; num v s' (fun t z => do w s'' <- assign x0 x (JT t (HInt (cast_z t (z - 1)))) s'; Ret v s'')
      | EAsg ASet (EName x) r => do v s' <- eval x0 r s; assign x0 x v s'
      | EAsg ASet (EField EThis x) r => do v s' <- eval x0 r s; assign_field x0 x v s'
      | EAsg ASet (EIndex (EName x) i) r =>
          do w s' <- eval x0 i s; num w s' (fun _ z => do v s'' <- eval x0 r s'; assign_index x0 x z v s'')
      | EAsg (AOp o) (EName x) r =>
          do v s' <- name_val x0 x s; do w s'' <- eval x0 r s';
          match lvalue_type x0 x s with
          | Some t => do u s3 <- binary o v w s''; num u s3 (fun _ z => assign x0 x (JT t (HInt (cast_z t z))) s3)
          | None => Bad
          end
      | ERef c => Ret (JSup (resolve P (x_class x0) c)) s
      | EClass c => Ret (JCls (resolve P (x_class x0) c)) s
      | _ => Bad
      end.

    Definition eval_args (x0 : cx) : list expr -> st -> res (list jval) :=
      fix go (l : list expr) (s : st) : res (list jval) :=
        match l with [] => Ret [] s | a :: r => do v s' <- eval x0 a s; do vs s'' <- go r s'; Ret (v :: vs) s'' end.

    (* statements: [Some v] = returned v *)
    Fixpoint loop (n : nat) (c : st -> res jval) (b : st -> res (option jval)) (u : st -> res jval) (s : st) : res (option jval) :=
      match n with
      | O => Bad
      | S n' =>
          do v s1 <- c s;
          match v with
          | JB true => do r s2 <- b s1; match r with Some _ => Ret r s2 | None => do w s3 <- u s2; loop n' c b u s3 end
          | JB false => Ret None s1
          | _ => Bad
          end
      end.
    Fixpoint each (b : jval -> st -> res (option jval)) (vs : list jval) (s : st) : res (option jval) :=
      match vs with
      | [] => Ret None s
      | v :: r => do x s' <- b v s; match x with Some _ => Ret x s' | None => each b r s' end
      end.
    (* the locals of a block are gone after it *)
    Definition leave (n : nat) (s : st) : st := set_loc s (skipn (List.length (s_loc s) - n) (s_loc s)).
    Definition scoped (s : st) (r : res (option jval)) : res (option jval) :=
      match r with Ret a s' => Ret a (leave (List.length (s_loc s)) s') | Exc e s' => Exc e (leave (List.length (s_loc s)) s') | Bad => Bad end.
    Definition declare (t : ty) (x : string) (v : jval) (s : st) : res (option jval) :=
      conv t v s (fun w => Ret None (set_loc s ((x, (t, w)) :: s_loc s))).

    Fixpoint exec (x0 : cx) (c : stmt) (s : st) {struct c} : res (option jval) :=
      let exec_all := (fix go (l : list stmt) (s : st) : res (option jval) :=
        match l with [] => Ret None s | c :: r => do v s' <- exec x0 c s; match v with Some _ => Ret v s' | None => go r s' end end) in
      match c with
      | SLocal t x None => Ret None (set_loc s ((x, (t, JVoid)) :: s_loc s))
      | SLocal t x (Some e) => do v s' <- eval x0 e s; declare t x v s'
      | SExpr e => do v s' <- eval x0 e s; Ret None s'
      | SIf e a b => do v s' <- eval x0 e s;
                     match v with
                     | JB true => scoped s' (exec x0 a s')
                     | JB false => match b with Some d => scoped s' (exec x0 d s') | None => Ret None s' end
                     | _ => Bad
                     end
      | SFor t x i c u b =>
          scoped s (do v s' <- eval x0 i s; do w s'' <- declare t x v s'; loop k (eval x0 c) (fun s => scoped s (exec x0 b s)) (eval x0 u) s'')
      | SWhile c b => scoped s (loop k (eval x0 c) (fun s => scoped s (exec x0 b s)) (Ret JVoid) s)
      | SDo b c => scoped s (do r s' <- scoped s (exec x0 b s);
                             match r with
                             | Some _ => Ret r s'
                             | None => loop k (eval x0 c) (fun s => scoped s (exec x0 b s)) (Ret JVoid) s'
                             end)
      | SEach t x e b =>
          do v s' <- eval x0 e s;
          match v with JVals vs => each (fun w s => scoped s (do u s1 <- declare t x w s; exec x0 b s1)) vs s' | _ => Bad end
      | SReturn None => Ret (Some JVoid) s
      | SReturn (Some e) => do v s' <- eval x0 e s; Ret (Some v) s'
      | SThrow (ENew (Ty c []) [a]) => if String.eqb c "IllegalArgumentException" then do v s' <- eval x0 a s; Exc IAE s' else Bad
      | SBlock ss => scoped s (exec_all ss s)
      | _ => Bad
      end.
    Definition exec_all (x0 : cx) : list stmt -> st -> res (option jval) :=
      fix go (l : list stmt) (s : st) : res (option jval) :=
        match l with [] => Ret None s | c :: r => do v s' <- exec x0 c s; match v with Some _ => Ret v s' | None => go r s' end end.
  End Body.

  (* the arguments become the parameters *)
  Fixpoint bind_params (ps : list (ty * string)) (args : list jval) (s : st) (acc : list (string * (ty * jval))) : res (list (string * (ty * jval))) :=
    match ps, args with
    | [], [] => Ret acc s
    | (t, x) :: ps', v :: args' => conv t v s (fun w => bind_params ps' args' s ((x, (t, w)) :: acc))
    | _, _ => Bad
    end.
  Definition result (v : option jval) : jval := match v with Some w => w | None => JVoid end.
  (* k: bound on nested calls and on the iterations of a loop; [Bad] beyond it *)
  Fixpoint run (k : nat) (this : option nat) (c m : string) (args : list jval) (s : st) : res jval :=
    match k with
    | O => Bad
    | S k' =>
        match find_method P c m (List.length args) with
        | Some (ps, body) =>
            do ls s1 <- bind_params ps args s [];
            match exec_all (run k') k' {| x_this := this; x_class := c |} body (set_loc s1 ls) with
            | Ret v s2 => Ret (result v) (set_loc s2 (s_loc s))
            | Exc e s2 => Exc e (set_loc s2 (s_loc s))
            | Bad => Bad
            end
        | None => Bad
        end
    end.
End Run.

(* x.m(args) on the object at l with d frames left *)
Fixpoint vcalls (P : program) (pr : printers) (k d : nat) (m : string) (l : nat) (args : list jval) (s : st) : res jval :=
  match d with
  | O => Exc SOE s
  | S d' =>
      match nth_error (s_h s) l with
      | Some (CObj c _) => run P pr (vcalls P pr k d') k (Some l) c m args s
      | _ => Bad
      end
  end.
