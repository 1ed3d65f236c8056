(* Two JVMs: in one all classes were initialised at the start (Java/Init.v), in the other each class is initialised when it is first used (Java/Lazy.v). *)
From Coq Require Import ZArith List Bool String.
From Verif.Model Require Import JavaPrim ByteBuf Ast Interp Show Heap.
From Verif.Java Require Import Lex Syntax Source Sources Sem CodecTrees Init Lazy Program.
From Verif.Spec Require Import JavaState JavaRun.
Import ListNotations.
Open Scope Z_scope.
Open Scope list_scope.

(* the initialisation of class q has not begun *)
Definition untouched (q : string) (ls : list (string * jval)) : Prop := assoc (mark q) ls = Some JVoid.
Definition final_classes : list string := [type_place; "ChecksumAlgorithms"%string].
(* [first]: the static state after all initialisers; [stat]: the static state of the one JVM; [ls]: of the other, with the marks of the classes touched so far *)
Record behind (first stat ls : list (string * jval)) : Prop := {
  bh_keys : map fst stat = stat_keys lib_program;
  bh_spine : map fst ls = map fst (all_untouched lib_program);
  bh_marks : forall q c, assoc q lib_program = Some c -> is_interface (q, c) = false -> untouched q ls \/ assoc (mark q) ls = Some (JB true);
  (* a class touched by neither run still has its initial values in the first JVM *)
  bh_yet : forall x q, owner lib_program x = Some q -> untouched q ls -> assoc x stat = assoc x first;
  (* and all others are the same in both *)
  bh_same : forall x q, owner lib_program x = Some q -> ~ untouched q ls -> assoc x ls = assoc x stat;
  (* the fields of the constants of MessageType, and the names of the algorithms, are final *)
  bh_final : forall x q, owner lib_program x = Some q -> In q final_classes -> assoc x stat = assoc x first }.

(* the same answer or exception, the same heap, buffer and locals, and static states of that kind *)
Definition same_end {A} (first : list (string * jval)) (r r' : res A) : Prop :=
  match r with
  | Ret a s => exists ls, r' = Ret a (set_stat s ls) /\ behind first (s_stat s) ls
  | Exc e s => exists ls, r' = Exc e (set_stat s ls) /\ behind first (s_stat s) ls
  | Bad => True
  end.

(* calls made by a program in the second JVM: [n] initialisers may be under way at a time, and have d0 frames *)
Definition lazy_touch (pr : printers) (k d0 n : nat) : string -> st -> res unit := touches lib_program pr k d0 n.
Definition lazy_invoke (pr : printers) (k d0 n d l : nat) (m : string) (args : list jval) (s : st) : res jval := lvcalls lib_program pr (lazy_touch pr k d0 n) k d m l args s.
Definition lazy_invoke_on (pr : printers) (k d0 n d : nat) (c m : string) (args : list jval) (s : st) : res jval :=
  do u s <- lazy_touch pr k d0 n c s; lrun lib_program pr (lvcalls lib_program pr (lazy_touch pr k d0 n) k d) (lazy_touch pr k d0 n) k None c m args s.
Definition lazy_create_new (pr : printers) (k d0 n : nat) (c : string) (s : st) : res jval := do u s <- lazy_touch pr k d0 n c s; create_new c s.

(* A program that uses the library: from what happened so far it chooses what to do next, having changed objects and the buffer as it likes (or stops). *)
Inductive deed :=
| DNew (c : string)                                            (* new C() *)
| DCall (l : nat) (m : string) (args : list jval)              (* o.m(args) for the object at l *)
| DStatic (c m : string) (args : list jval).                   (* C.m(args), or o.m(args) for the one object o of C *)
Definition happened : Type := (exn + jval) * heap * bytebuf.
Definition user : Type := list happened -> option (nat * deed * heap * bytebuf).
Fixpoint session (act : nat -> deed -> st -> res jval) (u : user) (n : nat) (past : list happened) (stat : list (string * jval)) : option (list happened * list (string * jval)) :=
  match n with
  | O => Some (past, stat)
  | S n' =>
      match u past with
      | None => Some (past, stat)
      | Some (d, x, h, b) =>
          match act d x (at_rest h b stat) with
          | Ret v s => session act u n' (past ++ [(inr v, s_h s, s_b s)]) (s_stat s)
          | Exc e s => session act u n' (past ++ [(inl e, s_h s, s_b s)]) (s_stat s)
          | Bad => None
          end
      end
  end.
Definition eager_act (pr : printers) (k d : nat) (x : deed) (s : st) : res jval :=
  match x with DNew c => create_new c s | DCall l m args => invoke pr k d l m args s | DStatic c m args => invoke_on pr k d c m args s end.
Definition lazy_act (pr : printers) (k d0 n d : nat) (x : deed) (s : st) : res jval :=
  match x with DNew c => lazy_create_new pr k d0 n c s | DCall l m args => lazy_invoke pr k d0 n d l m args s | DStatic c m args => lazy_invoke_on pr k d0 n d c m args s end.
(* the initialisation of the classes of [qs], in this order *)
Fixpoint touch_all (pr : printers) (k d0 n : nat) (qs : list string) (s : st) : res unit :=
  match qs with [] => Ret tt s | q :: r => do u s' <- lazy_touch pr k d0 n q s; touch_all pr k d0 n r s' end.
