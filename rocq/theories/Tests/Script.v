(* The shape of the message tests of /repo: build objects, encode, decode, assertEquals.
   These are tests of the model against what the project itself expects, not proofs of properties. *)
From Coq Require Import ZArith List Bool String.
From Verif.Model Require Import JavaPrim ByteBuf Ast Interp Show Factory Library.
Import ListNotations.
Open Scope Z_scope.

Inductive arg := Lit (v : val) | Var (x : string) | AsList (l : list arg).
Inductive step :=
| New (x c : string)                       (* C x = new C(); *)
| Call (x m : string) (a : arg)            (* x.m(a); *)
| Encode (x : string)                      (* x.encode(buffer); *)
| Decode (x : string)                      (* x.decode(buffer); *)
| AssertEquals (x y : string).             (* assertEquals(x, y); *)

(* local variables; an object passed to a setter is copied, so a script must not change it afterwards (tools/testgen.py checks that) *)
Fixpoint look (x : string) (s : list (string * val)) : option val :=
  match s with
  | [] => None
  | (y, v) :: r => if String.eqb x y then Some v else look x r
  end.
Fixpoint value (s : list (string * val)) (a : arg) : option val :=
  match a with
  | Lit v => Some v
  | Var x => look x s
  | AsList l => match (fix go l := match l with
                                   | [] => Some []
                                   | a :: r => match value s a, go r with Some v, Some vs => Some (v :: vs) | _, _ => None end
                                   end) l with
                | Some vs => Some (VList vs)
                | None => None
                end
  end.
(* true: every step ran, nothing was thrown and every assertion held; depth is far more than any nesting needs *)
Fixpoint passes (s : list (string * val)) (b : bytebuf) (l : list step) : bool :=
  match l with
  | [] => true
  | New x c :: r => passes ((x, new_obj lib_env c) :: s) b r
  | Call x m a :: r =>
      match look x s, value s a with
      | Some v, Some w => match call_set lib_env v m w with Some v' => passes ((x, v') :: s) b r | None => false end
      | _, _ => false
      end
  | Encode x :: r =>
      match look x s with
      | Some v => match encode lib_env 20 v b with (None, v', b') => passes ((x, v') :: s) b' r | _ => false end
      | None => false
      end
  | Decode x :: r =>
      match look x s with
      | Some v => match decode lib_env 20 v b with (None, v', b') => passes ((x, v') :: s) b' r | _ => false end
      | None => false
      end
  | AssertEquals x y :: r =>
      match look x s, look y s with
      | Some v, Some w => match jequals lib_env 20 v w with Some true => passes s b r | _ => false end
      | _, _ => false
      end
  end.

(* Unpooled.buffer(), with either reading of readCharSequence *)
Definition fresh (slack : bool) : bytebuf :=
  {| arr := repeat 0 256; ridx := 0; widx := 0; maxcap := 2147483647; cs_slack := slack; policy := {| extra := fun n => n; fill := fun _ => 0 |} |}.
Definition test_passes (l : list step) : bool := passes [] (fresh true) l && passes [] (fresh false) l.
