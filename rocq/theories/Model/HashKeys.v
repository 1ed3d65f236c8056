(* java.util.HashMap with messages as keys, as a program may use one to find duplicates.  The map calls hashCode and equals of the messages, e.g.
   sample-bin/src/main/java/com/finproto/sample/messages/RootPacket.java:81-99; there is no such map in /repo.

   Simplifications: the key is not null; which of two entries with the same hash is asked first is not observable unless both match, and the
   list keeps the order in which they were put, as the chain of one bucket does.  HashMap keeps hash ^ (hash >>> 16) of the key as it was when it was put; the
   function is one to one, so the hash itself is kept here. *)
From Coq Require Import ZArith List Bool String.
From Verif.Model Require Import JavaPrim Ast Interp Heap.
Import ListNotations.
Open Scope Z_scope.

Section Map.
Context {A : Type}.
Record entry := Entry { e_hash : Z; e_key : hval; e_val : A }.
Definition same_ref (a b : hval) : bool := match a, b with HRef l, HRef m => Nat.eqb l m | _, _ => false end.

Section Calls.
  Variable E : env.
  Variable d : nat.                                       (* stack *)
  Variable h : heap.
  (* e.hash == hash && ((k = e.key) == key || key.equals(k)), HashMap.getNode, putVal, removeNode; None = StackOverflowError *)
  Definition hit (x : Z) (k : hval) (e : entry) : option bool :=
    if e_hash e =? x then if same_ref k (e_key e) then Some true else hequals E d h k (e_key e) else Some false.
  Fixpoint get_node (x : Z) (k : hval) (m : list entry) : option (option A) :=
    match m with
    | [] => Some None
    | e :: r => match hit x k e with
                | None => None
                | Some true => Some (Some (e_val e))
                | Some false => get_node x k r
                end
    end.
  (* an entry that is there keeps its key and gets the new value *)
  Fixpoint put_val (x : Z) (k : hval) (a : A) (m : list entry) : option (option A * list entry) :=
    match m with
    | [] => Some (None, [Entry x k a])
    | e :: r => match hit x k e with
                | None => None
                | Some true => Some (Some (e_val e), Entry (e_hash e) (e_key e) a :: r)
                | Some false => match put_val x k a r with Some (o, r') => Some (o, e :: r') | None => None end
                end
    end.
  Fixpoint remove_node (x : Z) (k : hval) (m : list entry) : option (option A * list entry) :=
    match m with
    | [] => Some (None, [])
    | e :: r => match hit x k e with
                | None => None
                | Some true => Some (Some (e_val e), r)
                | Some false => match remove_node x k r with Some (o, r') => Some (o, e :: r') | None => None end
                end
    end.
End Calls.

(* map.put(k, a), map.get(k), map.remove(k): each returns the value there was, or null *)
Inductive call := Put (k : hval) (a : A) | Get (k : hval) | Remove (k : hval).
Definition key_of_call (o : call) : hval := match o with Put k _ | Get k | Remove k => k end.
Definition do_call (E : env) (d : nat) (h : heap) (o : call) (m : list entry) : option (option A * list entry) :=
  match hhash E d h (key_of_call o) with
  | None => None
  | Some x => match o with
              | Put k a => put_val E d h x k a m
              | Get k => match get_node E d h x k m with Some r => Some (r, m) | None => None end
              | Remove k => remove_node E d h x k m
              end
  end.
(* the calls of a program; the heap may be another one at every call.  None if a StackOverflowError is thrown *)
Fixpoint do_calls (E : env) (d : nat) (cs : list (heap * call)) (m : list entry) : option (list (option A) * list entry) :=
  match cs with
  | [] => Some ([], m)
  | (h, o) :: r => match do_call E d h o m with
                   | None => None
                   | Some (a, m') => match do_calls E d r m' with Some (rs, m'') => Some (a :: rs, m'') | None => None end
                   end
  end.
End Map.
Arguments entry : clear implicits.
Arguments call : clear implicits.
