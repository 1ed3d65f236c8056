(* Class initialisation (JLS 8.9.3, 12.4, 12.5): the constants of an enum with their fields and constructor, then static fields and static
   blocks in the order of the text.  Only what /repo uses: no static field of a class is read before the class is initialised, so that all
   classes are initialised here before anything else runs, each after those its initialiser uses.  Lazy.v initialises classes when they are first used; C93 says that this is no difference. *)
From Coq Require Import ZArith List Bool String.
From Verif.Model Require Import JavaPrim ByteBuf Ast Interp Show Heap.
From Verif.Java Require Import Lex Syntax Sem.
Import ListNotations.
Open Scope Z_scope.
Open Scope list_scope.

Definition kind_of (c : jclass) : string := match c with Class _ k _ _ _ _ _ => k end.
Definition has_args (c : jclass) : bool := existsb (fun e => match snd e with [] => false | _ => true end) (consts c).
(* the static fields and the fields of the constants *)
Definition stat_names (qc : string * jclass) : list string :=
  let '(q, c) := qc in
  flat_map (fun m => match m with
                     | MField mods _ x _ =>
                         if is_static mods || String.eqb (kind_of c) "interface" then [q ++ "." ++ x]%string
                         else if String.eqb (kind_of c) "enum" then
                           if has_args c then map (fun e => (q ++ "." ++ fst e ++ "." ++ x)%string) (consts c) else [q ++ "." ++ x]%string
                         else []
                     | _ => []
                     end) (members c).
Definition stat_keys (P : program) : list string := flat_map stat_names P.

Section Init.
  Variable P : program.
  Variable pr : printers.
  Variable vcall : string -> nat -> list jval -> st -> res jval.
  Variable k : nat.
  Let ev (q : string) (e : expr) (s : st) : res jval := eval P pr vcall (run P pr vcall k) {| x_this := None; x_class := q |} e (set_loc s []).
  Let ex (q : string) (l : list stmt) (s : st) : res unit := do v s' <- exec_all P pr vcall (run P pr vcall k) k {| x_this := None; x_class := q |} l (set_loc s []); Ret tt (set_loc s' (s_loc s)).
  Definition init_field (q x : string) (e : expr) (s : st) : res unit := do v s' <- ev q e s; Ret tt (put_stat (set_loc s' (s_loc s)) (q ++ "." ++ x)%string v).

  Fixpoint over {A} (f : A -> st -> res unit) (l : list A) (s : st) : res unit :=
    match l with [] => Ret tt s | x :: r => do u s' <- f x s; over f r s' end.
  (* INSTANCE: its fields, its constructor *)
  Definition init_one (q : string) (c : jclass) (s : st) : res unit :=
    do u s1 <- over (fun m s => match m with
                                | MField mods _ x (Some e) => if is_static mods then Ret tt s else init_field q x e s
                                | _ => Ret tt s
                                end) (members c) s;
    over (fun m s => match m with MCtor _ _ [] body => ex q body s | MCtor _ _ _ _ => Bad | _ => Ret tt s end) (members c) s1.
  (* a constant with arguments; covered if the constructor sets fields to parameters *)
  Definition init_const (q : string) (c : jclass) (nargs : string * list expr) (s : st) : res unit :=
    let '(n, args) := nargs in
    do vs s1 <- eval_args P pr vcall (run P pr vcall k) {| x_this := None; x_class := q |} args (set_loc s []);
    over (fun m s => match m with
                     | MCtor _ _ ps body =>
                         do ls s2 <- bind_params ps vs s [];
                         over (fun c s => match c with
                                          | SExpr (EAsg ASet (EField EThis x) (EName y)) =>
                                              match assoc y ls with Some (_, v) => Ret tt (put_stat s (q ++ "." ++ n ++ "." ++ x)%string v) | None => Bad end
                                          | _ => Bad
                                          end) body s2
                     | _ => Ret tt s
                     end) (members c) (set_loc s1 (s_loc s)).
  Definition init_class (qc : string * jclass) (s : st) : res unit :=
    let '(q, c) := qc in
    do u s1 <- (if String.eqb (kind_of c) "enum" then if has_args c then over (init_const q c) (consts c) s else init_one q c s else Ret tt s);
    over (fun m s => match m with
                     | MField mods _ x (Some e) => if is_static mods || String.eqb (kind_of c) "interface" then init_field q x e s else Ret tt s
                     | MStatic body => ex q body s
                     | _ => Ret tt s
                     end) (members c) s1.
  (* constants of interfaces need nothing; a nested class comes before the class around it, the services before their registry *)
  Definition init_order : program :=
    let is_if (qc : string * jclass) := String.eqb (kind_of (snd qc)) "interface" in
    filter is_if P ++ rev (filter (fun qc => negb (is_if qc)) P).
  Definition init_all (s : st) : res unit := over init_class init_order s.
End Init.
Definition start_stat (P : program) : list (string * jval) := map (fun x => (x, JVoid)) (stat_keys P).
