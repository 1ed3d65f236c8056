(* The part of the Java language the files of /repo are written in: trees, and the tokens a tree stands for (JLS 19).  Parentheses of the
   source are kept as nodes ([EParen]), so a tree is printed without adding any; [wf_expr] says that the nesting of operators is the one
   JLS 15 gives to that text (precedence, operators associate to the left). *)
From Coq Require Import List Bool ZArith String.
From Verif.Java Require Import Lex.
Import ListNotations.
Open Scope string_scope.

Inductive ty :=
| Ty (n : string) (args : list ty)            (* int, List<Short> *)
| TyDia (n : string)                          (* ArrayList<> *)
| TyArr (t : ty)                              (* int[] *)
| TyAny.                                      (* ? *)

Inductive binop := OOr | OAnd | OBOr | OXor | OBAnd | OEq | ONe | OLt | OGt | OLe | OGe | OShl | OShr | OUshr | OAdd | OSub | OMul | ORem.
Inductive asgop := ASet | AOp (o : binop).    (* =, |=, &=, +=, >>>= *)

Inductive expr :=
| ENull | EThis | EBool (b : bool)
| EInt (hex : bool) (z : Z) | ELong (z : Z) | EChr (z : Z) | EStr (s : string)
| EName (x : string)
| EField (e : expr) (x : string)              (* e.x *)
| ECall (e : expr) (m : string) (args : list expr)   (* e.m(...) *)
| ECallU (m : string) (args : list expr)      (* m(...) *)
| ENew (t : ty) (args : list expr)            (* new T(...) *)
| ENewArr (t : ty) (n : expr)                 (* new T[n] *)
| EIndex (a i : expr)                         (* a[i] *)
| ECast (t : ty) (e : expr)
| EParen (e : expr)
| ENot (e : expr) | EInv (e : expr)           (* !e, ~e *)
| EBin (o : binop) (e1 e2 : expr)
| EInc (e : expr) | EDec (e : expr)           (* e++, e-- *)
| EAsg (o : asgop) (l r : expr)
| ERef (c : string)                           (* C::new *)
| EClass (c : string).                        (* C.class *)

Inductive stmt :=
| SLocal (t : ty) (x : string) (e : option expr)
| SExpr (e : expr)
| SIf (e : expr) (s : stmt) (r : option stmt)
| SFor (t : ty) (x : string) (i c u : expr) (s : stmt)    (* for (t x = i; c; u) s *)
| SEach (t : ty) (x : string) (e : expr) (s : stmt)       (* for (t x : e) s *)
| SWhile (c : expr) (s : stmt)
| SDo (s : stmt) (c : expr)
| SReturn (e : option expr)
| SThrow (e : expr)
| SBlock (ss : list stmt).

Inductive member :=
| MField (mods : list string) (t : ty) (x : string) (e : option expr)
| MMethod (notes : list (string * option string)) (mods : list string) (tps : list string) (t : ty) (m : string) (ps : list (ty * string)) (body : option (list stmt))
| MCtor (mods : list string) (c : string) (ps : list (ty * string)) (body : list stmt)
| MStatic (body : list stmt)
| MClass (c : jclass)
with jclass :=
| Class (mods : list string) (kind : string) (name : string) (tps : list string) (supers : list ty) (consts : list (string * list expr)) (ms : list member).

Record file := { f_package : list string; f_imports : list (list string); f_class : jclass }.

(* ---------- tokens of a tree ---------- *)
Fixpoint sep {A} (d : list A) (l : list (list A)) : list A :=
  match l with [] => [] | [x] => x | x :: r => (x ++ d ++ sep d r)%list end.

Fixpoint p_ty (t : ty) : list token :=
  (match t with
   | Ty n [] => [T n]
   | Ty n args => [T n; T "<"] ++ sep [T ","] (map p_ty args) ++ [T ">"]
   | TyDia n => [T n; T "<"; T ">"]
   | TyArr u => p_ty u ++ [T "["; T "]"]
   | TyAny => [T "?"]
   end)%list.

Definition p_op (o : binop) : list token :=
  match o with
  | OOr => [T "||"] | OAnd => [T "&&"] | OBOr => [T "|"] | OXor => [T "^"] | OBAnd => [T "&"] | OEq => [T "=="] | ONe => [T "!="]
  | OLt => [T "<"] | OGt => [T ">"] | OLe => [T "<="] | OGe => [T ">="] | OShl => [T "<<"] | OShr => [T ">"; T ">"]
  | OUshr => [T ">"; T ">"; T ">"] | OAdd => [T "+"] | OSub => [T "-"] | OMul => [T "*"] | ORem => [T "%"]
  end.
Definition p_asg (o : asgop) : option (list token) :=
  match o with
  | ASet => Some [T "="]
  | AOp OBOr => Some [T "|="] | AOp OBAnd => Some [T "&="] | AOp OXor => Some [T "^="] | AOp OAdd => Some [T "+="] | AOp OSub => Some [T "-="]
  | AOp OUshr => Some [T ">"; T ">"; T ">="]
  | _ => None
  end.

Fixpoint p_expr (e : expr) : list token :=
  (match e with
   | ENull => [T "null"] | EThis => [T "this"] | EBool true => [T "true"] | EBool false => [T "false"]
   | EInt hex z => [TNum hex false z] | ELong z => [TNum false true z] | EChr z => [TChr z] | EStr s => [TLit s]
   | EName x => [T x]
   | EField a x => p_expr a ++ [T "."; T x]
   | ECall a m args => p_expr a ++ [T "."; T m; T "("] ++ sep [T ","] (map p_expr args) ++ [T ")"]
   | ECallU m args => [T m; T "("] ++ sep [T ","] (map p_expr args) ++ [T ")"]
   | ENew t args => [T "new"] ++ p_ty t ++ [T "("] ++ sep [T ","] (map p_expr args) ++ [T ")"]
   | ENewArr t n => [T "new"] ++ p_ty t ++ [T "["] ++ p_expr n ++ [T "]"]
   | EIndex a i => p_expr a ++ [T "["] ++ p_expr i ++ [T "]"]
   | ECast t a => [T "("] ++ p_ty t ++ [T ")"] ++ p_expr a
   | EParen a => [T "("] ++ p_expr a ++ [T ")"]
   | ENot a => [T "!"] ++ p_expr a
   | EInv a => [T "~"] ++ p_expr a
   | EBin o a b => p_expr a ++ p_op o ++ p_expr b
   | EInc a => p_expr a ++ [T "++"]
   | EDec a => p_expr a ++ [T "--"]
   | EAsg o a b => p_expr a ++ match p_asg o with Some l => l | None => [] end ++ p_expr b
   | ERef c => [T c; T "::"; T "new"]
   | EClass c => [T c; T "."; T "class"]
   end)%list.

Fixpoint p_stmt (s : stmt) : list token :=
  (match s with
   | SLocal t x None => p_ty t ++ [T x; T ";"]
   | SLocal t x (Some e) => p_ty t ++ [T x; T "="] ++ p_expr e ++ [T ";"]
   | SExpr e => p_expr e ++ [T ";"]
   | SIf e a None => [T "if"; T "("] ++ p_expr e ++ [T ")"] ++ p_stmt a
   | SIf e a (Some b) => [T "if"; T "("] ++ p_expr e ++ [T ")"] ++ p_stmt a ++ [T "else"] ++ p_stmt b
   | SFor t x i c u a => [T "for"; T "("] ++ p_ty t ++ [T x; T "="] ++ p_expr i ++ [T ";"] ++ p_expr c ++ [T ";"] ++ p_expr u ++ [T ")"] ++ p_stmt a
   | SEach t x e a => [T "for"; T "("] ++ p_ty t ++ [T x; T ":"] ++ p_expr e ++ [T ")"] ++ p_stmt a
   | SWhile c a => [T "while"; T "("] ++ p_expr c ++ [T ")"] ++ p_stmt a
   | SDo a c => [T "do"] ++ p_stmt a ++ [T "while"; T "("] ++ p_expr c ++ [T ")"; T ";"]
   | SReturn None => [T "return"; T ";"]
   | SReturn (Some e) => [T "return"] ++ p_expr e ++ [T ";"]
   | SThrow e => [T "throw"] ++ p_expr e ++ [T ";"]
   | SBlock ss => [T "{"] ++ flat_map p_stmt ss ++ [T "}"]
   end)%list.

Definition p_params (ps : list (ty * string)) : list token := ([T "("] ++ sep [T ","] (map (fun p => p_ty (fst p) ++ [T (snd p)]) ps) ++ [T ")"])%list.
Definition p_block (ss : list stmt) : list token := ([T "{"] ++ flat_map p_stmt ss ++ [T "}"])%list.
Definition p_tps (tps : list string) : list token :=
  match tps with [] => [] | _ => ([T "<"] ++ sep [T ","] (map (fun x => [T x]) tps) ++ [T ">"])%list end.

Fixpoint p_member (m : member) : list token :=
  (match m with
   | MField mods t x None => map T mods ++ p_ty t ++ [T x; T ";"]
   | MField mods t x (Some e) => map T mods ++ p_ty t ++ [T x; T "="] ++ p_expr e ++ [T ";"]
   | MMethod notes mods tps t m ps body =>
       flat_map (fun n => [T "@"; T (fst n)] ++ match snd n with None => [] | Some s => [T "("; TLit s; T ")"] end) notes ++
       map T mods ++ p_tps tps ++ p_ty t ++ [T m] ++ p_params ps ++
       match body with None => [T ";"] | Some ss => p_block ss end
   | MCtor mods c ps body => map T mods ++ [T c] ++ p_params ps ++ p_block body
   | MStatic body => [T "static"] ++ p_block body
   | MClass c => p_class c
   end)%list
with p_class (c : jclass) : list token :=
  (match c with
   | Class mods kind name tps supers consts ms =>
       map T mods ++ [T kind; T name] ++ p_tps tps ++
       match supers with [] => [] | _ => [T "implements"] ++ sep [T ","] (map p_ty supers) end ++
       [T "{"] ++
       (if String.eqb kind "enum"
        then sep [T ","] (map (fun k => T (fst k) :: match snd k with [] => [] | args => [T "("] ++ sep [T ","] (map p_expr args) ++ [T ")"] end) consts) ++ [T ";"]
        else []) ++
       flat_map p_member ms ++ [T "}"]
   end)%list.

Definition p_path (l : list string) : list token := sep [T "."] (map (fun x => [T x]) l).
Definition p_file (f : file) : list token :=
  ([T "package"] ++ p_path (f_package f) ++ [T ";"] ++
   flat_map (fun i => [T "import"] ++ p_path i ++ [T ";"]) (f_imports f) ++ p_class (f_class f))%list.

(* ---------- the nesting of operators (JLS 15) ---------- *)
Definition level_op (o : binop) : nat :=
  match o with
  | OOr => 2 | OAnd => 3 | OBOr => 4 | OXor => 5 | OBAnd => 6 | OEq | ONe => 7 | OLt | OGt | OLe | OGe => 8 | OShl | OShr | OUshr => 9
  | OAdd | OSub => 10 | OMul | ORem => 11
  end.
(* the grammatical class of a tree: 1 assignment, 2..11 binary operators, 12 unary, 13 postfix, 14 primary *)
Definition level (e : expr) : nat :=
  match e with
  | EAsg _ _ _ => 1
  | EBin o _ _ => level_op o
  | ECast _ _ | ENot _ | EInv _ => 12
  | EInc _ | EDec _ => 13
  | _ => 14
  end.
Definition at_least (n : nat) (e : expr) : bool := Nat.leb n (level e).
Fixpoint wf_expr (e : expr) : bool :=
  match e with
  | EField a _ => at_least 14 a && wf_expr a
  | ECall a _ args => at_least 14 a && wf_expr a && forallb wf_expr args
  | ECallU _ args | ENew _ args => forallb wf_expr args
  | ENewArr _ n => wf_expr n
  | EIndex a i => at_least 14 a && wf_expr a && wf_expr i
  | ECast _ a | ENot a | EInv a => at_least 12 a && wf_expr a
  | EParen a => wf_expr a
  | EBin o a b => at_least (level_op o) a && at_least (S (level_op o)) b && wf_expr a && wf_expr b
  | EInc a | EDec a => at_least 13 a && wf_expr a
  | EAsg o a b => match p_asg o with Some _ => true | None => false end && at_least 14 a && wf_expr a && wf_expr b
  | _ => true
  end.
Definition wf_opt (e : option expr) : bool := match e with Some x => wf_expr x | None => true end.
(* an else belongs to the nearest if (JLS 14.5): a then-branch before an else is a block or a simple statement *)
Definition closed_stmt (s : stmt) : bool := match s with SBlock _ | SExpr _ | SReturn _ | SThrow _ => true | _ => false end.
Fixpoint wf_stmt (s : stmt) : bool :=
  match s with
  | SLocal _ _ e => wf_opt e
  | SExpr e => wf_expr e
  | SIf e a None => wf_expr e && wf_stmt a
  | SIf e a (Some b) => wf_expr e && closed_stmt a && wf_stmt a && wf_stmt b
  | SFor _ _ i c u a => wf_expr i && wf_expr c && wf_expr u && wf_stmt a
  | SEach _ _ e a => wf_expr e && wf_stmt a
  | SWhile c a => wf_expr c && wf_stmt a
  | SDo a c => wf_stmt a && wf_expr c
  | SReturn e => wf_opt e
  | SThrow e => wf_expr e
  | SBlock ss => forallb wf_stmt ss
  end.
Fixpoint wf_member (m : member) : bool :=
  match m with
  | MField _ _ _ e => wf_opt e
  | MMethod _ _ _ _ _ _ body => match body with Some ss => forallb wf_stmt ss | None => true end
  | MCtor _ _ _ body | MStatic body => forallb wf_stmt body
  | MClass c => wf_class c
  end
with wf_class (c : jclass) : bool :=
  match c with Class _ _ _ _ _ consts ms => forallb (fun k => forallb wf_expr (snd k)) consts && forallb wf_member ms end.

(* ---------- comparing token sequences ---------- *)
Definition token_eqb (a b : token) : bool :=
  match a, b with
  | T x, T y => String.eqb x y
  | TNum h l z, TNum h' l' z' => Bool.eqb h h' && Bool.eqb l l' && Z.eqb z z'
  | TLit x, TLit y => String.eqb x y
  | TChr z, TChr z' => Z.eqb z z'
  | _, _ => false
  end.
Fixpoint tokens_eqb (a b : list token) : bool :=
  match a, b with
  | [], [] => true
  | x :: a', y :: b' => token_eqb x y && tokens_eqb a' b'
  | _, _ => false
  end.

(* the file with this text is the tree f *)
Definition reads (t : Text.text) (f : file) : Prop := lex t = Some (p_file f) /\ wf_class (f_class f) = true.
