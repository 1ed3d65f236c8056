(* The way back: from tokens to the tree (JLS 19, for the part of the language in Syntax.v), by recursive descent with a look ahead where JLS needs one.
   [k] bounds the depth of the recursion.  [proper]: trees that are Java - names are identifiers, types and operators stand where JLS 14 and 15 allow them. *)
From Coq Require Import List Bool ZArith String Ascii.
From Verif.Java Require Import Lex Syntax.
Import ListNotations.
Open Scope string_scope.
Open Scope list_scope.

Definition has_word (s : string) (l : list string) : bool := existsb (String.eqb s) l.
(* JLS 3.9 *)
Definition keywords : list string :=
  ["abstract"; "assert"; "boolean"; "break"; "byte"; "case"; "catch"; "char"; "class"; "const"; "continue"; "default"; "do"; "double"; "else"; "enum"; "extends"; "final"; "finally"; "float"; "for"; "goto"; "if"; "implements"; "import"; "instanceof"; "int"; "interface"; "long"; "native"; "new"; "package"; "private"; "protected"; "public"; "return"; "short"; "static"; "strictfp"; "super"; "switch"; "synchronized"; "this"; "throw"; "throws"; "transient"; "try"; "void"; "volatile"; "while"; "_"; "true"; "false"; "null"].
Definition is_letter (a : ascii) : bool := let n := nat_of_ascii a in (Nat.leb 65 n && Nat.leb n 90) || (Nat.leb 97 n && Nat.leb n 122) || Nat.eqb n 95.
Definition ident (s : string) : bool := match s with String a _ => is_letter a && negb (has_word s keywords) | EmptyString => false end.
Definition prims : list string := ["boolean"; "byte"; "char"; "short"; "int"; "long"; "float"; "double"; "void"].
Definition tname (s : string) : bool := ident s || has_word s prims.
Definition modifiers : list string := ["public"; "protected"; "private"; "abstract"; "static"; "final"; "default"; "synchronized"].
Definition kinds : list string := ["class"; "interface"; "enum"].

Definition is (s : string) (t : token) : bool := match t with T x => String.eqb x s | _ => false end.
Definition eat (s : string) (ts : list token) : option (list token) := match ts with t :: r => if is s t then Some r else None | [] => None end.
Definition eat_id (ts : list token) : option (string * list token) := match ts with T x :: r => if ident x then Some (x, r) else None | _ => None end.
(* a token an expression can begin with *)
Definition starts (t : token) : bool :=
  match t with T x => ident x || has_word x ["null"; "this"; "true"; "false"; "new"; "("; "!"; "~"] | _ => true end.
Definition next (p : token -> bool) (ts : list token) : bool := match ts with t :: _ => p t | [] => false end.

(* one or more, separated by commas *)
Fixpoint several {A} (p : list token -> option (A * list token)) (k : nat) (ts : list token) : option (list A * list token) :=
  match k with
  | O => None
  | S k => match p ts with
           | Some (a, r) => match eat "," r with
                            | Some r1 => match several p k r1 with Some (l, r2) => Some (a :: l, r2) | None => None end
                            | None => Some ([a], r)
                            end
           | None => None
           end
  end.
(* ( ... ) with zero or more, after the opening parenthesis *)
Definition enclosed {A} (p : list token -> option (A * list token)) (k : nat) (ts : list token) : option (list A * list token) :=
  match eat ")" ts with
  | Some r => Some ([], r)
  | None => match several p k ts with Some (l, r) => match eat ")" r with Some r1 => Some (l, r1) | None => None end | None => None end
  end.

(* ---------- types ---------- *)
Fixpoint brackets (t : ty) (ts : list token) : ty * list token :=
  match ts with
  | a :: b :: r => if is "[" a && is "]" b then brackets (TyArr t) r else (t, ts)
  | _ => (t, ts)
  end.
Fixpoint parse_ty (k : nat) (ts : list token) : option (ty * list token) :=
  match k with
  | O => None
  | S k =>
      match ts with
      | T x :: r =>
          if String.eqb x "?" then Some (TyAny, r)
          else if tname x then
            match eat "<" r with
            | None => Some (brackets (Ty x []) r)
            | Some r1 => match eat ">" r1 with
                         | Some r2 => Some (brackets (TyDia x) r2)
                         | None => match several (parse_ty k) k r1 with
                                   | Some (args, r2) => match eat ">" r2 with Some r3 => Some (brackets (Ty x args) r3) | None => None end
                                   | None => None
                                   end
                         end
            end
          else None
      | _ => None
      end
  end.
(* the type after new: no brackets *)
Definition parse_made (k : nat) (ts : list token) : option (ty * list token) :=
  match ts with
  | T x :: r =>
      if tname x then
        match eat "<" r with
        | None => Some (Ty x [], r)
        | Some r1 => match eat ">" r1 with
                     | Some r2 => Some (TyDia x, r2)
                     | None => match several (parse_ty k) k r1 with
                               | Some (args, r2) => match eat ">" r2 with Some r3 => Some (Ty x args, r3) | None => None end
                               | None => None
                               end
                     end
        end
      else None
  | _ => None
  end.

(* ---------- expressions ---------- *)
Definition op_ahead (ts : list token) : option (binop * list token) :=
  match ts with
  | T x :: r =>
      if String.eqb x ">" then
        if next (is ">") r then
          let r1 := tl r in
          if next (is ">=") r1 then None                                   (* >>>= *)
          else if next (is ">") r1 then Some (OUshr, tl r1) else Some (OShr, r1)
        else Some (OGt, r)
      else
        match find (fun p => String.eqb x (fst p)) [("||", OOr); ("&&", OAnd); ("|", OBOr); ("^", OXor); ("&", OBAnd); ("==", OEq); ("!=", ONe); ("<", OLt); ("<=", OLe); (">=", OGe); ("<<", OShl); ("+", OAdd); ("-", OSub); ("*", OMul); ("%", ORem)] with
        | Some (_, o) => Some (o, r)
        | None => None
        end
  | _ => None
  end.
Definition asg_ahead (ts : list token) : option (asgop * list token) :=
  match ts with
  | T x :: r =>
      if String.eqb x ">" then if next (is ">") r && next (is ">=") (tl r) then Some (AOp OUshr, tl (tl r)) else None
      else
        match find (fun p => String.eqb x (fst p)) [("=", ASet); ("|=", AOp OBOr); ("&=", AOp OBAnd); ("^=", AOp OXor); ("+=", AOp OAdd); ("-=", AOp OSub)] with
        | Some (_, o) => Some (o, r)
        | None => None
        end
  | _ => None
  end.
(* (T) before an operand *)
Definition cast_ahead (k : nat) (ts : list token) : option (ty * list token) :=
  match eat "(" ts with
  | Some r => match parse_ty k r with
              | Some (t, r1) => match eat ")" r1 with Some r2 => if next starts r2 then Some (t, r2) else None | None => None end
              | None => None
              end
  | None => None
  end.
Fixpoint parse_expr (k : nat) (ts : list token) : option (expr * list token) :=          (* assignment *)
  match k with
  | O => None
  | S k => match parse_bin k 2 ts with
           | Some (a, r) => match asg_ahead r with
                            | Some (o, r1) => match parse_expr k r1 with Some (b, r2) => Some (EAsg o a b, r2) | None => None end
                            | None => Some (a, r)
                            end
           | None => None
           end
  end
with parse_bin (k n : nat) (ts : list token) : option (expr * list token) :=             (* operators of level n and above *)
  match k with
  | O => None
  | S k => match parse_un k ts with Some (a, r) => operators k n a r | None => None end
  end
with operators (k n : nat) (a : expr) (ts : list token) : option (expr * list token) :=  (* a has been read; operators associate to the left *)
  match k with
  | O => None
  | S k => match op_ahead ts with
           | Some (o, r) => if Nat.leb n (level_op o)
                            then match parse_bin k (S (level_op o)) r with Some (b, r1) => operators k n (EBin o a b) r1 | None => None end
                            else Some (a, ts)
           | None => Some (a, ts)
           end
  end
with parse_un (k : nat) (ts : list token) : option (expr * list token) :=
  match k with
  | O => None
  | S k =>
      match eat "!" ts with
      | Some r => match parse_un k r with Some (a, r1) => Some (ENot a, r1) | None => None end
      | None =>
      match eat "~" ts with
      | Some r => match parse_un k r with Some (a, r1) => Some (EInv a, r1) | None => None end
      | None =>
      match cast_ahead k ts with
      | Some (t, r) => match parse_un k r with Some (a, r1) => Some (ECast t a, r1) | None => None end
      | None =>
      match parse_atom k ts with
      | Some (a0, r0) => match selectors k a0 r0 with
                         | Some (a, r) => match eat "++" r with
                                          | Some r1 => Some (EInc a, r1)
                                          | None => match eat "--" r with Some r1 => Some (EDec a, r1) | None => Some (a, r) end
                                          end
                         | None => None
                         end
      | None => None
      end end end end
  end
with parse_atom (k : nat) (ts : list token) : option (expr * list token) :=
  match k with
  | O => None
  | S k =>
      match ts with
      | TNum hex false z :: r => Some (EInt hex z, r)
      | TNum false true z :: r => Some (ELong z, r)
      | TNum true true z :: r => None
      | TLit s :: r => Some (EStr s, r)
      | TChr z :: r => Some (EChr z, r)
      | T x :: r =>
          if ident x then
            match eat "(" r with
            | Some r1 => match enclosed (parse_expr k) k r1 with Some (args, r2) => Some (ECallU x args, r2) | None => None end
            | None =>
            match eat "::" r with
            | Some r1 => match eat "new" r1 with Some r2 => Some (ERef x, r2) | None => None end
            | None => if next (is ".") r && next (is "class") (tl r) then Some (EClass x, tl (tl r)) else Some (EName x, r)
            end end
          else if String.eqb x "null" then Some (ENull, r)
          else if String.eqb x "this" then Some (EThis, r)
          else if String.eqb x "true" then Some (EBool true, r)
          else if String.eqb x "false" then Some (EBool false, r)
          else if String.eqb x "(" then
            match parse_expr k r with Some (a, r1) => match eat ")" r1 with Some r2 => Some (EParen a, r2) | None => None end | None => None end
          else if String.eqb x "new" then
            match parse_made k r with
            | Some (t, r1) =>
                match eat "(" r1 with
                | Some r2 => match enclosed (parse_expr k) k r2 with Some (args, r3) => Some (ENew t args, r3) | None => None end
                | None =>
                match eat "[" r1 with
                | Some r2 => match parse_expr k r2 with Some (n, r3) => match eat "]" r3 with Some r4 => Some (ENewArr t n, r4) | None => None end | None => None end
                | None => None
                end end
            | None => None
            end
          else None
      | [] => None
      end
  end
with selectors (k : nat) (a : expr) (ts : list token) : option (expr * list token) :=    (* a has been read; .x .m(...) [i] *)
  match k with
  | O => None
  | S k =>
      match eat "." ts with
      | Some r => match eat_id r with
                  | Some (x, r1) =>
                      match eat "(" r1 with
                      | Some r2 => match enclosed (parse_expr k) k r2 with Some (args, r3) => selectors k (ECall a x args) r3 | None => None end
                      | None => selectors k (EField a x) r1
                      end
                  | None => None
                  end
      | None =>
      match eat "[" ts with
      | Some r => match parse_expr k r with Some (i, r1) => match eat "]" r1 with Some r2 => selectors k (EIndex a i) r2 | None => None end | None => None end
      | None => Some (a, ts)
      end end
  end.

(* ---------- statements ---------- *)
(* T x, T<...> x, T[] x *)
Definition decl_ahead (ts : list token) : bool :=
  match ts with
  | T x :: b :: r => tname x && ((match b with T y => ident y | _ => false end) || is "<" b || (is "[" b && next (is "]") r))
  | _ => false
  end.
Definition paren_expr (k : nat) (ts : list token) : option (expr * list token) :=
  match eat "(" ts with
  | Some r => match parse_expr k r with Some (e, r1) => match eat ")" r1 with Some r2 => Some (e, r2) | None => None end | None => None end
  | None => None
  end.
Definition expr_then (s : string) (k : nat) (ts : list token) : option (expr * list token) :=
  match parse_expr k ts with Some (e, r) => match eat s r with Some r1 => Some (e, r1) | None => None end | None => None end.
(* T x *)
Definition parse_decl (k : nat) (ts : list token) : option ((ty * string) * list token) :=
  match parse_ty k ts with Some (t, r) => match eat_id r with Some (x, r1) => Some ((t, x), r1) | None => None end | None => None end.
Fixpoint parse_stmt (k : nat) (ts : list token) : option (stmt * list token) :=
  match k with
  | O => None
  | S k =>
      let stmt_after {A} (f : A -> stmt -> stmt) (x : option (A * list token)) :=
        match x with Some (a, r) => match parse_stmt k r with Some (s, r1) => Some (f a s, r1) | None => None end | None => None end in
      if next (is "{") ts then match parse_stmts k (tl ts) with Some (ss, r) => Some (SBlock ss, r) | None => None end
      else if next (is "if") ts then
        match paren_expr k (tl ts) with
        | Some (e, r) =>
            match parse_stmt k r with
            | Some (a, r1) => match eat "else" r1 with
                              | Some r2 => match parse_stmt k r2 with Some (b, r3) => Some (SIf e a (Some b), r3) | None => None end
                              | None => Some (SIf e a None, r1)
                              end
            | None => None
            end
        | None => None
        end
      else if next (is "for") ts then
        match eat "(" (tl ts) with
        | Some r =>
            match parse_decl k r with
            | Some ((t, x), r1) =>
                match eat "=" r1 with
                | Some r2 =>
                    match expr_then ";" k r2 with
                    | Some (i, r3) =>
                        match expr_then ";" k r3 with
                        | Some (c, r4) => stmt_after (fun u s => SFor t x i c u s) (expr_then ")" k r4)
                        | None => None
                        end
                    | None => None
                    end
                | None => match eat ":" r1 with Some r2 => stmt_after (fun e s => SEach t x e s) (expr_then ")" k r2) | None => None end
                end
            | None => None
            end
        | None => None
        end
      else if next (is "while") ts then stmt_after SWhile (paren_expr k (tl ts))
      else if next (is "do") ts then
        match parse_stmt k (tl ts) with
        | Some (a, r) => match eat "while" r with
                         | Some r1 => match paren_expr k r1 with Some (c, r2) => match eat ";" r2 with Some r3 => Some (SDo a c, r3) | None => None end | None => None end
                         | None => None
                         end
        | None => None
        end
      else if next (is "return") ts then
        match eat ";" (tl ts) with
        | Some r => Some (SReturn None, r)
        | None => match expr_then ";" k (tl ts) with Some (e, r) => Some (SReturn (Some e), r) | None => None end
        end
      else if next (is "throw") ts then match expr_then ";" k (tl ts) with Some (e, r) => Some (SThrow e, r) | None => None end
      else if decl_ahead ts then
        match parse_decl k ts with
        | Some ((t, x), r) =>
            match eat ";" r with
            | Some r1 => Some (SLocal t x None, r1)
            | None => match eat "=" r with Some r1 => match expr_then ";" k r1 with Some (e, r2) => Some (SLocal t x (Some e), r2) | None => None end | None => None end
            end
        | None => None
        end
      else match expr_then ";" k ts with Some (e, r) => Some (SExpr e, r) | None => None end
  end
with parse_stmts (k : nat) (ts : list token) : option (list stmt * list token) :=        (* up to the closing brace *)
  match k with
  | O => None
  | S k =>
      match eat "}" ts with
      | Some r => Some ([], r)
      | None => match parse_stmt k ts with
                | Some (s, r) => match parse_stmts k r with Some (ss, r1) => Some (s :: ss, r1) | None => None end
                | None => None
                end
      end
  end.
Definition parse_block (k : nat) (ts : list token) : option (list stmt * list token) := match eat "{" ts with Some r => parse_stmts k r | None => None end.
Definition parse_params (k : nat) (ts : list token) : option (list (ty * string) * list token) := match eat "(" ts with Some r => enclosed (parse_decl k) k r | None => None end.

(* ---------- classes ---------- *)
Fixpoint parse_notes (k : nat) (ts : list token) : option (list (string * option string) * list token) :=
  match k with
  | O => None
  | S k =>
      match eat "@" ts with
      | None => Some ([], ts)
      | Some r =>
          match eat_id r with
          | Some (n, r1) =>
              match eat "(" r1 with
              | Some (TLit s :: r2) => match eat ")" r2 with Some r3 => match parse_notes k r3 with Some (l, r4) => Some ((n, Some s) :: l, r4) | None => None end | None => None end
              | Some _ => None
              | None => match parse_notes k r1 with Some (l, r2) => Some ((n, None) :: l, r2) | None => None end
              end
          | None => None
          end
      end
  end.
Fixpoint parse_mods (ts : list token) : list string * list token :=
  match ts with
  | T x :: r => if has_word x modifiers then let '(l, r1) := parse_mods r in (x :: l, r1) else ([], ts)
  | _ => ([], ts)
  end.
Definition parse_tps (k : nat) (ts : list token) : option (list string * list token) :=
  match eat "<" ts with
  | Some r => match several eat_id k r with Some (l, r1) => match eat ">" r1 with Some r2 => Some (l, r2) | None => None end | None => None end
  | None => Some ([], ts)
  end.
Definition parse_const (k : nat) (ts : list token) : option ((string * list expr) * list token) :=
  match eat_id ts with
  | Some (x, r) => match eat "(" r with
                   | Some r1 => match enclosed (parse_expr k) k r1 with Some (args, r2) => Some ((x, args), r2) | None => None end
                   | None => Some ((x, []), r)
                   end
  | None => None
  end.
Definition parse_consts (k : nat) (kind : string) (ts : list token) : option (list (string * list expr) * list token) :=
  if String.eqb kind "enum" then
    match eat ";" ts with
    | Some r => Some ([], r)
    | None => match several (parse_const k) k ts with Some (l, r) => match eat ";" r with Some r1 => Some (l, r1) | None => None end | None => None end
    end
  else Some ([], ts).
Definition parse_supers (k : nat) (ts : list token) : option (list ty * list token) :=
  match eat "implements" ts with Some r => several (parse_ty k) k r | None => Some ([], ts) end.
Definition kind_ahead (ts : list token) : bool := match ts with T x :: _ => has_word x kinds | _ => false end.
(* ; or = e ; *)
Definition parse_init (k : nat) (ts : list token) : option (option expr * list token) :=
  match eat ";" ts with
  | Some r => Some (None, r)
  | None => match eat "=" ts with Some r => match expr_then ";" k r with Some (e, r1) => Some (Some e, r1) | None => None end | None => None end
  end.
(* after the type and name of a method *)
Definition parse_method (k : nat) (ts : list token) : option ((list (ty * string) * option (list stmt)) * list token) :=
  match parse_params k ts with
  | Some (ps, r) => match eat ";" r with
                    | Some r1 => Some ((ps, None), r1)
                    | None => match parse_block k r with Some (ss, r1) => Some ((ps, Some ss), r1) | None => None end
                    end
  | None => None
  end.
(* a field or a method, after its modifiers *)
Definition parse_rest (k : nat) (notes : list (string * option string)) (mods : list string) (ts : list token) : option (member * list token) :=
  match parse_tps k ts with
  | Some (tps, r) =>
      match parse_decl k r with
      | Some ((t, x), r1) =>
          if next (is "(") r1 then match parse_method k r1 with Some ((ps, body), r2) => Some (MMethod notes mods tps t x ps body, r2) | None => None end
          else match notes, tps with
               | [], [] => match parse_init k r1 with Some (e, r2) => Some (MField mods t x e, r2) | None => None end
               | _, _ => None
               end
      | None => None
      end
  | None => None
  end.
Fixpoint parse_member (k : nat) (ts : list token) : option (member * list token) :=
  match k with
  | O => None
  | S k =>
      if next (is "static") ts && next (is "{") (tl ts) then match parse_block k (tl ts) with Some (ss, r) => Some (MStatic ss, r) | None => None end
      else
        match parse_notes k ts with
        | None => None
        | Some (notes, r0) =>
            let '(mods, r) := parse_mods r0 in
            if kind_ahead r then
              match notes with [] => match parse_class k ts with Some (c, r1) => Some (MClass c, r1) | None => None end | _ => None end
            else
              match eat_id r with
              | Some (c, r1) =>
                  if next (is "(") r1 then
                    match notes, parse_params k r1 with
                    | [], Some (ps, r2) => match parse_block k r2 with Some (ss, r3) => Some (MCtor mods c ps ss, r3) | None => None end
                    | _, _ => None
                    end
                  else parse_rest k notes mods r
              | None => parse_rest k notes mods r
              end
        end
  end
with parse_class (k : nat) (ts : list token) : option (jclass * list token) :=
  match k with
  | O => None
  | S k =>
      let '(mods, r) := parse_mods ts in
      match r with
      | T kind :: r1 =>
          if has_word kind kinds then
            match eat_id r1 with
            | Some (name, r2) =>
                match parse_tps k r2 with
                | Some (tps, r3) =>
                    match parse_supers k r3 with
                    | Some (supers, r4) =>
                        match eat "{" r4 with
                        | Some r5 =>
                            match parse_consts k kind r5 with
                            | Some (consts, r6) => match parse_members k r6 with Some (ms, r7) => Some (Class mods kind name tps supers consts ms, r7) | None => None end
                            | None => None
                            end
                        | None => None
                        end
                    | None => None
                    end
                | None => None
                end
            | None => None
            end
          else None
      | _ => None
      end
  end
with parse_members (k : nat) (ts : list token) : option (list member * list token) :=
  match k with
  | O => None
  | S k =>
      match eat "}" ts with
      | Some r => Some ([], r)
      | None => match parse_member k ts with
                | Some (m, r) => match parse_members k r with Some (ms, r1) => Some (m :: ms, r1) | None => None end
                | None => None
                end
      end
  end.

Fixpoint parse_path (k : nat) (ts : list token) : option (list string * list token) :=   (* a.b.c; *)
  match k with
  | O => None
  | S k => match eat_id ts with
           | Some (x, r) => match eat "." r with
                            | Some r1 => match parse_path k r1 with Some (l, r2) => Some (x :: l, r2) | None => None end
                            | None => match eat ";" r with Some r1 => Some ([x], r1) | None => None end
                            end
           | None => None
           end
  end.
Fixpoint parse_imports (k : nat) (ts : list token) : option (list (list string) * list token) :=
  match k with
  | O => None
  | S k => match eat "import" ts with
           | Some r => match parse_path k r with
                       | Some (p, r1) => match parse_imports k r1 with Some (l, r2) => Some (p :: l, r2) | None => None end
                       | None => None
                       end
           | None => Some ([], ts)
           end
  end.
Definition parse_file (k : nat) (ts : list token) : option file :=
  match eat "package" ts with
  | Some r => match parse_path k r with
              | Some (p, r1) => match parse_imports k r1 with
                                | Some (is, r2) => match parse_class k r2 with Some (c, []) => Some {| f_package := p; f_imports := is; f_class := c |} | _ => None end
                                | None => None
                                end
              | None => None
              end
  | None => None
  end.

(* ---------- trees that are Java ---------- *)
Fixpoint proper_ty (t : ty) : bool :=            (* outside type arguments *)
  match t with
  | Ty n args => tname n && forallb (fun u => match u with TyAny => true | _ => proper_ty u end) args
  | TyDia n => tname n
  | TyArr u => proper_ty u
  | TyAny => false
  end.
Definition made_ty (t : ty) : bool := match t with TyArr _ => false | _ => proper_ty t end.
Definition is_var (e : expr) : bool := match e with EName _ | EField _ _ | EIndex _ _ => true | _ => false end.
Fixpoint proper_expr (e : expr) : bool :=
  match e with
  | ENull | EThis | EBool _ | EInt _ _ | ELong _ | EChr _ | EStr _ => true
  | EName x | ERef x | EClass x => ident x
  | EField a x => ident x && proper_expr a
  | ECall a m args => ident m && proper_expr a && forallb proper_expr args
  | ECallU m args => ident m && forallb proper_expr args
  | ENew t args => made_ty t && forallb proper_expr args
  | ENewArr t n => made_ty t && proper_expr n
  | EIndex a i => match a with ENewArr _ _ => false | _ => true end && proper_expr a && proper_expr i
  | ECast t a => proper_ty t && proper_expr a
  | EParen a | ENot a | EInv a => proper_expr a
  | EBin _ a b => proper_expr a && proper_expr b
  | EInc a | EDec a => is_var a && proper_expr a
  | EAsg _ a b => is_var a && proper_expr a && proper_expr b
  end.
Definition proper_opt (e : option expr) : bool := match e with Some x => proper_expr x | None => true end.
(* JLS 14.8 *)
Definition does (e : expr) : bool := match e with EAsg _ _ _ | EInc _ | EDec _ | ECall _ _ _ | ECallU _ _ | ENew _ _ => true | _ => false end.
Fixpoint proper_stmt (s : stmt) : bool :=
  match s with
  | SLocal t x e => proper_ty t && ident x && proper_opt e
  | SExpr e => does e && proper_expr e
  | SIf e a b => proper_expr e && proper_stmt a && match b with Some x => proper_stmt x | None => true end
  | SFor t x i c u a => proper_ty t && ident x && proper_expr i && proper_expr c && proper_expr u && proper_stmt a
  | SEach t x e a => proper_ty t && ident x && proper_expr e && proper_stmt a
  | SWhile c a | SDo a c => proper_expr c && proper_stmt a
  | SReturn e => proper_opt e
  | SThrow e => proper_expr e
  | SBlock ss => forallb proper_stmt ss
  end.
Definition proper_params (ps : list (ty * string)) : bool := forallb (fun p => proper_ty (fst p) && ident (snd p)) ps.
Definition proper_mods (ms : list string) : bool := forallb (fun m => has_word m modifiers) ms.
Fixpoint proper_member (m : member) : bool :=
  match m with
  | MField mods t x e => proper_mods mods && proper_ty t && ident x && proper_opt e
  | MMethod notes mods tps t m ps body =>
      forallb (fun n => ident (fst n)) notes && proper_mods mods && forallb ident tps && proper_ty t && ident m && proper_params ps && match body with Some ss => forallb proper_stmt ss | None => true end
  | MCtor mods c ps body => proper_mods mods && ident c && proper_params ps && forallb proper_stmt body
  | MStatic body => forallb proper_stmt body
  | MClass c => proper_class c
  end
with proper_class (c : jclass) : bool :=
  match c with
  | Class mods kind name tps supers consts ms =>
      proper_mods mods && has_word kind kinds && ident name && forallb ident tps && forallb proper_ty supers
      && (String.eqb kind "enum" || match consts with [] => true | _ => false end)
      && forallb (fun k => ident (fst k) && forallb proper_expr (snd k)) consts && forallb proper_member ms
  end.
Definition proper (f : file) : bool :=
  match f_package f with [] => false | p => forallb ident p end && forallb (fun i => match i with [] => false | p => forallb ident p end) (f_imports f)
  && proper_class (f_class f) && wf_class (f_class f).
