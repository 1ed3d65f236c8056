(* Class initialisation as the JVM does it (JLS 12.4.1): a class is initialised when it is first used, that is immediately before an object of it is
   made, a static method of it is called, or a static field of it is read or written; a class whose initialisation has begun is not initialised again
   (12.4.2, one thread).  The rest is Sem.v and Init.v, clause by clause; only the lines with [touch] and [use] are new.

   Constants of interfaces (ChecksumAlgorithms: strings) are constant variables (4.12.4): their values are there from the start.  C::new and C.class do
   not initialise C.  Simplifications: a call m(...) of the running class touches it also if m is not static (an object of the class exists then, and so
   it has been initialised); an exception in an initialiser comes out as it is, not wrapped (there is none in /repo, C93). *)
From Coq Require Import ZArith List Bool String Ascii.
From Verif.Model Require Import JavaPrim ByteBuf Utf8 Codec Ast Interp Show Heap.
From Verif.Java Require Import Lex Syntax Sem Init.
Import ListNotations.
Open Scope Z_scope.
Open Scope list_scope.

(* the static state also says which classes have been touched, under the name of the class with slashes: JB true or, if not, JVoid *)
Fixpoint mark (q : string) : string :=
  match q with EmptyString => EmptyString | String a r => String (if Ascii.eqb a "."%char then "/"%char else a) (mark r) end.
Definition is_interface (qc : string * jclass) : bool := String.eqb (kind_of (snd qc)) "interface".
Definition marks (P : program) : list string := map (fun qc => mark (fst qc)) (filter (fun qc => negb (is_interface qc)) P).
(* the class that declares a static field, or the field of a constant *)
Definition owner (P : program) (x : string) : option string := option_map fst (find (fun qc => existsb (String.eqb x) (stat_names qc)) P).
Definition constants (qc : string * jclass) : list (string * jval) :=
  flat_map (fun m => match m with MField _ _ x (Some (EStr u)) => [((fst qc ++ "." ++ x)%string, jstr (chars u))] | _ => [] end) (members (snd qc)).
Definition all_untouched (P : program) : list (string * jval) :=
  map (fun x => (x, JVoid)) (marks P)
  ++ map (fun x => (x, match assoc x (flat_map constants (filter is_interface P)) with Some v => v | None => JVoid end)) (stat_keys P).

Section LRun.
  Variable P : program.
  Variable pr : printers.
  Variable vcall : string -> nat -> list jval -> st -> res jval.
  (* initialise the class, unless that has begun *)
  Variable touch : string -> st -> res unit.
  Definition use (x : string) (s : st) : res unit := match owner P x with Some q => touch q s | None => Ret tt s end.

  Section Body.
    Variable call : option nat -> string -> string -> list jval -> st -> res jval.
    Variable k : nat.

    Definition lname_val (x0 : cx) (x : string) (s : st) : res jval :=
      match assoc x (s_loc s) with
      | Some (_, v) => Ret v s
      | None =>
          match x_this x0, field_ty P (x_class x0) x with
          | Some l, Some t => Ret (JT t (field (s_h s) l x)) s
          | _, _ =>
              do u s <- use (x_class x0 ++ "." ++ x)%string s;
              match assoc (x_class x0 ++ "." ++ x)%string (s_stat s) with
              | Some v => Ret v s
              | None =>
                  match assoc (x_class x0) P with
                  | Some d => if existsb (fun e => String.eqb x (fst e)) (consts d) then do u s <- touch (x_class x0) s; Ret (JOne (x_class x0)) s else Ret (JCls (resolve P (x_class x0) x)) s
                  | None => Ret (JCls x) s
                  end
              end
          end
      end.
    Definition lfield_val (v : jval) (x : string) (s : st) : res jval :=
      match v with
      | JT _ (HRef l) => match nth_error (s_h s) l with
                         | Some (CObj c _) => match field_ty P c x with Some t => Ret (JT t (field (s_h s) l x)) s | None => Bad end
                         | _ => Bad
                         end
      | JT _ HNull => Exc NPE s
      | JBytes bs => if String.eqb x "length" then Ret (jint (Z.of_nat (List.length bs))) s else Bad
      | JCls c => if String.eqb c "StandardCharsets" && String.eqb x "UTF_8" then Ret JCharset s
                  else do u s <- use (c ++ "." ++ x)%string s;
                       match assoc (c ++ "." ++ x)%string (s_stat s) with
                       | Some w => Ret w s
                       | None => match assoc c P with Some d => if is_const d x then do u s <- touch c s; Ret (JConst c x) s else Bad | None => Bad end
                       end
      | JConst c n => do u s <- use (c ++ "." ++ n ++ "." ++ x)%string s; match assoc (c ++ "." ++ n ++ "." ++ x)%string (s_stat s) with Some w => Ret w s | None => Bad end
      | _ => Bad
      end.
    (* a method of an enum constant; covered if it returns a field *)
    Definition lconst_call (c n m : string) (args : list jval) (s : st) : res jval :=
      match args, find_method P c m 0 with
      | [], Some ([], [SReturn (Some (EName x))]) => do u s <- use (c ++ "." ++ n ++ "." ++ x)%string s; match assoc (c ++ "." ++ n ++ "." ++ x)%string (s_stat s) with Some w => Ret w s | None => Bad end
      | _, _ => Bad
      end.
    (* e.m(args) once receiver and arguments are known; [x]: the static or singleton field the receiver was read from *)
    Definition ldispatch (x0 : cx) (x : string) (v : jval) (m : string) (args : list jval) (s : st) : res jval :=
      match v with
      | JBuf => buf_call m args s
      | JT _ HNull => Exc NPE s
      | JT _ (HStr u) => if String.eqb m "getClass" then Ret (JCls (class_of (s_h s) (HStr u))) s else str_call u m args s
      | JT t (HRef l) =>
          match nth_error (s_h s) l with
          | Some (CList vs) => if String.eqb m "getClass" then Ret (JCls (class_of (s_h s) (HRef l))) s else list_call t l vs m args s
          | Some (CObj c _) => if String.eqb m "getClass" then Ret (JCls c) s else vcall m l args s
          | None => Bad
          end
      | JT _ w => if String.eqb m "getClass" then Ret (JCls (class_of (s_h s) w)) s else Bad
      | JSvc a f => if String.eqb m "calc" then match args with [JBuf] => Ret (JT (T1 "Integer") (HInt (f (readable (s_b s))))) s | _ => Bad end
                    else if String.eqb m "algorithm" then match args with [] => Ret (jstr a) s | _ => Bad end
                    else Bad
      | JSup c => if String.eqb m "get" then do u s <- touch c s; new_object P c s else Bad
      | JMap f => do u s <- use (x_class x0 ++ "." ++ x)%string s; map_call (x_class x0 ++ "." ++ x)%string f m args s
      | JOne c => do u s <- touch c s; call None c m args s
      | JConst c n => lconst_call c n m args s
      | JCls c => match assoc c P with Some _ => do u s <- touch c s; call None c m args s | None => lib_call vcall c m args s end
      | _ => Bad
      end.

    (* assignment; [l]: a name, this.f, or an element of an array held by a static field *)
    Definition lassign (x0 : cx) (x : string) (v : jval) (s : st) : res jval :=
      match assoc x (s_loc s) with
      | Some (t, _) => conv t v s (fun w => Ret w (set_loc s (put_assoc x (t, w) (s_loc s))))
      | None =>
          match x_this x0, field_ty P (x_class x0) x with
          | Some l, Some t => conv t v s (fun w => match hval_of w with Some u => Ret w (set_h s (put_field (s_h s) l x u)) | None => Bad end)
          | _, _ => do u s <- use (x_class x0 ++ "." ++ x)%string s; Ret v (put_stat s (x_class x0 ++ "." ++ x)%string v)
          end
      end.
    Definition lassign_index (x0 : cx) (x : string) (i : Z) (v : jval) (s : st) : res jval :=
      do u s <- use (x_class x0 ++ "." ++ x)%string s;
      match assoc (x_class x0 ++ "." ++ x)%string (s_stat s), v with
      | Some (JArr zs), JT _ (HInt z) =>
          if (0 <=? i) && (i <? Z.of_nat (List.length zs)) then Ret v (put_stat s (x_class x0 ++ "." ++ x)%string (JArr (set_nth zs (Z.to_nat i) z)))
          else Exc IOOBE s
      | _, _ => Bad
      end.
    Fixpoint leval (x0 : cx) (e : expr) (s : st) {struct e} : res jval :=
      let leval_args := (fix go (l : list expr) (s : st) : res (list jval) :=
        match l with [] => Ret [] s | a :: r => do v s' <- leval x0 a s; do vs s'' <- go r s'; Ret (v :: vs) s'' end) in
      match e with
      | ENull => Ret jnull s
      | EThis => match x_this x0 with Some l => Ret (JT (T1 (x_class x0)) (HRef l)) s | None => Bad end
      | EBool b => Ret (JB b) s
      | EInt hex z => Ret (jint (if hex then hex32 z else z)) s
      | ELong z => Ret (JT (T1 "long") (HInt z)) s
      | EChr z => Ret (JT (T1 "char") (HInt z)) s
      | EStr u => Ret (jstr (chars u)) s
      | EName x => lname_val x0 x s
      | EField a x => do v s' <- leval x0 a s; lfield_val v x s'
      | ECall a m args => do v s' <- leval x0 a s; do vs s'' <- leval_args args s'; ldispatch x0 (var_of a) v m vs s''
      | ECallU m args =>
          do vs s' <- leval_args args s;
          if String.eqb m "getClass" then match x_this x0 with Some l => Ret (JCls (class_of (s_h s') (HRef l))) s' | None => Bad end
          else if String.eqb m "values" then
            match assoc (x_class x0) P, vs with Some d, [] => do u s' <- touch (x_class x0) s'; Ret (JVals (map (fun e => JConst (x_class x0) (fst e)) (consts d))) s' | _, _ => Bad end
          else do u s' <- touch (x_class x0) s'; call (x_this x0) (x_class x0) m vs s'
      | ENew t args =>
          do vs s' <- leval_args args s;
          match t, vs with
          | TyDia c, [] => if String.eqb c "ArrayList" then let '(h', v) := alloc_cell (s_h s') (CList []) in Ret (JT t v) (set_h s' h')
                           else if String.eqb c "HashMap" then Ret (JMap (fun _ => None)) s' else Bad
          | Ty c [], [] => do u s' <- touch (resolve P (x_class x0) c) s'; new_object P (resolve P (x_class x0) c) s'
          | _, _ => Bad
          end
      | ENewArr t n => do v s' <- leval x0 n s; num v s' (fun _ z => if 0 <=? z then Ret (JArr (repeat 0 (Z.to_nat z))) s' else Bad)
      | EIndex a i =>
          do v s' <- leval x0 a s; do w s'' <- leval x0 i s';
          match v with
          | JArr zs => num w s'' (fun _ z => if (0 <=? z) && (z <? Z.of_nat (List.length zs)) then Ret (jint (nth (Z.to_nat z) zs 0)) s'' else Exc IOOBE s'')
          | _ => Bad
          end
      | ECast t a =>
          do v s' <- leval x0 a s;
          if is_prim t then num v s' (fun _ z => Ret (JT t (HInt (cast_z t z))) s')
          else match v with
               | JT _ (HRef l) =>
                   match t with
                   | Ty c _ => match assoc (resolve P (x_class x0) c) P with
                               | Some _ => if String.eqb (class_of (s_h s') (HRef l)) (resolve P (x_class x0) c) then Ret (JT t (HRef l)) s' else Bad
                               | None => Ret (JT t (HRef l)) s'
                               end
                   | _ => Bad
                   end
               | JT _ w => Ret (JT t w) s'
               | w => Ret w s'
               end
      | EParen a => leval x0 a s
      | ENot a => do v s' <- leval x0 a s; match v with JB b => Ret (JB (negb b)) s' | _ => Bad end
      | EInv a => do v s' <- leval x0 a s; num v s' (fun t z => Ret (JT (if is_long t then T1 "long" else T1 "int") (HInt (Z.lnot z))) s')
      | EBin OAnd a b => do v s' <- leval x0 a s;
                         match v with JB true => do w s'' <- leval x0 b s'; match w with JB _ => Ret w s'' | _ => Bad end | JB false => Ret v s' | _ => Bad end
      | EBin OOr a b => do v s' <- leval x0 a s;
                        match v with JB false => do w s'' <- leval x0 b s'; match w with JB _ => Ret w s'' | _ => Bad end | JB true => Ret v s' | _ => Bad end
      | EBin o a b => do v s' <- leval x0 a s; do w s'' <- leval x0 b s'; binary pr vcall o v w s''
      | EInc (EName x) => do v s' <- lname_val x0 x s; num v s' (fun t z => do w s'' <- lassign x0 x (JT t (HInt (cast_z t (z + 1)))) s'; Ret v s'')
      | EDec (EName x) => do v s' <- lname_val x0 x s; num v s' (fun t z => do w s'' <- lassign x0 x (JT t (HInt (cast_z t (z - 1)))) s'; Ret v s'')
      | EAsg ASet (EName x) r => do v s' <- leval x0 r s; lassign x0 x v s'
      | EAsg ASet (EField EThis x) r => do v s' <- leval x0 r s; assign_field P x0 x v s'
      | EAsg ASet (EIndex (EName x) i) r =>
          do w s' <- leval x0 i s; num w s' (fun _ z => do v s'' <- leval x0 r s'; lassign_index x0 x z v s'')
      | EAsg (AOp o) (EName x) r =>
          do v s' <- lname_val x0 x s; do w s'' <- leval x0 r s';
          match lvalue_type P x0 x s with
          | Some t => do u s3 <- binary pr vcall o v w s''; num u s3 (fun _ z => lassign x0 x (JT t (HInt (cast_z t z))) s3)
          | None => Bad
          end
      | ERef c => Ret (JSup (resolve P (x_class x0) c)) s
      | EClass c => Ret (JCls (resolve P (x_class x0) c)) s
      | _ => Bad
      end.

    Definition leval_args (x0 : cx) : list expr -> st -> res (list jval) :=
      fix go (l : list expr) (s : st) : res (list jval) :=
        match l with [] => Ret [] s | a :: r => do v s' <- leval x0 a s; do vs s'' <- go r s'; Ret (v :: vs) s'' end.

    Fixpoint lexec (x0 : cx) (c : stmt) (s : st) {struct c} : res (option jval) :=
      let lexec_all := (fix go (l : list stmt) (s : st) : res (option jval) :=
        match l with [] => Ret None s | c :: r => do v s' <- lexec x0 c s; match v with Some _ => Ret v s' | None => go r s' end end) in
      match c with
      | SLocal t x None => Ret None (set_loc s ((x, (t, JVoid)) :: s_loc s))
      | SLocal t x (Some e) => do v s' <- leval x0 e s; declare t x v s'
      | SExpr e => do v s' <- leval x0 e s; Ret None s'
      | SIf e a b => do v s' <- leval x0 e s;
                     match v with
                     | JB true => scoped s' (lexec x0 a s')
                     | JB false => match b with Some d => scoped s' (lexec x0 d s') | None => Ret None s' end
                     | _ => Bad
                     end
      | SFor t x i c u b =>
          scoped s (do v s' <- leval x0 i s; do w s'' <- declare t x v s'; loop k (leval x0 c) (fun s => scoped s (lexec x0 b s)) (leval x0 u) s'')
      | SWhile c b => scoped s (loop k (leval x0 c) (fun s => scoped s (lexec x0 b s)) (Ret JVoid) s)
      | SDo b c => scoped s (do r s' <- scoped s (lexec x0 b s);
                             match r with
                             | Some _ => Ret r s'
                             | None => loop k (leval x0 c) (fun s => scoped s (lexec x0 b s)) (Ret JVoid) s'
                             end)
      | SEach t x e b =>
          do v s' <- leval x0 e s;
          match v with JVals vs => each (fun w s => scoped s (do u s1 <- declare t x w s; lexec x0 b s1)) vs s' | _ => Bad end
      | SReturn None => Ret (Some JVoid) s
      | SReturn (Some e) => do v s' <- leval x0 e s; Ret (Some v) s'
      | SThrow (ENew (Ty c []) [a]) => if String.eqb c "IllegalArgumentException" then do v s' <- leval x0 a s; Exc IAE s' else Bad
      | SBlock ss => scoped s (lexec_all ss s)
      | _ => Bad
      end.
    Definition lexec_all (x0 : cx) : list stmt -> st -> res (option jval) :=
      fix go (l : list stmt) (s : st) : res (option jval) :=
        match l with [] => Ret None s | c :: r => do v s' <- lexec x0 c s; match v with Some _ => Ret v s' | None => go r s' end end.
  End Body.

  Fixpoint lrun (k : nat) (this : option nat) (c m : string) (args : list jval) (s : st) : res jval :=
    match k with
    | O => Bad
    | S k' =>
        match find_method P c m (List.length args) with
        | Some (ps, body) =>
            do ls s1 <- bind_params ps args s [];
            match lexec_all (lrun k') k' {| x_this := this; x_class := c |} body (set_loc s1 ls) with
            | Ret v s2 => Ret (result v) (set_loc s2 (s_loc s))
            | Exc e s2 => Exc e (set_loc s2 (s_loc s))
            | Bad => Bad
            end
        | None => Bad
        end
    end.
End LRun.

Fixpoint lvcalls (P : program) (pr : printers) (touch : string -> st -> res unit) (k d : nat) (m : string) (l : nat) (args : list jval) (s : st) : res jval :=
  match d with
  | O => Exc SOE s
  | S d' =>
      match nth_error (s_h s) l with
      | Some (CObj c _) => lrun P pr (lvcalls P pr touch k d') touch k (Some l) c m args s
      | _ => Bad
      end
  end.

Section LInit.
  Variable P : program.
  Variable pr : printers.
  Variable vcall : string -> nat -> list jval -> st -> res jval.
  Variable touch : string -> st -> res unit.
  Variable k : nat.
  Let ev (q : string) (e : expr) (s : st) : res jval := leval P pr vcall touch (lrun P pr vcall touch k) {| x_this := None; x_class := q |} e (set_loc s []).
  Let ex (q : string) (l : list stmt) (s : st) : res unit := do v s' <- lexec_all P pr vcall touch (lrun P pr vcall touch k) k {| x_this := None; x_class := q |} l (set_loc s []); Ret tt (set_loc s' (s_loc s)).
  Definition linit_field (q x : string) (e : expr) (s : st) : res unit := do v s' <- ev q e s; Ret tt (put_stat (set_loc s' (s_loc s)) (q ++ "." ++ x)%string v).

  (* INSTANCE: its fields, its constructor *)
  Definition linit_one (q : string) (c : jclass) (s : st) : res unit :=
    do u s1 <- over (fun m s => match m with
                                | MField mods _ x (Some e) => if is_static mods then Ret tt s else linit_field q x e s
                                | _ => Ret tt s
                                end) (members c) s;
    over (fun m s => match m with MCtor _ _ [] body => ex q body s | MCtor _ _ _ _ => Bad | _ => Ret tt s end) (members c) s1.
  (* a constant with arguments; covered if the constructor sets fields to parameters *)
  Definition linit_const (q : string) (c : jclass) (nargs : string * list expr) (s : st) : res unit :=
    let '(n, args) := nargs in
    do vs s1 <- leval_args P pr vcall touch (lrun P pr vcall touch k) {| x_this := None; x_class := q |} args (set_loc s []);
    over (fun m s => match m with
                     | MCtor _ _ ps body =>
                         do ls s2 <- bind_params ps vs s [];
                         over (fun c s => match c with
                                          | SExpr (EAsg ASet (EField EThis x) (EName y)) =>
                                              match assoc y ls with Some (_, v) => Ret tt (put_stat s (q ++ "." ++ n ++ "." ++ x)%string v) | None => Bad end
                                          | _ => Bad
                                          end) body s2
                     | _ => Ret tt s
                     end) (members c) (set_loc s1 (s_loc s)).
  Definition linit_class (qc : string * jclass) (s : st) : res unit :=
    let '(q, c) := qc in
    do u s1 <- (if String.eqb (kind_of c) "enum" then if has_args c then over (linit_const q c) (consts c) s else linit_one q c s else Ret tt s);
    over (fun m s => match m with
                     | MField mods _ x (Some e) => if is_static mods || String.eqb (kind_of c) "interface" then linit_field q x e s else Ret tt s
                     | MStatic body => ex q body s
                     | _ => Ret tt s
                     end) (members c) s1.
End LInit.

(* [n]: how many initialisers may be under way at a time; [Bad] beyond it.  Calls on objects made by an initialiser have d frames *)
Fixpoint touches (P : program) (pr : printers) (k d n : nat) (q : string) (s : st) : res unit :=
  match assoc (mark q) (s_stat s), assoc q P with
  | Some JVoid, Some c =>
      match n with
      | O => Bad
      | S n' => linit_class P pr (lvcalls P pr (touches P pr k d n') k d) (touches P pr k d n') k (q, c) (put_stat s (mark q) (JB true))
      end
  | _, _ => Ret tt s
  end.
