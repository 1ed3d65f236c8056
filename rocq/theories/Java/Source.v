(* The Java tree of a message class: what Gen*.v says about a class, written in Java.  The forms of Ast.v become the statements quoted
   there.  Proofs/JavaText.v compares the tokens of these trees with those of the files. *)
From Coq Require Import List Bool ZArith String Ascii.
From Verif.Model Require Import JavaPrim Ast.
From Verif.Java Require Import Lex Syntax.
Import ListNotations.
Open Scope string_scope.

(* "sample.NestedPacket.InerPacket" is called InerPacket in the text *)
Fixpoint simple_from (s acc : string) : string :=
  match s with
  | EmptyString => acc
  | String "." r => simple_from r EmptyString
  | String a r => simple_from r (acc ++ String a EmptyString)
  end.
Definition simple (s : string) : string := simple_from s EmptyString.
Definition upper (a : ascii) : ascii :=
  let n := nat_of_ascii a in if Nat.leb 97 n && Nat.leb n 122 then ascii_of_nat (n - 32) else a.
Definition capital (s : string) : string := match s with String a r => String (upper a) r | EmptyString => EmptyString end.

Definition T0 (n : string) : ty := Ty n [].

Definition boxed_name (t : ftype) : ty :=
  match t with
  | TByte => T0 "Byte" | TShort => T0 "Short" | TInt => T0 "Integer" | TLong => T0 "Long" | TFloat => T0 "Float" | TDouble => T0 "Double"
  | TStr => T0 "String" | TObj c => T0 (simple c) | TCodec => T0 "BinaryCodec" | TList _ => T0 "List"
  end.
Definition type_name (t : ftype) : ty :=
  match t with
  | TByte => T0 "byte" | TShort => T0 "short" | TInt => T0 "int" | TLong => T0 "long" | TFloat => T0 "float" | TDouble => T0 "double"
  | TList u => Ty "List" [boxed_name u]
  | _ => boxed_name t
  end.

Definition end_name (o : endian) : string := match o with BE => "" | LE => "LE" end.
(* Byte, Short, IntLE, ... *)
Definition int_name (n : nat) (o : endian) : string :=
  match n with 1%nat => "Byte" | 2%nat => "Short" ++ end_name o | 4%nat => "Int" ++ end_name o | _ => "Long" ++ end_name o end.
Definition flt_name (n : nat) (o : endian) : string := match n with 4%nat => "Float" ++ end_name o | _ => "Double" ++ end_name o end.
Definition local_type (n : nat) : ty := match n with 1%nat => T0 "byte" | 2%nat => T0 "short" | 4%nat => T0 "int" | _ => T0 "long" end.
Definition cast_type (w : Z) : ty := if Z.eqb w 16 then T0 "short" else T0 "int".

Definition buf : expr := EName "byteBuf".
Definition this_f (f : string) : expr := EField EThis f.
Definition lit (z : Z) : expr := EInt false z.
Definition utf8 : expr := EField (EName "StandardCharsets") "UTF_8".
Definition call_s (e : expr) (m : string) (args : list expr) : stmt := SExpr (ECall e m args).
Definition set_s (l r : expr) : stmt := SExpr (EAsg ASet l r).
Definition pad_args (pad : Z) (lft : bool) : list expr := if Z.eqb pad 32 && negb lft then [] else [EChr pad; EBool lft].
Definition for_i (lim : expr) (ss : list stmt) : stmt := SFor (T0 "int") "i" (lit 0) (EBin OLt (EName "i") lim) (EInc (EName "i")) (SBlock ss).

(* ---------- encode ---------- *)
Definition j_dyn (e : expr) (zn : nat) (zo : endian) (n : nat) (o : endian) : stmt :=
  SIf (ECall (EName "StringUtil") "isNullOrEmpty" [e])
      (SBlock [call_s buf ("write" ++ int_name zn zo) [lit 0]])
      (Some (SBlock [SLocal (TyArr (T0 "byte")) "bytes" (Some (ECall e "getBytes" [utf8]));
                     call_s buf ("write" ++ int_name n o) [EField (EName "bytes") "length"];
                     call_s buf "writeBytes" [EName "bytes"]])).
Definition j_eelem (x : eelem) (e : expr) : stmt :=
  match x with
  | XInt n o => call_s buf ("write" ++ int_name n o) [e]
  | XFlt n o => call_s buf ("write" ++ flt_name n o) [e]
  | XFix len pad lft => SExpr (ECallU "writeFixedString" ([buf; e; lit len] ++ pad_args pad lft))
  | XDyn zn zo n o => j_dyn e zn zo n o
  | XObj => call_s e "encode" [buf]
  end.
Definition j_estmt (flip : bool) (s : estmt) : list stmt :=
  match s with
  | EWrite n o f => [call_s buf ("write" ++ int_name n o) [this_f f]]
  | EWriteF n o f => [call_s buf ("write" ++ flt_name n o) [this_f f]]
  | EFix f len pad lft => [SExpr (ECallU "writeFixedString" ([buf; this_f f; lit len] ++ pad_args pad lft))]
  | EDyn f zn zo n o => [j_dyn (this_f f) zn zo n o]
  | EList f zn zo cast n o x =>
      [SIf (EBin OOr (EBin OEq ENull (this_f f)) (EBin OEq (ECall (this_f f) "size" []) (lit 0)))
           (SBlock [call_s buf ("write" ++ int_name zn zo) [lit 0]])
           (Some (SBlock [call_s buf ("write" ++ int_name n o) [ECast (cast_type cast) (ECall (this_f f) "size" [])];
                          for_i (ECall (this_f f) "size" []) [j_eelem x (ECall (this_f f) "get" [EName "i"])]]))]
  | EObj f => [call_s (this_f f) "encode" [buf]]
  | EObjOpt f => [SIf (if flip then EBin ONe (this_f f) ENull else EBin ONe ENull (this_f f)) (SBlock [call_s (this_f f) "encode" [buf]]) None]
  | EMark x => [SLocal (T0 "int") x (Some (ECall buf "writerIndex" []))]
  | EZero n o => [call_s buf ("write" ++ int_name n o) [lit 0]]
  | EDiff f x y => [set_s (this_f f) (ECast (T0 "int") (EParen (EBin OSub (EName x) (EName y))))]
  | EPatch n o x f => [call_s buf ("set" ++ int_name n o) [EName x; this_f f]]
  | ESum alg f =>
      [SLocal (Ty "ChecksumService" [T0 "ByteBuf"; T0 "Integer"]) "checksumService"
              (Some (ECall (ECall (EName "ChecksumServiceFactory") "getInstance" []) "getChecksumService" [EStr alg]));
       SIf (EBin ONe (EName "checksumService") ENull)
           (SBlock [set_s (this_f f) (ECast (T0 "int") (ECall (EName "checksumService") "calc" [buf]))]) None]
  end.

(* ---------- decode ---------- *)
Definition read_cs (x : string) : expr := ECall (ECall buf "readCharSequence" [EName x; utf8]) "toString" [].
Definition j_delem (f : string) (y : delem) : list stmt :=
  match y with
  | YInt n o => [call_s (this_f f) "add" [ECall buf ("read" ++ int_name n o) []]]
  | YFlt n o => [call_s (this_f f) "add" [ECall buf ("read" ++ flt_name n o) []]]
  | YFix len pad lft => [call_s (this_f f) "add" [ECallU "readFixedString" ([buf; lit len] ++ pad_args pad lft)]]
  | YDyn n o => [SLocal (local_type n) (f ++ "Len") (Some (ECall buf ("read" ++ int_name n o) []));
                 SIf (EBin OGt (EName (f ++ "Len")) (lit 0)) (SBlock [call_s (this_f f) "add" [read_cs (f ++ "Len")]]) None]
  | YObj c => [SLocal (T0 (simple c)) (f ++ "_") (Some (ENew (T0 (simple c)) []));
               call_s (EName (f ++ "_")) "decode" [buf];
               call_s (this_f f) "add" [EName (f ++ "_")]]
  end.
(* [own]: the class has a create method of its own (TradeCaptureCofirm.java:350, 364-370) *)
Definition create_call (own : bool) (f k : string) : expr :=
  if own then ECallU ("create" ++ capital f) [this_f k]
  else ECall (ECall (EName (capital f ++ "MessageFactory")) "getInstance" []) "create" [this_f k].
Definition j_dstmt (own : bool) (s : dstmt) : list stmt :=
  match s with
  | DRead n o f => [set_s (this_f f) (ECall buf ("read" ++ int_name n o) [])]
  | DReadF n o f => [set_s (this_f f) (ECall buf ("read" ++ flt_name n o) [])]
  | DFix f len pad lft => [set_s (this_f f) (ECallU "readFixedString" ([buf; lit len] ++ pad_args pad lft))]
  | DDyn f n o => [SLocal (local_type n) (f ++ "Len") (Some (ECall buf ("read" ++ int_name n o) []));
                   SIf (EBin OGt (EName (f ++ "Len")) (lit 0)) (SBlock [set_s (this_f f) (read_cs (f ++ "Len"))]) None]
  | DList f n o y => [SLocal (local_type n) (f ++ "Size") (Some (ECall buf ("read" ++ int_name n o) []));
                      SIf (EBin OGt (EName (f ++ "Size")) (lit 0))
                          (SBlock [set_s (this_f f) (ENew (TyDia "ArrayList") []);
                                   for_i (EName (f ++ "Size")) (j_delem f y)]) None]
  | DNewIfNull f c => [SIf (EBin OEq ENull (this_f f)) (SBlock [set_s (this_f f) (ENew (T0 (simple c)) [])]) None]
  | DObj f => [call_s (this_f f) "decode" [buf]]
  | DCreate f k => [set_s (this_f f) (create_call own f k)]
  end.

(* ---------- the other methods ---------- *)
Definition field_type (fs : list (string * ftype)) (f : string) : ty :=
  match find (fun g => String.eqb (fst g) f) fs with Some g => type_name (snd g) | None => T0 "" end.
Definition public (t : ty) (m : string) (ps : list (ty * string)) (body : list stmt) : member := MMethod [] ["public"] [] t m ps (Some body).
Definition override (t : ty) (m : string) (ps : list (ty * string)) (body : list stmt) : member :=
  MMethod [("Override", None)] ["public"] [] t m ps (Some body).
Definition j_getter (fs : list (string * ftype)) (g : string * string) : member :=
  public (field_type fs (snd g)) (fst g) [] [SReturn (Some (this_f (snd g)))].
Definition j_setter (fs : list (string * ftype)) (s : string * string) : member :=
  public (T0 "void") (fst s) [(field_type fs (snd s), snd s)] [set_s (this_f (snd s)) (EName (snd s))].
Fixpoint weave {A} (l m : list A) : list A := match l, m with x :: l', y :: m' => x :: y :: weave l' m' | _, _ => l ++ m end.

Definition j_hash (b : hashbody) : list stmt :=
  match b with
  | HashSelf => [SReturn (Some (ECall EThis "hashCode" []))]
  | HashFields fs => [SReturn (Some (ECall (EName "Objects") "hash" (map EName fs)))]
  end.
Definition eq_part (f : string) : expr := ECall (EName "Objects") "equals" [EName f; EField (EName "orther_") f].
Definition and_chain (fs : list string) : option expr :=
  match fs with [] => None | f :: r => Some (fold_left (fun e g => EBin OAnd e (eq_part g)) r (eq_part f)) end.
Definition j_eq (c : string) (fs : list string) : list stmt :=
  [SIf (EBin OEq EThis (EName "obj")) (SBlock [SReturn (Some (EBool true))]) None;
   SIf (EBin OOr (EBin OEq ENull (EName "obj")) (EBin ONe (ECallU "getClass" []) (ECall (EName "obj") "getClass" [])))
       (SBlock [SReturn (Some (EBool false))]) None] ++
  match and_chain fs with
  | None => [SReturn (Some (EBool true))]
  | Some e => [SLocal (T0 c) "orther_" (Some (ECast (T0 c) (EName "obj"))); SReturn (Some e)]
  end.
Fixpoint show_chain (first : bool) (ls : list (string * string)) (e : expr) : expr :=
  match ls with
  | [] => EBin OAdd e (EStr "]")
  | (l, f) :: r => show_chain false r (EBin OAdd (EBin OAdd e (EStr ((if first then "" else ", ") ++ l ++ "="))) (this_f f))
  end.
Definition j_show (tag : string) (ls : list (string * string)) : list stmt :=
  match ls with
  | [] => [SReturn (Some (EStr (tag ++ " []")))]
  | _ => [SReturn (Some (show_chain true ls (EStr (tag ++ " ["))))]
  end.

(* ---------- factories ---------- *)
Definition supplier_t : ty := Ty "Supplier" [T0 "BinaryCodec"].
Definition key_type (t : ftype) : ty := boxed_name t.
Definition key_lit (t : ftype) (k : key) : expr :=
  match k with
  | KInt z => match t with TShort => ECast (T0 "short") (lit z) | _ => ECast (T0 "int") (lit z) end
  | KStr s => EStr (fold_right (fun z r => String (ascii_of_N (Z.to_N z)) r) EmptyString s)
  end.
(* msgType is printed MsgType, applId ApplID *)
Definition key_label (k : string) : string := if String.eqb k "applId" then "ApplID" else capital k.
Definition new_map (mods : list string) (kt : ty) (x : string) : member := MField mods (Ty "Map" [kt; supplier_t]) x (Some (ENew (TyDia "HashMap") [])).
Definition j_create (mods : list string) (m : string) (kt : ty) (mp k : string) : member :=
  MMethod [] mods [] (T0 "BinaryCodec") m [(kt, k)]
    (Some [SLocal supplier_t "supplier" (Some (ECall (EName mp) "get" [EName k]));
           SIf (EBin OEq ENull (EName "supplier"))
               (SBlock [SThrow (ENew (T0 "IllegalArgumentException") [EBin OAdd (EStr ("Unsupported " ++ key_label k ++ ":")) (EName k)])]) None;
           SReturn (Some (ECall (EName "supplier") "get" []))]).
Definition put_s (mp : string) (k v : expr) : stmt := call_s (EName mp) "put" [k; v].
Definition get_instance (c : string) : member := MMethod [] ["public"; "static"] [] (T0 c) "getInstance" [] (Some [SReturn (Some (EName "INSTANCE"))]).
Definition instance : expr := ECallU "getInstance" [].

(* e.g. RootPacket.java:115-147 *)
Definition j_factory (f : string) (kt : ftype) (k : string) (es : list (key * string)) : jclass :=
  let name := capital f ++ "MessageFactory" in
  let mp := f ++ "Map" in
  Class ["public"; "static"] "enum" name [] [] [("INSTANCE", [])]
    [new_map ["private"; "final"] (key_type kt) mp;
     MStatic (map (fun e => call_s instance "register" [key_lit kt (fst e); ERef (simple (snd e))]) es);
     j_create ["public"] "create" (key_type kt) mp k;
     public (T0 "void") "register" [(key_type kt, k); (supplier_t, "supplier")] [put_s mp (EName k) (EName "supplier")];
     public (T0 "boolean") "remove" [(key_type kt, k)] [SReturn (Some (EBin ONe ENull (ECall (EName mp) "remove" [EName k])))];
     get_instance name].
(* SseBinary.java:129-217 *)
Definition j_msgtypes (vs : list (string * Z)) : jclass :=
  Class ["public"] "enum" "MessageType" [] [] (map (fun v => (fst v, [lit (snd v)])) vs)
    [MField ["private"; "final"] (T0 "int") "value" None;
     MCtor [] "MessageType" [(T0 "int", "value")] [set_s (this_f "value") (EName "value")];
     public (T0 "int") "getValue" [] [SReturn (Some (EName "value"))];
     MMethod [] ["public"; "static"] [] (T0 "MessageType") "fromValue" [(T0 "int", "value")]
       (Some [SEach (T0 "MessageType") "type" (ECallU "values" [])
                (SBlock [SIf (EBin OEq (EField (EName "type") "value") (EName "value")) (SBlock [SReturn (Some (EName "type"))]) None]);
              SThrow (ENew (T0 "IllegalArgumentException") [EBin OAdd (EStr "Unknown MessageType value: ") (EName "value")])])].
Definition name_of (vs : list (string * Z)) (z : Z) : string :=
  match find (fun v => Z.eqb (snd v) z) vs with Some v => fst v | None => "" end.
Definition j_factory_rev (f : string) (k : string) (es : list (key * string)) (vs : list (string * Z)) : jclass :=
  let name := capital f ++ "MessageFactory" in
  let mp := f ++ "Map" in
  let class_t := Ty "Class" [TyAny] in
  Class ["public"; "static"] "enum" name [] [] [("INSTANCE", [])]
    [new_map ["private"; "final"] (T0 "Integer") mp;
     MField ["private"; "final"] (Ty "Map" [class_t; T0 "Integer"]) "reverseMap" (Some (ENew (TyDia "HashMap") []));
     MClass (j_msgtypes vs);
     MStatic (map (fun e => call_s instance "register"
                              [EClass (simple (snd e));
                               ECall (EField (EName "MessageType") (match fst e with KInt z => name_of vs z | _ => "" end)) "getValue" [];
                               ERef (simple (snd e))]) es);
     j_create ["public"] "create" (T0 "Integer") mp k;
     public (T0 "void") "register" [(class_t, "clazz"); (T0 "Integer", k); (supplier_t, "supplier")]
       [put_s mp (EName k) (EName "supplier"); put_s "reverseMap" (EName "clazz") (EName k)];
     public (T0 "boolean") "remove" [(T0 "Integer", k)] [SReturn (Some (EBin ONe ENull (ECall (EName mp) "remove" [EName k])))];
     public (T0 "Integer") "getMsgType" [(class_t, "clazz")] [SReturn (Some (ECall (EName "reverseMap") "get" [EName "clazz"]))];
     get_instance name].

(* ---------- classes and files ---------- *)
(* how a class obtains the object of a field from a key: from an enum (most), from an enum with a reverse map (SSE), from a map of its own
   (TradeCaptureCofirm) *)
Inductive factory_form := FNone | FEnum (es : list (key * string)) | FEnumRev (es : list (key * string)) (vs : list (string * Z)) | FOwn (es : list (key * string)).
Definition is_own (ff : factory_form) : bool := match ff with FOwn _ => true | _ => false end.
Definition ftype_of (fs : list (string * ftype)) (f : string) : ftype :=
  match find (fun g => String.eqb (fst g) f) fs with Some g => snd g | None => TCodec end.
(* the field and the key field of the create statement *)
Definition create_of (cd : class_def) : string * string :=
  match flat_map (fun s => match s with DCreate f k => [(f, k)] | _ => [] end) (c_dec cd) with x :: _ => x | [] => ("", "") end.

Definition j_class (mods : list string) (flip : bool) (ff : factory_form) (nested : list jclass) (cd : class_def) : jclass :=
  let fs := c_fields cd in
  let name := simple (c_name cd) in
  let '(f, k) := create_of cd in
  let kt := ftype_of fs k in
  Class mods "class" name [] [T0 "BinaryCodec"] []
    (map (fun g => MField ["private"] (type_name (snd g)) (fst g) None) fs ++
     weave (map (j_getter fs) (c_get cd)) (map (j_setter fs) (c_set cd)) ++
     [override (T0 "void") "encode" [(T0 "ByteBuf", "byteBuf")] (flat_map (j_estmt flip) (c_enc cd));
      override (T0 "void") "decode" [(T0 "ByteBuf", "byteBuf")] (flat_map (j_dstmt (is_own ff)) (c_dec cd))] ++
     match ff with
     | FOwn es => [new_map ["private"; "static"; "final"] (T0 "String") (f ++ "Map");
                   MStatic (map (fun e => put_s (f ++ "Map") (key_lit kt (fst e)) (ERef (simple (snd e)))) es);
                   j_create ["private"] ("create" ++ capital f) (key_type kt) (f ++ "Map") k]
     | _ => []
     end ++
     [override (T0 "int") "hashCode" [] (j_hash (c_hash cd));
      override (T0 "boolean") "equals" [(T0 "Object", "obj")] (j_eq name (c_eq cd));
      override (T0 "String") "toString" [] (j_show (c_tag cd) (c_str cd))] ++
     map MClass nested ++
     match ff with
     | FEnum es => [MClass (j_factory f kt k es)]
     | FEnumRev es vs => [MClass (j_factory_rev f k es vs)]
     | _ => []
     end)%list.
