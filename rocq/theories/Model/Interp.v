(* Meaning of the generated classes: encode, decode, equals, hashCode, constructors.

   The code is that of sample-bin, risk-bin, sse-bin, szse-bin, bjse-bin src/main/java: the generated classes, as data in Gen*.v (with file and
   lines), in the statement forms of Ast.v (with an occurrence of each in /repo).  Here: what a form does.

   An execution returns the exception thrown (None: returned normally), the object and the buffer as they are
   at that point: Java does not roll back, so partial effects of a failing call stay visible.
   [d] is the number of stack frames left for nested encode/decode/... calls; 0 means StackOverflowError. *)
From Coq Require Import ZArith List Bool String.
From Verif.Model Require Import JavaPrim ByteBuf Utf8 Codec Ast.
Import ListNotations.
Open Scope Z_scope.

(* field access on the association list of an object: this.f, this.f = x *)
Fixpoint get (f : string) (fs : list (string * val)) : val :=
  match fs with
  | [] => VNull
  | (g, v) :: r => if String.eqb f g then v else get f r
  end.
Fixpoint set (f : string) (x : val) (fs : list (string * val)) : list (string * val) :=
  match fs with
  | [] => []
  | (g, v) :: r => if String.eqb f g then (g, x) :: r else (g, v) :: set f x r
  end.

(* the world a message runs in: the classes, the current content of every message factory (by owning class)
   and of the checksum registry *)
Record env := {
  classes : list (string * class_def);
  factory : string -> key -> option string;
  checksum : string -> option (list Z -> Z)
}.

Fixpoint assoc {A} (k : string) (l : list (string * A)) : option A :=
  match l with
  | [] => None
  | (k', a) :: r => if String.eqb k k' then Some a else assoc k r
  end.
Definition find_class (E : env) (c : string) : option class_def := assoc c (classes E).

(* JLS 4.12.5 default values; new C() (all classes have only the implicit constructor) *)
Definition default_val (t : ftype) : val :=
  match t with
  | TByte | TShort | TInt | TLong => VInt 0
  | TFloat | TDouble => VFlt 0
  | _ => VNull
  end.
Definition new_obj (E : env) (c : string) : val :=
  match find_class E c with
  | Some cd => VObj c (map (fun ft => (fst ft, default_val (snd ft))) (c_fields cd))
  | None => VNull
  end.

(* ---------- encode ---------- *)

(* a String field or element; anything else is a type error *)
Definition string_of (v : val) : option jstring :=
  match v with VNull => Some None | VStr s => Some (Some s) | _ => None end.

(* EDyn, XDyn; StringPacket.java:126-132 *)
Definition write_dyn (s : jstring) (zn : nat) (zo : endian) (n : nat) (o : endian) (b : bytebuf) : option exn * bytebuf :=
  match s with
  | Some ((_ :: _) as u) =>
      let bytes := utf8_encode u in
      match write_int o n (Z.of_nat (List.length bytes)) b with
      | (None, b') => write_bytes bytes b'
      | r => r
      end
  | _ => write_int zo zn 0 b
  end.

Section Encode.
  Variable enc : val -> bytebuf -> option exn * val * bytebuf.   (* x.encode(byteBuf) one frame deeper *)
  Variable sums : string -> option (list Z -> Z).

  (* one element of a list; forms and occurrences at Ast.eelem *)
  Definition enc_elem (x : eelem) (v : val) (b : bytebuf) : option exn * val * bytebuf :=
    match x with
    | XInt n o => match v with
                  | VInt z => let '(e, b') := write_int o n z b in (e, v, b')
                  | VNull => (Some NPE, v, b)           (* unboxing *)
                  | _ => (Some TYPE, v, b)
                  end
    | XFlt n o => match v with
                  | VFlt z => let '(e, b') := write_int o n z b in (e, v, b')
                  | VNull => (Some NPE, v, b)
                  | _ => (Some TYPE, v, b)
                  end
    | XFix len pad lft => match string_of v with
                  | Some s => let '(e, b') := write_fixed s len pad lft b in (e, v, b')
                  | None => (Some TYPE, v, b)
                  end
    | XDyn zn zo n o => match string_of v with
                  | Some s => let '(e, b') := write_dyn s zn zo n o b in (e, v, b')
                  | None => (Some TYPE, v, b)
                  end
    | XObj => enc v b
    end.

  (* for (int i = 0; i < this.f.size(); i++), e.g. NestedPacket.java:46-48 *)
  Fixpoint enc_elems (x : eelem) (l : list val) (b : bytebuf) : option exn * list val * bytebuf :=
    match l with
    | [] => (None, [], b)
    | v :: r =>
        match enc_elem x v b with
        | (None, v', b') => let '(e, r', b'') := enc_elems x r b' in (e, v' :: r', b'')
        | (Some e, v', b') => (Some e, v' :: r, b')
        end
    end.

  (* state: fields of this, int locals, buffer *)
  Definition est := (list (string * val) * list (string * nat) * bytebuf)%type.

  (* one statement of encode; forms and occurrences at Ast.estmt *)
  Definition exec_estmt (s : estmt) (st : est) : option exn * est :=
    let '(fs, loc, b) := st in
    match s with
    | EWrite n o f => match get f fs with
                      | VInt z => let '(e, b') := write_int o n z b in (e, (fs, loc, b'))
                      | _ => (Some TYPE, st)
                      end
    | EWriteF n o f => match get f fs with
                      | VFlt z => let '(e, b') := write_int o n z b in (e, (fs, loc, b'))
                      | _ => (Some TYPE, st)
                      end
    | EFix f len pad lft => match string_of (get f fs) with
                      | Some v => let '(e, b') := write_fixed v len pad lft b in (e, (fs, loc, b'))
                      | None => (Some TYPE, st)
                      end
    | EDyn f zn zo n o => match string_of (get f fs) with
                      | Some v => let '(e, b') := write_dyn v zn zo n o b in (e, (fs, loc, b'))
                      | None => (Some TYPE, st)
                      end
    | EList f zn zo cast n o x =>
        match get f fs with
        | VNull | VList [] => let '(e, b') := write_int zo zn 0 b in (e, (fs, loc, b'))
        | VList l =>
            match write_int o n (wrap cast (Z.of_nat (List.length l))) b with
            | (None, b') => let '(e, l', b'') := enc_elems x l b' in (e, (set f (VList l') fs, loc, b''))
            | (Some e, b') => (Some e, (fs, loc, b'))
            end
        | _ => (Some TYPE, st)
        end
    | EObj f => let '(e, v', b') := enc (get f fs) b in (e, (set f v' fs, loc, b'))
    | EObjOpt f => match get f fs with
                   | VNull => (None, st)
                   | v => let '(e, v', b') := enc v b in (e, (set f v' fs, loc, b'))
                   end
    | EMark x => (None, (fs, (x, widx b) :: loc, b))
    | EZero n o => let '(e, b') := write_int o n 0 b in (e, (fs, loc, b'))
    | EDiff f x y => match assoc x loc, assoc y loc with
                     | Some i, Some j => (None, (set f (VInt (wrap 32 (Z.of_nat i - Z.of_nat j))) fs, loc, b))
                     | _, _ => (Some TYPE, st)
                     end
    | EPatch n o x f => match assoc x loc, get f fs with
                     | Some i, VInt z => let '(e, b') := set_int o n i z b in (e, (fs, loc, b'))
                     | _, _ => (Some TYPE, st)
                     end
    | ESum alg f => match sums alg with
                    | Some c => (None, (set f (VInt (wrap 32 (c (readable b)))) fs, loc, b))
                    | None => (None, st)
                    end
    end.

  (* the body of encode, e.g. RootPacket.java:52-70 *)
  Fixpoint exec_enc (ss : list estmt) (st : est) : option exn * est :=
    match ss with
    | [] => (None, st)
    | s :: r => match exec_estmt s st with
                | (None, st') => exec_enc r st'
                | x => x
                end
    end.
End Encode.

(* v.encode(byteBuf), dispatched on the class of v *)
Fixpoint encode (E : env) (d : nat) (v : val) (b : bytebuf) : option exn * val * bytebuf :=
  match v, d with
  | VNull, _ => (Some NPE, v, b)            (* invocation on null: no frame is entered *)
  | _, O => (Some SOE, v, b)
  | VObj c fs, S d' =>
      match find_class E c with
      | Some cd => let '(e, (fs', _, b')) := exec_enc (encode E d') (checksum E) (c_enc cd) (fs, [], b) in
                       (e, VObj c fs', b')
      | None => (Some TYPE, v, b)
      end
  | _, _ => (Some TYPE, v, b)
  end.

(* ---------- decode ---------- *)

(* for (int i = 0; i < p; i++) body, leaving at the first exception *)
Fixpoint repeat_pos {S} (p : positive) (body : S -> option exn * S) (s : S) : option exn * S :=
  let twice q s := match repeat_pos q body s with
                   | (None, s') => repeat_pos q body s'
                   | x => x
                   end in
  match p with
  | xH => body s
  | xO q => twice q s
  | xI q => match body s with
            | (None, s') => twice q s'
            | x => x
            end
  end.
Definition repeat_z {S} (z : Z) (body : S -> option exn * S) (s : S) : option exn * S :=
  match z with Zpos p => repeat_pos p body s | _ => (None, s) end.

(* the argument of create(key), e.g. RootPacket.java:76 *)
Definition key_of (v : val) : option key :=
  match v with VInt z => Some (KInt z) | VStr s => Some (KStr s) | _ => None end.

Section Decode.
  Variable dec : val -> bytebuf -> option exn * val * bytebuf.   (* x.decode(byteBuf) one frame deeper *)
  Variable new : string -> val.
  Variable create : key -> option string.                       (* the factory of this class *)

  (* one iteration of a list loop: (list so far, buffer); forms and occurrences at Ast.delem *)
  Definition dec_elem (y : delem) (st : list val * bytebuf) : option exn * (list val * bytebuf) :=
    let '(l, b) := st in
    match y with
    | YInt n o => match read_bytes n b with
                  | (inr bs, b') => (None, (l ++ [VInt (get_int o bs)], b'))
                  | (inl e, b') => (Some e, (l, b'))
                  end
    | YFlt n o => match read_bytes n b with
                  | (inr bs, b') => (None, (l ++ [VFlt (get_bits o bs)], b'))
                  | (inl e, b') => (Some e, (l, b'))
                  end
    | YFix len pad lft => match read_fixed len pad lft b with
                  | (inr s, b') => (None, (l ++ [VStr s], b'))
                  | (inl e, b') => (Some e, (l, b'))
                  end
    | YDyn n o => match read_bytes n b with
                  | (inl e, b') => (Some e, (l, b'))
                  | (inr bs, b') =>
                      let len := get_int o bs in
                      if len >? 0 then
                        match read_chars len b' with
                        | (inr cs, b'') => (None, (l ++ [VStr (utf8_decode cs)], b''))
                        | (inl e, b'') => (Some e, (l, b''))
                        end
                      else (None, (l, b'))
                  end
    | YObj c => match dec (new c) b with
                | (None, v, b') => (None, (l ++ [v], b'))
                | (Some e, _, b') => (Some e, (l, b'))
                end
    end.

  Definition dst := (list (string * val) * bytebuf)%type.

  (* one statement of decode; forms and occurrences at Ast.dstmt *)
  Definition exec_dstmt (s : dstmt) (st : dst) : option exn * dst :=
    let '(fs, b) := st in
    match s with
    | DRead n o f => match read_bytes n b with
                     | (inr bs, b') => (None, (set f (VInt (get_int o bs)) fs, b'))
                     | (inl e, b') => (Some e, (fs, b'))
                     end
    | DReadF n o f => match read_bytes n b with
                     | (inr bs, b') => (None, (set f (VFlt (get_bits o bs)) fs, b'))
                     | (inl e, b') => (Some e, (fs, b'))
                     end
    | DFix f len pad lft => match read_fixed len pad lft b with
                     | (inr s, b') => (None, (set f (VStr s) fs, b'))
                     | (inl e, b') => (Some e, (fs, b'))
                     end
    | DDyn f n o => match read_bytes n b with
                    | (inl e, b') => (Some e, (fs, b'))
                    | (inr bs, b') =>
                        let len := get_int o bs in
                        if len >? 0 then
                          match read_chars len b' with
                          | (inr cs, b'') => (None, (set f (VStr (utf8_decode cs)) fs, b''))
                          | (inl e, b'') => (Some e, (fs, b''))
                          end
                        else (None, (fs, b'))
                    end
    | DList f n o y => match read_bytes n b with
                    | (inl e, b') => (Some e, (fs, b'))
                    | (inr bs, b') =>
                        let len := get_int o bs in
                        if len >? 0 then
                          let '(e, (l, b'')) := repeat_z len (dec_elem y) ([], b') in
                          (e, (set f (VList l) fs, b''))
                        else (None, (fs, b'))
                    end
    | DNewIfNull f c => match get f fs with
                        | VNull => (None, (set f (new c) fs, b))
                        | _ => (None, st)
                        end
    | DObj f => let '(e, v', b') := dec (get f fs) b in (e, (set f v' fs, b'))
    | DCreate f k => match key_of (get k fs) with
                     | Some kk => match create kk with
                                  | Some c => (None, (set f (new c) fs, b))
                                  | None => (Some IAE, st)          (* "Unsupported MsgType:" *)
                                  end
                     | None => (Some IAE, st)                       (* map.get(null) is null *)
                     end
    end.

  (* the body of decode, e.g. RootPacket.java:73-79 *)
  Fixpoint exec_dec (ss : list dstmt) (st : dst) : option exn * dst :=
    match ss with
    | [] => (None, st)
    | s :: r => match exec_dstmt s st with
                | (None, st') => exec_dec r st'
                | x => x
                end
    end.
End Decode.

(* v.decode(byteBuf), dispatched on the class of v *)
Fixpoint decode (E : env) (d : nat) (v : val) (b : bytebuf) : option exn * val * bytebuf :=
  match v, d with
  | VNull, _ => (Some NPE, v, b)            (* invocation on null: no frame is entered *)
  | _, O => (Some SOE, v, b)
  | VObj c fs, S d' =>
      match find_class E c with
      | Some cd => let '(e, (fs', b')) := exec_dec (decode E d') (new_obj E) (factory E c) (c_dec cd) (fs, b) in
                       (e, VObj c fs', b')
      | None => (Some TYPE, v, b)
      end
  | _, _ => (Some TYPE, v, b)
  end.

(* ---------- equals and hashCode ---------- *)

(* Float.equals / Double.equals compare floatToIntBits / doubleToLongBits: every NaN counts as the canonical one.
   The width is not recorded in the value; it is that of the field, hence the two patterns *)
Definition canon32 (z : Z) : Z := if (Z.land z 2139095040 =? 2139095040) && negb (Z.land z 8388607 =? 0) then 2143289344 else z.
Definition canon64 (z : Z) : Z :=
  if (Z.land z 9218868437227405312 =? 9218868437227405312) && negb (Z.land z 4503599627370495 =? 0)
  then 9221120237041090560 else z.
Definition canon (t : ftype) (z : Z) : Z := match t with TFloat => canon32 z | _ => canon64 z end.

Fixpoint type_of (f : string) (ts : list (string * ftype)) : ftype :=
  match ts with
  | [] => TCodec
  | (g, t) :: r => if String.eqb f g then t else type_of f r
  end.

Section Equals.
  Variable eqo : val -> val -> option bool.    (* equals of message objects one frame deeper; None = StackOverflowError *)
  (* Objects.equals on field values of declared type [t]; lists are compared element by element, stopping at the first difference *)
  Fixpoint eq_val (t : ftype) (a b : val) {struct a} : option bool :=
    match a, b with
    | VNull, VNull => Some true
    | VNull, _ => Some false
    | _, VNull => Some false
    | VInt x, VInt y => Some (x =? y)
    | VFlt x, VFlt y => Some (canon t x =? canon t y)
    | VStr x, VStr y => Some (if list_eq_dec Z.eq_dec x y then true else false)
    | VList x, VList y =>
        let t' := match t with TList u => u | _ => TCodec end in
        (fix go (x y : list val) : option bool :=
           match x, y with
           | [], [] => Some true
           | u :: x', w :: y' => match eq_val t' u w with
                                 | Some true => go x' y'
                                 | r => r
                                 end
           | _, _ => Some false
           end) x y
    | VObj _ _, VObj _ _ => eqo a b
    | _, _ => Some false
    end.
  (* the && chain of the generated equals, e.g. RootPacket.java:95-98 *)
  Fixpoint eq_fields (ts : list (string * ftype)) (names : list string) (fs gs : list (string * val)) : option bool :=
    match names with
    | [] => Some true
    | f :: r => match eq_val (type_of f ts) (get f fs) (get f gs) with
                | Some true => eq_fields ts r fs gs
                | x => x
                end
    end.
End Equals.

(* a.equals(b) for message objects; b may be null.  The generated methods begin with "if (this == obj) return true";
   objects are trees here, without identity, so that shortcut is left out (C40 proves reflexivity without it; Heap.v has it). *)
Fixpoint jequals (E : env) (d : nat) (a b : val) : option bool :=
  match d with
  | O => None
  | S d' =>
      match a, b with
      | VObj c fs, VObj c' gs =>
          if String.eqb c c' then
            match find_class E c with
            | Some cd => eq_fields (jequals E d') (c_fields cd) (c_eq cd) fs gs
            | None => None
            end
          else Some false
      | VObj _ _, _ => Some false
      | _, _ => None
      end
  end.

(* String.hashCode, List.hashCode, Arrays.hashCode all compute h = 31*h + x in int arithmetic *)
Definition hash_step (h x : Z) : Z := wrap 32 (31 * h + x).
Definition hash_chars (s : list Z) : Z := fold_left hash_step s 0.
(* Long.hashCode / Double.hashCode: (int)(v ^ (v >>> 32)) *)
Definition fold64 (z : Z) : Z := wrap 32 (Z.lxor z (lushr z 32)).

Section Hash.
  Variable hasho : val -> option Z.
  (* Objects.hash(...), e.g. RootPacket.java:82-84: hashCode of one argument, then of all of them *)
  Fixpoint hash_val (t : ftype) (a : val) {struct a} : option Z :=
    match a with
    | VNull => Some 0
    | VInt z => Some (match t with TLong => fold64 z | _ => z end)
    | VFlt z => Some (match t with TFloat => wrap 32 (canon32 z) | _ => fold64 (wrap 64 (canon64 z)) end)
    | VStr s => Some (hash_chars s)
    | VList l =>
        let t' := match t with TList u => u | _ => TCodec end in
        (fix go (l : list val) (h : Z) : option Z :=
           match l with
           | [] => Some h
           | x :: r => match hash_val t' x with
                       | Some k => go r (hash_step h k)
                       | None => None
                       end
           end) l 1
    | VObj _ _ => hasho a
    end.
  Fixpoint hash_fields (ts : list (string * ftype)) (names : list string) (fs : list (string * val)) (h : Z) : option Z :=
    match names with
    | [] => Some h
    | f :: r => match hash_val (type_of f ts) (get f fs) with
                | Some k => hash_fields ts r fs (hash_step h k)
                | None => None
                end
    end.
End Hash.

(* a.hashCode(); None = StackOverflowError *)
Fixpoint jhash (E : env) (d : nat) (a : val) : option Z :=
  match d with
  | O => None
  | S d' =>
      match a with
      | VObj c fs =>
          match find_class E c with
          | Some cd => match c_hash cd with
                       | HashSelf => jhash E d' a
                       | HashFields names => hash_fields (jhash E d') (c_fields cd) names fs 1
                       end
          | None => None
          end
      | _ => None
      end
  end.

(* ---------- well-typed objects: what javac lets a program build ---------- *)

Definition forall2b {A B} (p : A -> B -> bool) : list A -> list B -> bool :=
  fix go l m :=
    match l, m with
    | [], [] => true
    | a :: l', b :: m' => p a b && go l' m'
    | _, _ => false
    end.

Definition is_null (v : val) : bool := match v with VNull => true | _ => false end.

Fixpoint typed (C : list (string * class_def)) (v : val) (t : ftype) {struct v} : bool :=
  match v, t with
  | VInt z, TByte => in_signed 8 z
  | VInt z, TShort => in_signed 16 z
  | VInt z, TInt => in_signed 32 z
  | VInt z, TLong => in_signed 64 z
  | VFlt z, TFloat => (0 <=? z) && (z <? 2 ^ 32)
  | VFlt z, TDouble => (0 <=? z) && (z <? 2 ^ 64)
  | VNull, TStr => true
  | VStr s, TStr => forallb is_unit s
  | VNull, TList _ => true
  | VList l, TList u => forallb (fun x => is_null x || typed C x u) l      (* elements are boxed, so may be null *)
  | VNull, TObj _ => true
  | VNull, TCodec => true
  | VObj c fs, _ =>
      match t with TObj c' => String.eqb c c' | TCodec => true | _ => false end
      && match assoc c C with
         | Some cd => forall2b (fun fv ft => String.eqb (fst fv) (fst ft) && typed C (snd fv) (snd ft)) fs (c_fields cd)
         | None => false
         end
  | _, _ => false
  end.

(* an object of class c *)
Definition object_of (E : env) (c : string) (v : val) : bool :=
  negb (is_null v) && typed (classes E) v (TObj c).
