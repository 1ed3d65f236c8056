(* The message classes over references: several variables, fields and list elements may refer to one object, and an object may contain
   itself.  Interp.v and Show.v describe the same methods (Gen*.v, forms in Ast.v) on values that are trees; here the objects and lists are
   cells of a heap.

   Simplifications: cells are never freed (the garbage collector is not observable); lists are java.util.ArrayLists; Integer, String and
   the other immutable values have no identity (the generated code never compares them with ==). *)
From Coq Require Import ZArith List Bool String.
From Verif.Model Require Import JavaPrim ByteBuf Utf8 Codec Ast Interp Show.
Import ListNotations.
Open Scope Z_scope.

Inductive hval := HNull | HInt (z : Z) | HFlt (bits : Z) | HStr (s : list Z) | HRef (l : nat).
Inductive cell := CObj (c : string) (fs : list (string * hval)) | CList (vs : list hval).
Definition heap := list cell.                                     (* a location is an index *)

(* assignment to a cell; on the heap itself, no code of /repo *)
Definition upd {A} (h : list A) (l : nat) (x : A) : list A := firstn l h ++ match skipn l h with [] => [] | _ :: r => x :: r end.

Fixpoint hget (f : string) (fs : list (string * hval)) : hval :=
  match fs with [] => HNull | (g, v) :: r => if String.eqb f g then v else hget f r end.
Fixpoint hset (f : string) (x : hval) (fs : list (string * hval)) : list (string * hval) :=
  match fs with [] => [] | (g, v) :: r => if String.eqb f g then (g, x) :: r else (g, v) :: hset f x r end.
(* this.f and this.f = x for the object at l *)
Definition field (h : heap) (l : nat) (f : string) : hval := match nth_error h l with Some (CObj _ fs) => hget f fs | _ => HNull end.
Definition put_field (h : heap) (l : nat) (f : string) (x : hval) : heap :=
  match nth_error h l with Some (CObj c fs) => upd h l (CObj c (hset f x fs)) | _ => h end.
(* the elements of a list *)
Definition elements (h : heap) (v : hval) : option (list hval) :=
  match v with HRef l => match nth_error h l with Some (CList vs) => Some vs | _ => None end | _ => None end.
(* v.add(x), ArrayList.add; NullPointerException on null is ruled out by the forms (DList assigns a new list first) *)
Definition list_add (h : heap) (v x : hval) : heap :=
  match v with HRef l => match nth_error h l with Some (CList vs) => upd h l (CList (vs ++ [x])) | _ => h end | _ => h end.
Definition alloc_cell (h : heap) (k : cell) : heap * hval := (h ++ [k], HRef (List.length h)).

(* JLS 4.12.5, 15.9: new C() *)
Definition hdefault (t : ftype) : hval :=
  match t with TByte | TShort | TInt | TLong => HInt 0 | TFloat | TDouble => HFlt 0 | _ => HNull end.
Definition hnew (E : env) (h : heap) (c : string) : heap * hval :=
  match find_class E c with
  | Some cd => alloc_cell h (CObj c (map (fun ft => (fst ft, hdefault (snd ft))) (c_fields cd)))
  | None => (h, HNull)
  end.

(* ---------- encode ---------- *)
(* the String argument of BinaryCodec.writeFixedString and of the dynamic strings, e.g. StringPacket.java: encode; as Interp.string_of *)
Definition hstring_of (v : hval) : option jstring := match v with HNull => Some None | HStr s => Some (Some s) | _ => None end.

Section Encode.
  Variable enc : heap -> hval -> bytebuf -> option exn * heap * bytebuf.   (* x.encode(byteBuf) one frame deeper *)
  Variable sums : string -> option (list Z -> Z).

  (* one element of a list; forms and occurrences at Ast.eelem *)
  Definition henc_elem (x : eelem) (h : heap) (v : hval) (b : bytebuf) : option exn * heap * bytebuf :=
    match x with
    | XInt n o => match v with
                  | HInt z => let '(e, b') := write_int o n z b in (e, h, b')
                  | HNull => (Some NPE, h, b)
                  | _ => (Some TYPE, h, b)
                  end
    | XFlt n o => match v with
                  | HFlt z => let '(e, b') := write_int o n z b in (e, h, b')
                  | HNull => (Some NPE, h, b)
                  | _ => (Some TYPE, h, b)
                  end
    | XFix len pad lft => match hstring_of v with
                  | Some s => let '(e, b') := write_fixed s len pad lft b in (e, h, b')
                  | None => (Some TYPE, h, b)
                  end
    | XDyn zn zo n o => match hstring_of v with
                  | Some s => let '(e, b') := write_dyn s zn zo n o b in (e, h, b')
                  | None => (Some TYPE, h, b)
                  end
    | XObj => enc h v b
    end.

  (* for (int i = 0; i < this.f.size(); i++), e.g. NestedPacket.java:46-48.  The Java loop reads this.f again in every iteration;
     encode assigns only fields of type int (EDiff, ESum) and calls no method of a list that changes it, so it stays the same *)
  Fixpoint henc_elems (x : eelem) (h : heap) (l : list hval) (b : bytebuf) : option exn * heap * bytebuf :=
    match l with
    | [] => (None, h, b)
    | v :: r => match henc_elem x h v b with
                | (None, h', b') => henc_elems x h' r b'
                | other => other
                end
    end.

  (* state: heap, int locals, buffer *)
  Definition hest := (heap * list (string * nat) * bytebuf)%type.

  (* one statement of encode of the object at [this]; forms and occurrences at Ast.estmt *)
  Definition hexec_estmt (this : nat) (s : estmt) (st : hest) : option exn * hest :=
    let '(h, loc, b) := st in
    match s with
    | EWrite n o f => match field h this f with
                      | HInt z => let '(e, b') := write_int o n z b in (e, (h, loc, b'))
                      | _ => (Some TYPE, st)
                      end
    | EWriteF n o f => match field h this f with
                      | HFlt z => let '(e, b') := write_int o n z b in (e, (h, loc, b'))
                      | _ => (Some TYPE, st)
                      end
    | EFix f len pad lft => match hstring_of (field h this f) with
                      | Some v => let '(e, b') := write_fixed v len pad lft b in (e, (h, loc, b'))
                      | None => (Some TYPE, st)
                      end
    | EDyn f zn zo n o => match hstring_of (field h this f) with
                      | Some v => let '(e, b') := write_dyn v zn zo n o b in (e, (h, loc, b'))
                      | None => (Some TYPE, st)
                      end
    | EList f zn zo cast n o x =>
        match field h this f with
        | HNull => let '(e, b') := write_int zo zn 0 b in (e, (h, loc, b'))
        | v => match elements h v with
               | Some [] => let '(e, b') := write_int zo zn 0 b in (e, (h, loc, b'))
               | Some vs => match write_int o n (wrap cast (Z.of_nat (List.length vs))) b with
                            | (None, b') => let '(e, h', b'') := henc_elems x h vs b' in (e, (h', loc, b''))
                            | (Some e, b') => (Some e, (h, loc, b'))
                            end
               | None => (Some TYPE, st)
               end
        end
    | EObj f => let '(e, h', b') := enc h (field h this f) b in (e, (h', loc, b'))
    | EObjOpt f => match field h this f with
                   | HNull => (None, st)
                   | v => let '(e, h', b') := enc h v b in (e, (h', loc, b'))
                   end
    | EMark x => (None, (h, (x, widx b) :: loc, b))
    | EZero n o => let '(e, b') := write_int o n 0 b in (e, (h, loc, b'))
    | EDiff f x y => match assoc x loc, assoc y loc with
                     | Some i, Some j => (None, (put_field h this f (HInt (wrap 32 (Z.of_nat i - Z.of_nat j))), loc, b))
                     | _, _ => (Some TYPE, st)
                     end
    | EPatch n o x f => match assoc x loc, field h this f with
                     | Some i, HInt z => let '(e, b') := set_int o n i z b in (e, (h, loc, b'))
                     | _, _ => (Some TYPE, st)
                     end
    | ESum alg f => match sums alg with
                    | Some c => (None, (put_field h this f (HInt (wrap 32 (c (readable b)))), loc, b))
                    | None => (None, st)
                    end
    end.

  (* the body of encode, e.g. RootPacket.java:52-70 *)
  Fixpoint hexec_enc (this : nat) (ss : list estmt) (st : hest) : option exn * hest :=
    match ss with
    | [] => (None, st)
    | s :: r => match hexec_estmt this s st with
                | (None, st') => hexec_enc this r st'
                | x => x
                end
    end.
End Encode.

(* v.encode(byteBuf), dispatched on the class of the object v refers to, e.g. NestedPacket.java:41, 47, RootPacket.java:52-70 *)
Fixpoint hencode (E : env) (d : nat) (h : heap) (v : hval) (b : bytebuf) : option exn * heap * bytebuf :=
  match v, d with
  | HNull, _ => (Some NPE, h, b)
  | _, O => (Some SOE, h, b)
  | HRef l, S d' =>
      match nth_error h l with
      | Some (CObj c _) =>
          match find_class E c with
          | Some cd => let '(e, (h', _, b')) := hexec_enc (hencode E d') (checksum E) l (c_enc cd) (h, [], b) in (e, h', b')
          | None => (Some TYPE, h, b)
          end
      | _ => (Some TYPE, h, b)
      end
  | _, _ => (Some TYPE, h, b)
  end.

(* ---------- decode ---------- *)
(* the argument of create(key), e.g. RootPacket.java:76; as Interp.key_of *)
Definition hkey_of (v : hval) : option key := match v with HInt z => Some (KInt z) | HStr s => Some (KStr s) | _ => None end.

Section Decode.
  Variable dec : heap -> hval -> bytebuf -> option exn * heap * bytebuf.   (* x.decode(byteBuf) one frame deeper *)
  Variable new : heap -> string -> heap * hval.
  Variable create : key -> option string.

  Definition hdst := (heap * bytebuf)%type.

  (* one iteration of a list loop on this.f; forms and occurrences at Ast.delem *)
  Definition hdec_elem (this : nat) (f : string) (y : delem) (st : hdst) : option exn * hdst :=
    let '(h, b) := st in
    match y with
    | YInt n o => match read_bytes n b with
                  | (inr bs, b') => (None, (list_add h (field h this f) (HInt (get_int o bs)), b'))
                  | (inl e, b') => (Some e, (h, b'))
                  end
    | YFlt n o => match read_bytes n b with
                  | (inr bs, b') => (None, (list_add h (field h this f) (HFlt (get_bits o bs)), b'))
                  | (inl e, b') => (Some e, (h, b'))
                  end
    | YFix len pad lft => match read_fixed len pad lft b with
                  | (inr s, b') => (None, (list_add h (field h this f) (HStr s), b'))
                  | (inl e, b') => (Some e, (h, b'))
                  end
    | YDyn n o => match read_bytes n b with
                  | (inl e, b') => (Some e, (h, b'))
                  | (inr bs, b') =>
                      let len := get_int o bs in
                      if len >? 0 then
                        match read_chars len b' with
                        | (inr cs, b'') => (None, (list_add h (field h this f) (HStr (utf8_decode cs)), b''))
                        | (inl e, b'') => (Some e, (h, b''))
                        end
                      else (None, (h, b'))
                  end
    | YObj c => let '(h1, x) := new h c in                              (* C x = new C(); x.decode(byteBuf); this.f.add(x); *)
                match dec h1 x b with
                | (None, h2, b') => (None, (list_add h2 (field h2 this f) x, b'))
                | (Some e, h2, b') => (Some e, (h2, b'))
                end
    end.

  (* one statement of decode of the object at [this]; forms and occurrences at Ast.dstmt *)
  Definition hexec_dstmt (this : nat) (s : dstmt) (st : hdst) : option exn * hdst :=
    let '(h, b) := st in
    match s with
    | DRead n o f => match read_bytes n b with
                     | (inr bs, b') => (None, (put_field h this f (HInt (get_int o bs)), b'))
                     | (inl e, b') => (Some e, (h, b'))
                     end
    | DReadF n o f => match read_bytes n b with
                     | (inr bs, b') => (None, (put_field h this f (HFlt (get_bits o bs)), b'))
                     | (inl e, b') => (Some e, (h, b'))
                     end
    | DFix f len pad lft => match read_fixed len pad lft b with
                     | (inr s, b') => (None, (put_field h this f (HStr s), b'))
                     | (inl e, b') => (Some e, (h, b'))
                     end
    | DDyn f n o => match read_bytes n b with
                    | (inl e, b') => (Some e, (h, b'))
                    | (inr bs, b') =>
                        let len := get_int o bs in
                        if len >? 0 then
                          match read_chars len b' with
                          | (inr cs, b'') => (None, (put_field h this f (HStr (utf8_decode cs)), b''))
                          | (inl e, b'') => (Some e, (h, b''))
                          end
                        else (None, (h, b'))
                    end
    | DList f n o y => match read_bytes n b with
                    | (inl e, b') => (Some e, (h, b'))
                    | (inr bs, b') =>
                        let len := get_int o bs in
                        if len >? 0 then
                          let '(h1, l) := alloc_cell h (CList []) in                 (* this.f = new ArrayList<>() *)
                          repeat_z len (hdec_elem this f y) (put_field h1 this f l, b')
                        else (None, (h, b'))
                    end
    | DNewIfNull f c => match field h this f with
                        | HNull => let '(h1, x) := new h c in (None, (put_field h1 this f x, b))
                        | _ => (None, st)
                        end
    | DObj f => let '(e, h', b') := dec h (field h this f) b in (e, (h', b'))
    | DCreate f k => match hkey_of (field h this k) with
                     | Some kk => match create kk with
                                  | Some c => let '(h1, x) := new h c in (None, (put_field h1 this f x, b))
                                  | None => (Some IAE, st)
                                  end
                     | None => (Some IAE, st)
                     end
    end.

  (* the body of decode, e.g. RootPacket.java:73-79 *)
  Fixpoint hexec_dec (this : nat) (ss : list dstmt) (st : hdst) : option exn * hdst :=
    match ss with
    | [] => (None, st)
    | s :: r => match hexec_dstmt this s st with
                | (None, st') => hexec_dec this r st'
                | x => x
                end
    end.
End Decode.

(* v.decode(byteBuf), dispatched on the class of the object v refers to, e.g. RootPacket.java:73-79 *)
Fixpoint hdecode (E : env) (d : nat) (h : heap) (v : hval) (b : bytebuf) : option exn * heap * bytebuf :=
  match v, d with
  | HNull, _ => (Some NPE, h, b)
  | _, O => (Some SOE, h, b)
  | HRef l, S d' =>
      match nth_error h l with
      | Some (CObj c _) =>
          match find_class E c with
          | Some cd => let '(e, (h', b')) := hexec_dec (hdecode E d') (hnew E) (factory E c) l (c_dec cd) (h, b) in (e, h', b')
          | None => (Some TYPE, h, b)
          end
      | _ => (Some TYPE, h, b)
      end
  | _, _ => (Some TYPE, h, b)
  end.

(* ---------- equals, hashCode, toString ---------- *)
Section Equals.
  Variable eqo : hval -> hval -> option bool.   (* equals of message objects one frame deeper; None = StackOverflowError *)
  Variable h : heap.
  (* Objects.equals(a, b): a == b || (a != null && a.equals(b)), for anything but lists.  ([t]: declared type; see Interp.canon) *)
  Definition heq_item (t : ftype) (a b : hval) : option bool :=
    match a, b with
    | HNull, HNull => Some true
    | HInt x, HInt y => Some (x =? y)
    | HFlt x, HFlt y => Some (canon t x =? canon t y)
    | HStr x, HStr y => Some (if list_eq_dec Z.eq_dec x y then true else false)
    | HRef l, HRef m =>
        if Nat.eqb l m then Some true
        else match nth_error h l, nth_error h m with
             | Some (CObj _ _), Some (CObj _ _) => eqo a b
             | _, _ => Some false
             end
    | _, _ => Some false
    end.
  Fixpoint heq_items (t : ftype) (x y : list hval) : option bool :=
    match x, y with
    | [], [] => Some true
    | u :: x', w :: y' => match heq_item t u w with Some true => heq_items t x' y' | r => r end
    | _, _ => Some false
    end.
  (* ArrayList.equals: o == this, or element by element *)
  Definition heq_val (t : ftype) (a b : hval) : option bool :=
    match elements h a, elements h b with
    | Some x, Some y => match a, b with
                        | HRef l, HRef m => if Nat.eqb l m then Some true else heq_items (match t with TList u => u | _ => TCodec end) x y
                        | _, _ => Some false
                        end
    | _, _ => heq_item t a b
    end.
  (* the && chain of the generated equals, e.g. RootPacket.java:95-98 *)
  Fixpoint heq_fields (ts : list (string * ftype)) (names : list string) (fs gs : list (string * hval)) : option bool :=
    match names with
    | [] => Some true
    | f :: r => match heq_val (type_of f ts) (hget f fs) (hget f gs) with Some true => heq_fields ts r fs gs | x => x end
    end.
End Equals.

(* a.equals(b) for message objects, with the shortcut this == obj, e.g. RootPacket.java:87-99 *)
Fixpoint hequals (E : env) (d : nat) (h : heap) (a b : hval) : option bool :=
  match d with
  | O => None
  | S d' =>
      match a, b with
      | HRef l, HRef m =>
          match nth_error h l with
          | Some (CObj c fs) =>
              if Nat.eqb l m then Some true
              else match nth_error h m with
                   | Some (CObj c' gs) =>
                       if String.eqb c c' then
                         match find_class E c with
                         | Some cd => heq_fields (hequals E d' h) h (c_fields cd) (c_eq cd) fs gs
                         | None => None
                         end
                       else Some false
                   | _ => Some false
                   end
          | _ => None
          end
      | HRef l, _ => match nth_error h l with Some (CObj _ _) => Some false | _ => None end
      | _, _ => None
      end
  end.

Section Hash.
  Variable hasho : hval -> option Z.
  Variable h : heap.
  (* hashCode of a boxed number, String or message inside Objects.hash, e.g. RootPacket.java:83; as Interp.hash_val *)
  Definition hhash_item (t : ftype) (a : hval) : option Z :=
    match a with
    | HNull => Some 0
    | HInt z => Some (match t with TLong => fold64 z | _ => z end)
    | HFlt z => Some (match t with TFloat => wrap 32 (canon32 z) | _ => fold64 (wrap 64 (canon64 z)) end)
    | HStr s => Some (hash_chars s)
    | HRef _ => hasho a
    end.
  Fixpoint hhash_items (t : ftype) (l : list hval) (k : Z) : option Z :=
    match l with
    | [] => Some k
    | x :: r => match hhash_item t x with Some i => hhash_items t r (hash_step k i) | None => None end
    end.
  (* ArrayList.hashCode *)
  Definition hhash_val (t : ftype) (a : hval) : option Z :=
    match elements h a with
    | Some l => hhash_items (match t with TList u => u | _ => TCodec end) l 1
    | None => hhash_item t a
    end.
  (* Objects.hash(...), e.g. RootPacket.java:82-84 *)
  Fixpoint hhash_fields (ts : list (string * ftype)) (names : list string) (fs : list (string * hval)) (k : Z) : option Z :=
    match names with
    | [] => Some k
    | f :: r => match hhash_val (type_of f ts) (hget f fs) with Some i => hhash_fields ts r fs (hash_step k i) | None => None end
    end.
End Hash.
(* a.hashCode(), e.g. RootPacket.java:82-84; HashSelf is EmptyPacket.java (see Interp.jhash); None = StackOverflowError *)
Fixpoint hhash (E : env) (d : nat) (h : heap) (a : hval) : option Z :=
  match d with
  | O => None
  | S d' =>
      match a with
      | HRef l => match nth_error h l with
          | Some (CObj c fs) =>
              match find_class E c with
              | Some cd => match c_hash cd with
                           | HashSelf => hhash E d' h a
                           | HashFields names => hhash_fields (hhash E d' h) h (c_fields cd) names fs 1
                           end
              | None => None
              end
          | _ => None
          end
      | _ => None
      end
  end.

Section Show.
  Variable P : printers.
  Variable showo : hval -> option (list Z).
  Variable h : heap.
  (* String.valueOf, e.g. RootPacket.java:103-112; as Show.show_val *)
  Definition hshow_item (t : ftype) (v : hval) : option (list Z) :=
    match v with
    | HNull => Some (chars "null")
    | HInt z => Some (show_int z)
    | HFlt z => Some (match t with TFloat => show_float P z | _ => show_double P z end)
    | HStr s => Some s
    | HRef _ => showo v
    end.
  Fixpoint hshow_items (t : ftype) (l : list hval) : option (list Z) :=
    match l with
    | [] => Some []
    | x :: r => match hshow_item t x, hshow_items t r with
                | Some a, Some b => Some (match r with [] => a | _ => a ++ chars ", " ++ b end)
                | _, _ => None
                end
    end.
  (* AbstractCollection.toString *)
  Definition hshow_val (t : ftype) (v : hval) : option (list Z) :=
    match elements h v with
    | Some l => match hshow_items (match t with TList u => u | _ => TCodec end) l with
                | Some a => Some (chars "[" ++ a ++ chars "]")
                | None => None
                end
    | None => hshow_item t v
    end.
  (* + "l1=" + this.f1 + ", l2=" + this.f2 ..., e.g. RootPacket.java:102-113 *)
  Fixpoint hshow_fields (ts : list (string * ftype)) (first : bool) (ls : list (string * string)) (fs : list (string * hval)) : option (list Z) :=
    match ls with
    | [] => Some []
    | (l, f) :: r =>
        match hshow_val (type_of f ts) (hget f fs), hshow_fields ts false r fs with
        | Some a, Some b => Some ((if first then [] else chars ", ") ++ chars l ++ chars "=" ++ a ++ b)
        | _, _ => None
        end
    end.
End Show.
(* v.toString(), e.g. RootPacket.java:102-113; None = StackOverflowError *)
Fixpoint hstring (E : env) (P : printers) (d : nat) (h : heap) (v : hval) : option (list Z) :=
  match d with
  | O => None
  | S d' =>
      match v with
      | HRef l => match nth_error h l with
          | Some (CObj c fs) =>
              match find_class E c with
              | Some cd => match hshow_fields P (hstring E P d' h) h (c_fields cd) true (c_str cd) fs with
                           | Some a => Some (chars (c_tag cd) ++ chars " [" ++ a ++ chars "]")
                           | None => None
                           end
              | None => None
              end
          | _ => None
          end
      | _ => None
      end
  end.
