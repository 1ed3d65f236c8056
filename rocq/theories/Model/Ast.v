(* Values and the statement forms of the generated message classes.

   The encode/decode bodies of the 182 generated classes use only the statement forms below; the
   translator (tools/translate.py) maps each Java statement to one of them and stops on anything else.
   The Java text of a form is given beside it; its meaning is in Interp.v.  Every generated definition in Gen*.v cites
   the lines it was translated from; the lines cited here are one occurrence of each form, in
   sample-bin/src/main/java/com/finproto/sample/messages (BP = BasicPacket.java, SP = StringPacket.java,
   NP = NestedPacket.java, RP = RootPacket.java, EP = EmptyPacket.java). *)
From Coq Require Import ZArith List Bool String Ascii.
From Verif.Model Require Import JavaPrim.
Import ListNotations.

(* Java values that occur in message objects.  Simplification: objects are trees; Heap.v has references. *)
Inductive val :=
| VNull
| VInt (z : Z)                                  (* byte/short/int/long and their boxes *)
| VFlt (bits : Z)                               (* float/double and their boxes, as raw bits *)
| VStr (s : list Z)                             (* String: UTF-16 code units *)
| VList (l : list val)                          (* List<...> *)
| VObj (c : string) (fs : list (string * val)). (* message object: class, fields in declaration order *)

(* declared types of fields; inside TList the element type is the boxed one *)
Inductive ftype :=
| TByte | TShort | TInt | TLong | TFloat | TDouble | TStr
| TList (t : ftype) | TObj (c : string) | TCodec (* BinaryCodec *).

(* encoding of one list element  e = this.f.get(i): XInt BP:228, XFlt BP:300, XFix SP:179, XDyn SP:151-157, XObj NP:47 *)
Inductive eelem :=
| XInt (n : nat) (o : endian)                      (* byteBuf.writeX(e); *)
| XFlt (n : nat) (o : endian)                      (* byteBuf.writeFloatLE(e); / writeDoubleLE *)
| XFix (len : Z) (pad : Z) (left : bool)           (* writeFixedString(byteBuf, e, len, pad, left); *)
| XDyn (zn : nat) (zo : endian) (n : nat) (o : endian)
    (* if (StringUtil.isNullOrEmpty(e)) { byteBuf.writeZ(0); } else { byte[] bytes = e.getBytes(UTF_8);
       byteBuf.writeN(bytes.length); byteBuf.writeBytes(bytes); } *)
| XObj.                                            (* e.encode(byteBuf); *)

(* statements of encode: EWrite BP:212-220, EWriteF BP:221-222, EFix SP:142-145, EDyn SP:126-132, EList NP:42-49, EObj NP:41,
   EObjOpt RP:58-60, EMark RP:54, EZero RP:55, EDiff RP:62, EPatch RP:63, ESum RP:64-68 *)
Inductive estmt :=
| EWrite (n : nat) (o : endian) (f : string)       (* byteBuf.writeX(this.f); *)
| EWriteF (n : nat) (o : endian) (f : string)      (* byteBuf.writeFloatLE(this.f); / writeDoubleLE *)
| EFix (f : string) (len : Z) (pad : Z) (left : bool)  (* writeFixedString(byteBuf, this.f, len, pad, left); *)
| EDyn (f : string) (zn : nat) (zo : endian) (n : nat) (o : endian)  (* as XDyn, for this.f *)
| EList (f : string) (zn : nat) (zo : endian) (cast : Z) (n : nat) (o : endian) (x : eelem)
    (* if (null == this.f || this.f.size() == 0) { byteBuf.writeZ(0); } else {
       byteBuf.writeN((cast) this.f.size()); for (int i = 0; i < this.f.size(); i++) { x } } *)
| EObj (f : string)                                (* this.f.encode(byteBuf); *)
| EObjOpt (f : string)                             (* if (null != this.f) { this.f.encode(byteBuf); } *)
| EMark (x : string)                               (* int x = byteBuf.writerIndex(); *)
| EZero (n : nat) (o : endian)                     (* byteBuf.writeX(0); *)
| EDiff (f x y : string)                           (* this.f = (int) (x - y); *)
| EPatch (n : nat) (o : endian) (x f : string)     (* byteBuf.setInt(x, this.f); *)
| ESum (alg f : string).
    (* ChecksumService<ByteBuf, Integer> checksumService = ChecksumServiceFactory.getInstance()
       .getChecksumService(alg); if (checksumService != null) { this.f = (int) checksumService.calc(byteBuf); } *)

(* decoding of one list element: YInt BP:330, YFlt as YInt, YFix as DFix, YDyn SP:230-236, YObj NP:63-65 *)
Inductive delem :=
| YInt (n : nat) (o : endian)                      (* this.f.add(byteBuf.readX()); *)
| YFlt (n : nat) (o : endian)
| YFix (len : Z) (pad : Z) (left : bool)           (* this.f.add(readFixedString(byteBuf, len, pad, left)); *)
| YDyn (n : nat) (o : endian)
    (* int l = byteBuf.readX(); if (l > 0) { this.f.add(byteBuf.readCharSequence(l, UTF_8).toString()); } *)
| YObj (c : string).                               (* C x = new C(); x.decode(byteBuf); this.f.add(x); *)

(* statements of decode: DRead BP:315-323, DReadF BP:324-325, DFix SP:222-225, DDyn SP:212-216, DList NP:59-67, DNewIfNull NP:55-57,
   DObj NP:58, DCreate RP:76 *)
Inductive dstmt :=
| DRead (n : nat) (o : endian) (f : string)        (* this.f = byteBuf.readX(); *)
| DReadF (n : nat) (o : endian) (f : string)
| DFix (f : string) (len : Z) (pad : Z) (left : bool)  (* this.f = readFixedString(byteBuf, len, pad, left); *)
| DDyn (f : string) (n : nat) (o : endian)
    (* int l = byteBuf.readX(); if (l > 0) { this.f = byteBuf.readCharSequence(l, UTF_8).toString(); } *)
| DList (f : string) (n : nat) (o : endian) (y : delem)
    (* int l = byteBuf.readX(); if (l > 0) { this.f = new ArrayList<>(); for (int i = 0; i < l; i++) { y } } *)
| DNewIfNull (f : string) (c : string)             (* if (null == this.f) { this.f = new C(); } *)
| DObj (f : string)                                (* this.f.decode(byteBuf); *)
| DCreate (f key : string).                        (* this.f = Factory.getInstance().create(this.key); *)

(* HashSelf EP:16-18, HashFields RP:82-84 *)
Inductive hashbody :=
| HashSelf                                         (* return this.hashCode(); *)
| HashFields (fs : list string).                   (* return Objects.hash(f1, f2, ...); *)

(* equals RP:87-99, toString RP:102-113 *)
Record class_def := {
  c_name : string;
  c_fields : list (string * ftype);
  c_enc : list estmt;
  c_dec : list dstmt;
  c_eq : list string;                              (* fields compared by equals, in order *)
  c_hash : hashbody;
  c_tag : string;                                  (* toString: return "c_tag [" + "l1=" + this.f1 + ", l2=" + this.f2 ... + "]"; *)
  c_str : list (string * string);                  (* toString: label, field *)
  c_get : list (string * string);                  (* T getX() { return this.f; }   method, field *)
  c_set : list (string * string)                   (* void setX(T p) { this.f = p; }   method, field *)
}.

(* keys of a message factory: boxed integers or strings (RP:117, szse-bin NewOrder.java) *)
Inductive key := KInt (z : Z) | KStr (s : list Z).

(* a Java string literal (ASCII) *)
Fixpoint chars (s : string) : list Z :=
  match s with
  | EmptyString => []
  | String a r => Z.of_N (N_of_ascii a) :: chars r
  end.

Definition key_eqb (a b : key) : bool :=
  match a, b with
  | KInt x, KInt y => Z.eqb x y
  | KStr x, KStr y => if list_eq_dec Z.eq_dec x y then true else false
  | _, _ => false
  end.
