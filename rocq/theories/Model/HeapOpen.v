(* encode and decode on the heap (Heap.v) when messages may contain objects of classes that users write: anything that implements BinaryCodec
   (codec/src/main/java/com/finproto/codec/BinaryCodec.java:7-11), put into the BinaryCodec-typed field of a message, e.g.
   sse-bin/src/main/java/com/finproto/sse/bin/messages/SseBinary.java:17,48-50,68-70, or created by a factory the class is registered with
   (SseBinary.java:83-90,201-212).

   Simplifications: the fields of such an object hold numbers and strings; its encode depends on them and on the buffer and changes nothing but
   the buffer; its decode may change its own fields, too; they need no stack frames of ours.  (Open.v has the same on trees, with fewer restrictions.) *)
From Coq Require Import ZArith List Bool String.
From Verif.Model Require Import JavaPrim ByteBuf Ast Interp Show Heap.
Import ListNotations.

Definition user_encode := list (string * val) -> bytebuf -> option exn * bytebuf.
(* the value of a field that is a number or a string *)
Definition flat_val (v : hval) : val := match v with HNull | HRef _ => VNull | HInt z => VInt z | HFlt z => VFlt z | HStr s => VStr s end.
Definition is_flat (v : hval) : bool := match v with HRef _ => false | _ => true end.
Definition own_fields (fs : list (string * hval)) : list (string * val) := map (fun fv => (fst fv, flat_val (snd fv))) fs.

(* v.encode(byteBuf): Heap.hencode, and the user's method for an object of a user's class *)
Fixpoint hencode_open (U : string -> option user_encode) (E : env) (d : nat) (h : heap) (v : hval) (b : bytebuf) : option exn * heap * bytebuf :=
  match v, d with
  | HNull, _ => (Some NPE, h, b)
  | _, O => (Some SOE, h, b)
  | HRef l, S d' =>
      match nth_error h l with
      | Some (CObj c fs) =>
          match find_class E c with
          | Some cd => let '(e, (h', _, b')) := hexec_enc (hencode_open U E d') (checksum E) l (c_enc cd) (h, [], b) in (e, h', b')
          | None => match U c with
                    | Some u => if forallb (fun fv => is_flat (snd fv)) fs then let '(e, b') := u (own_fields fs) b in (e, h, b') else (Some TYPE, h, b)
                    | None => (Some TYPE, h, b)
                    end
          end
      | _ => (Some TYPE, h, b)
      end
  | _, _ => (Some TYPE, h, b)
  end.

(* ---------- decode ---------- *)
Definition user_decode := list (string * val) -> bytebuf -> option exn * list (string * val) * bytebuf.
Definition is_flat_val (v : val) : bool := match v with VList _ | VObj _ _ => false | _ => true end.
Definition heap_val (v : val) : hval := match v with VInt z => HInt z | VFlt z => HFlt z | VStr s => HStr s | _ => HNull end.
Definition heap_fields (gs : list (string * val)) : list (string * hval) := map (fun gv => (fst gv, heap_val (snd gv))) gs.
(* gs are values for the fields of fs *)
Definition same_fields (fs gs : list (string * val)) : bool :=
  forallb (fun gv => is_flat_val (snd gv)) gs && (if list_eq_dec string_dec (map fst gs) (map fst fs) then true else false).

(* v.decode(byteBuf): Heap.hdecode, and the user's method for an object of a user's class.  E2: E and the users' classes, which suppliers make objects of *)
Fixpoint hdecode_open (U : string -> option user_decode) (E E2 : env) (d : nat) (h : heap) (v : hval) (b : bytebuf) : option exn * heap * bytebuf :=
  match v, d with
  | HNull, _ => (Some NPE, h, b)
  | _, O => (Some SOE, h, b)
  | HRef l, S d' =>
      match nth_error h l with
      | Some (CObj c fs) =>
          match find_class E c with
          | Some cd => let '(e, (h', b')) := hexec_dec (hdecode_open U E E2 d') (hnew E2) (factory E c) l (c_dec cd) (h, b) in (e, h', b')
          | None => match U c with
                    | Some u => if forallb (fun fv => is_flat (snd fv)) fs
                                then let '(e, gs, b') := u (own_fields fs) b in
                                     if same_fields (own_fields fs) gs then (e, upd h l (CObj c (heap_fields gs)), b') else (Some TYPE, h, b)
                                else (Some TYPE, h, b)
                    | None => (Some TYPE, h, b)
                    end
          end
      | _ => (Some TYPE, h, b)
      end
  | _, _ => (Some TYPE, h, b)
  end.
