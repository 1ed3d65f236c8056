(* encode and decode of library messages together with code the library does not contain: bodies of classes written by its users
   (anything that implements BinaryCodec: codec/src/main/java/com/finproto/codec/BinaryCodec.java:7-11, reachable as the BinaryCodec-typed field of a
   message, e.g. sse-bin/src/main/java/com/finproto/sse/bin/messages/SseBinary.java:17,48-50,68-70 and through register, SseBinary.java:201-212) and
   checksum services written by its users (ChecksumService.java:5-31, registered through ChecksumServiceFactory.java:28-34).

   Both are arbitrary functions.  Simplifications: a method of a user's class depends on the fields of the object it is called on and on the buffer,
   changes nothing else, and ends; its exceptions are called by the names of ByteBuf.exn; it needs no stack frames of ours. *)
From Coq Require Import ZArith List Bool String.
From Verif.Model Require Import JavaPrim ByteBuf Ast Interp.
Import ListNotations.
Open Scope Z_scope.

Definition method := list (string * val) -> bytebuf -> option exn * list (string * val) * bytebuf.
Record user_class := {
  u_new : list (string * val);   (* the fields of a new object *)
  u_enc : method;
  u_dec : method
}.
(* calc(byteBuf): the int, or the exception (NullPointerException if it returns null: the result is unboxed), and the buffer afterwards *)
Definition service := bytebuf -> (exn + Z) * bytebuf.
Record world := {
  users : string -> option user_class;
  services : string -> option service
}.

Section OpenEncode.
  Variable enc : val -> bytebuf -> option exn * val * bytebuf.
  Variable W : world.
  (* Interp.exec_estmt, with the service called on the buffer; e.g. SseBinary.java:74-79 *)
  Definition exec_estmt_open (s : estmt) (st : est) : option exn * est :=
    match s with
    | ESum alg f =>
        let '(fs, loc, b) := st in
        match services W alg with
        | Some c => match c b with
                    | (inr z, b') => (None, (set f (VInt (wrap 32 z)) fs, loc, b'))
                    | (inl e, b') => (Some e, (fs, loc, b'))
                    end
        | None => (None, st)
        end
    | _ => exec_estmt enc (fun _ => None) s st
    end.
  Fixpoint exec_enc_open (ss : list estmt) (st : est) : option exn * est :=
    match ss with
    | [] => (None, st)
    | s :: r => match exec_estmt_open s st with
                | (None, st') => exec_enc_open r st'
                | x => x
                end
    end.
End OpenEncode.
(* v.encode(byteBuf): Interp.encode, and the user's method for an object of a user's class *)
Fixpoint encode_open (W : world) (E : env) (d : nat) (v : val) (b : bytebuf) : option exn * val * bytebuf :=
  match v, d with
  | VNull, _ => (Some NPE, v, b)
  | _, O => (Some SOE, v, b)
  | VObj c fs, S d' =>
      match find_class E c with
      | Some cd => let '(e, (fs', _, b')) := exec_enc_open (encode_open W E d') W (c_enc cd) (fs, [], b) in (e, VObj c fs', b')
      | None => match users W c with
                | Some u => let '(e, fs', b') := u_enc u fs b in (e, VObj c fs', b')
                | None => (Some TYPE, v, b)
                end
      end
  | _, _ => (Some TYPE, v, b)
  end.

(* the supplier a factory calls: C::new; of the library, or of a user's class *)
Definition new_open (W : world) (E : env) (c : string) : val :=
  match find_class E c with
  | Some _ => new_obj E c
  | None => match users W c with Some u => VObj c (u_new u) | None => VNull end
  end.
(* v.decode(byteBuf) *)
Fixpoint decode_open (W : world) (E : env) (d : nat) (v : val) (b : bytebuf) : option exn * val * bytebuf :=
  match v, d with
  | VNull, _ => (Some NPE, v, b)
  | _, O => (Some SOE, v, b)
  | VObj c fs, S d' =>
      match find_class E c with
      | Some cd => let '(e, (fs', b')) := exec_dec (decode_open W E d') (new_open W E) (factory E c) (c_dec cd) (fs, b) in (e, VObj c fs', b')
      | None => match users W c with
                | Some u => let '(e, fs', b') := u_dec u fs b in (e, VObj c fs', b')
                | None => (Some TYPE, v, b)
                end
      end
  | _, _ => (Some TYPE, v, b)
  end.
