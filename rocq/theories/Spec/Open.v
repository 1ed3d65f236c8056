(* Messages made of library objects only; services that only compute. *)
From Coq Require Import ZArith List Bool String.
From Verif.Model Require Import JavaPrim ByteBuf Ast Interp Open.
From Verif.Spec Require Import Bytes Buffers Wire.
Import ListNotations.
Open Scope Z_scope.

(* every object in v is of a class that ok admits *)
Fixpoint made_of (ok : string -> bool) (v : val) : bool :=
  match v with
  | VList l => forallb (made_of ok) l
  | VObj c fs => ok c && forallb (fun fv => made_of ok (snd fv)) fs
  | _ => true
  end.
Definition of_library (E : env) (c : string) : bool := match find_class E c with Some _ => true | None => false end.
(* the service called [alg] is that of E: it computes a number from the unread bytes and leaves the buffer alone *)
Definition computes (W : world) (E : env) (alg : string) : Prop :=
  match services W alg, checksum E alg with
  | Some s, Some c => forall b, s b = (inr (c (readable b)), b)
  | None, None => True
  | _, _ => False
  end.
(* every class a factory creates is of the library *)
Definition library_factories (E : env) : Prop := forall o t c, factory E o t = Some c -> of_library E c = true.
(* all that is asked of a user's encode: when it returns, it has written some bytes at the end of the buffer, and done nothing else to it *)
Definition appends (m : method) : Prop :=
  forall fs b fs' b', buf_wf b = true -> m fs b = (None, fs', b') -> buf_wf b' = true /\ exists bs, appended b bs b'.
(* a class whose encode calls no checksum service *)
Definition sumless (E : env) (c : string) : bool :=
  match find_class E c with Some cd => forallb (fun s => match s with ESum _ _ => false | _ => true end) (c_enc cd) | None => false end.
(* a service cannot break the invariant of the buffer (which no code outside netty can) *)
Definition careful (s : service) : Prop := forall b, buf_wf b = true -> buf_wf (snd (s b)) = true.

(* the layout of a message with a body: fields of its own; perhaps the length of the body; the body; perhaps a checksum
   (which BjseBinary does not compute) *)
Definition own (w : wire) : bool := match w with WLen _ _ | WSum _ _ _ | WBody _ => false | _ => true end.
Definition framing (A M B : layout) : bool :=
  forallb (fun fw => own (snd fw)) A
  && match M with [] | [(_, WLen 4 _)] => true | _ => false end
  && match B with [] | [(_, WSum 4 _ _)] | [(_, WInt 4 _)] => true | _ => false end.
Definition value (f : string) (v : val) : val := match v with VObj _ fs => get f fs | _ => VNull end.
(* the bytes of fields L of v; those of a length; those that stand there while the body is being written *)
Definition bytes_of (Y : layouts) (v : val) (L : layout) : list Z := flat_map (fun fw => ser Y (value (fst fw) v) (snd fw)) L.
Definition length_bytes (M : layout) (n : nat) : list Z := match M with (_, WLen k o) :: _ => number o k (Z.of_nat n) | _ => [] end.
Definition blank (M : layout) : list Z := match M with (_, WLen k _) :: _ => repeat 0 k | _ => [] end.
Definition with_length (M : layout) (n : nat) (fs : list (string * val)) : list (string * val) := match M with (lf, WLen _ _) :: _ => set lf (VInt (Z.of_nat n)) fs | _ => fs end.
(* e, b1 is what writing bs to b ends in *)
Definition written (b : bytebuf) (bs : list Z) (e : option exn) (b1 : bytebuf) : Prop :=
  buf_wf b1 = true /\ match e with None => appended b bs b1 | Some e => e = IOOBE /\ exists cs, appended b cs b1 end.
(* "if (this.body != null) this.body.encode(byteBuf)" *)
Definition body_call (W : world) (E : env) (d : nat) (x : val) (b : bytebuf) : option exn * val * bytebuf := match x with VNull => (None, VNull, b) | _ => encode_open W E d x b end.
(* the header of v, its length field blank if it has one, has been written to b *)
Definition at_body (Y : layouts) (v : val) (A M : layout) (b b0 : bytebuf) : Prop := appended b (bytes_of Y v A ++ blank M) b0 /\ buf_wf b0 = true.
(* the body wrote body and is x' now; b2 is the buffer with header, length and body *)
Definition at_end (W : world) (E : env) (d : nat) (Y : layouts) (v x : val) (A M : layout) (b : bytebuf) (body : list Z) (x' : val) (b2 : bytebuf) : Prop :=
  (exists b0 b0', at_body Y v A M b b0 /\ body_call W E d x b0 = (None, x', b0') /\ appended b0 body b0')
  /\ appended b (bytes_of Y v A ++ length_bytes M (List.length body) ++ body) b2 /\ buf_wf b2 = true.
(* encode called the service named in B (if there is one) on b2, when the fields of the message were fs, wrote what it returned, and ended in e, v1, b1 *)
Definition ending (W : world) (Y : layouts) (c : string) (B : layout) (fs : list (string * val)) (b2 : bytebuf) (e : option exn) (v1 : val) (b1 : bytebuf) : Prop :=
  match B with
  | [] => e = None /\ v1 = VObj c fs /\ b1 = b2
  | (sf, WSum n o alg) :: _ =>
      match services W alg with
      | Some s => match s b2 with
                  | (inl e', b3) => e = Some e' /\ v1 = VObj c fs /\ b1 = b3
                  | (inr z, b3) => v1 = VObj c (set sf (VInt (wrap 32 z)) fs) /\ written b3 (number o n z) e b1
                  end
      | None => v1 = VObj c fs /\ written b2 (bytes_of Y (VObj c fs) B) e b1
      end
  | _ => v1 = VObj c fs /\ written b2 (bytes_of Y (VObj c fs) B) e b1
  end.
