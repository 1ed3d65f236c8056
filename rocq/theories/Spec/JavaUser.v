(* Classes that users of the library write and put into its messages: what is asked of them. *)
From Coq Require Import ZArith List Bool String.
From Verif.Model Require Import JavaPrim ByteBuf Ast Interp Factory Show Heap HeapOpen Library.
From Verif.Spec Require Import Bytes Buffers Sharing JavaWorld.
From Verif.Java Require Import Syntax Sem Program.
Import ListNotations.
Open Scope Z_scope.

(* a class with fields that are numbers and strings, and what its encode does to the buffer *)
Record body_class := { bc_name : string; bc_fields : list (string * ftype); bc_encode : user_encode }.
Definition simple_type (t : ftype) : bool := match t with TByte | TShort | TInt | TLong | TFloat | TDouble | TStr => true | _ => false end.
(* the library's classes and these: what may be in the heap *)
Definition as_class (u : body_class) : string * class_def :=
  (bc_name u, {| c_name := bc_name u; c_fields := bc_fields u; c_enc := []; c_dec := []; c_eq := []; c_hash := HashSelf; c_tag := ""; c_str := []; c_get := []; c_set := [] |}).
Definition with_users (us : list body_class) : list (string * class_def) := lib_classes ++ map as_class us.
(* what holds of every buffer *)
Definition sane (b : bytebuf) : Prop := (ridx b <= widx b)%nat /\ (widx b <= List.length (arr b))%nat /\ Z.of_nat (List.length (arr b)) <= maxcap b < 2 ^ 31.

(* the program P contains these classes, with methods encode that do what bc_encode says and leave objects and static fields alone *)
Record written_for (P : program) (pr : printers) (k : nat) (stat : list (string * jval)) (us : list body_class) : Prop := {
  wf_names : NoDup (map bc_name us);
  wf_foreign : forall u, In u us -> known (bc_name u) = false;
  wf_simple : forall u, In u us -> forallb (fun ft => simple_type (snd ft)) (bc_fields u) = true;
  (* no code outside netty can break a buffer *)
  wf_sane : forall u fs b, In u us -> sane b -> sane (snd (bc_encode u fs b));
  wf_java : forall u d h l fs b L, In u us -> heap_ok (with_users us) h -> sane b -> nth_error h l = Some (CObj (bc_name u) fs) ->
    vcalls P pr k (S d) "encode" l [JBuf] {| s_h := h; s_b := b; s_loc := L; s_stat := stat |} =
    (let '(e, b') := bc_encode u (own_fields fs) b in
     let s := {| s_h := h; s_b := b'; s_loc := L; s_stat := stat |} in match e with None => Ret JVoid s | Some x => Exc x s end) }.
(* when it returns, it has written some bytes at the end of the buffer *)
Definition writes_on (u : body_class) : Prop :=
  forall fs b b', buf_wf b = true -> bc_encode u fs b = (None, b') -> buf_wf b' = true /\ exists bs, appended b bs b'.

(* ---------- decode ---------- *)
Record user_codec := { cc_body : body_class; cc_decode : user_decode }.
Definition bodies (us : list user_codec) : list body_class := map cc_body us.
(* an array of bytes and a writer index within it; the reader index may be anywhere *)
Definition intact (b : bytebuf) : Prop := Forall (fun x => 0 <= x < 256) (arr b) /\ (widx b <= cs_limit b)%nat /\ (cs_limit b <= List.length (arr b))%nat.
(* values for the fields, of their types *)
Definition typed_values (fts : list (string * ftype)) (fs : list (string * val)) : Prop :=
  Forall2 (fun fv ft => fst fv = fst ft /\ is_flat_val (snd fv) = true /\ fits [] (heap_val (snd fv)) (snd ft)) fs fts.
(* the same of the methods decode: they change the object they are called on, and no other *)
Record read_for (P : program) (pr : printers) (k : nat) (stat : list (string * jval)) (us : list user_codec) : Prop := {
  rf_written : written_for P pr k stat (bodies us);
  (* class C implements BinaryCodec, with these fields; new C() gives them the values JLS 4.12.5 says *)
  rf_class : forall u, In u us -> exists d, assoc (bc_name (cc_body u)) P = Some d /\ supers d = [T1 "BinaryCodec"]
    /\ map (fun f => (fst f, default_of (snd f))) (instance_fields (members d)) = map (fun ft => (fst ft, hdefault (snd ft))) (bc_fields (cc_body u));
  rf_fields : forall u, In u us -> NoDup (map fst (bc_fields (cc_body u)));
  (* javac *)
  rf_typed : forall u fs b, In u us -> intact b -> typed_values (bc_fields (cc_body u)) fs ->
    let '(_, gs, b') := cc_decode u fs b in typed_values (bc_fields (cc_body u)) gs /\ intact b';
  rf_java : forall u d h l fs b L, In u us -> heap_ok (with_users (bodies us)) h -> intact b -> nth_error h l = Some (CObj (bc_name (cc_body u)) fs) ->
    vcalls P pr k (S d) "decode" l [JBuf] {| s_h := h; s_b := b; s_loc := L; s_stat := stat |} =
    (let '(e, gs, b') := cc_decode u (own_fields fs) b in
     let s := {| s_h := upd h l (CObj (bc_name (cc_body u)) (heap_fields gs)); s_b := b'; s_loc := L; s_stat := stat |} in match e with None => Ret JVoid s | Some x => Exc x s end) }.
(* every class registered with a factory is of the library or one of these *)
Definition supplied (us : list user_codec) (W : factories) : Prop := forall o k c, lookup_factory W o k = Some c -> assoc c (with_users (bodies us)) <> None.
