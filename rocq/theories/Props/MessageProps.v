(* C22-C25, C37-C39: encode and decode of the 182 message classes.

   E ranges over every world with the library's classes: any content of the message factories, any checksum registry.
   d is the number of stack frames left; a message of nesting depth n needs n. *)
From Coq Require Import ZArith List Bool String Lia.
From Verif.Model Require Import JavaPrim ByteBuf Ast Interp Library.
From Verif.Spec Require Import Bytes Buffers Wire Reading Streams Layouts.
From Verif.Proofs Require Import BufFacts Conform TableFacts Messages.
From Verif.Props Require Import Samples.
Import ListNotations.
Open Scope Z_scope.

Notation Y := lib_layouts.

(* ---- C23 ---- *)
(* the object encode returns is described by fill_in (see C38); the bytes appended are the wire form of that object *)
Theorem C23_encode_appends_wire_form : forall E d c v b v1 b1, classes E = lib_classes ->
  object_of E c v = true -> buf_wf b = true -> encode E d v b = (None, v1, b1) ->
  appended b (ser Y v1 (WObj c)) b1 /\ buf_wf b1 = true
  /\ v1 = fill_in Y (checksum E) (readable b) v (WObj c) /\ object_of E c v1 = true.
Proof.
  intros E d c v b v1 b1 HE Hv Hb He.
  destruct (encoded_facts lib_classes Y library_conforms E HE d c v b v1 b1 Hv Hb He) as (H1 & _ & _ & _ & H2 & H3 & H4). auto.
Qed.
(* the wire form has the fields of the class, in the order they are declared *)
Theorem C23_declaration_order : forall c cd, assoc c lib_classes = Some cd ->
  exists L, find c Y = Some L /\ map fst L = map fst (c_fields cd).
Proof.
  intros c cd H. pose proof (conforms_find lib_classes Y c library_conforms) as F. destruct (find c Y) as [L|].
  - exists L. split; auto. destruct F as (cd' & E1 & _ & E2 & _). rewrite H in E1. injection E1 as <-. rewrite E2. unfold types_of. rewrite map_map. reflexivity.
  - congruence.
Qed.
Example C23_meets : object_of lib_env "sample.RootPacket" s_root = true /\ buf_wf used_buf = true
  /\ (let '(e, v1, b1) := encode lib_env 9 s_root used_buf in
      e = None /\ widx b1 = 94%nat /\ field "payloadLen" v1 = VInt 81
      /\ firstn 16 (content b1) = [1; 2; 3; 2; 0; 81; 0; 0; 0; 7; 0; 104; 195; 169; 240; 159]).
Proof. vm_compute. repeat split. Qed.

(* ---- C22 ---- *)
(* E: the sender's registrations, E2: the receiver's *)
Theorem C22_round_trip : forall E E2 d d2 c v b v1 b1, classes E = lib_classes -> classes E2 = lib_classes ->
  object_of E c v = true -> buf_wf b = true -> encode E d v b = (None, v1, b1) ->
  parsable Y (factory E2) v (WObj c) = true -> canonical Y v (WObj c) = true -> (nesting v <= d2)%nat ->
  exists bs, appended b bs b1 /\
    forall b2 rest, buf_wf b2 = true -> readable b2 = bs ++ rest ->
    exists v2 b3, decode E2 d2 (new_obj E2 c) b2 = (None, v2, b3) /\ equivalent v2 v1
      /\ (exact_form Y v (WObj c) = true -> v2 = v1)
      /\ forget Y v1 (WObj c) = forget Y v (WObj c) /\ advanced b2 (List.length bs) b3.
Proof.
  intros E E2 d d2 c v b v1 b1 HE HE2 Hv Hb He Hp Hc Hn.
  destruct (encoded_facts lib_classes Y library_conforms E HE d c v b v1 b1 Hv Hb He) as (_ & Hf & _).
  destruct (round_trip_between lib_classes Y library_conforms E E2 HE HE2 d d2 c v b v1 b1 Hv Hb He Hp Hc Hn) as (bs & A & R).
  exists bs. split; auto. intros b2 rest H1 H2. destruct (R b2 rest H1 H2) as (v2 & b3 & R1 & R2 & R3 & R4).
  exists v2, b3. repeat (split; auto).
Qed.
Example C22_meets :
  forallb (fun cv => object_of lib_env (fst cv) (snd cv) && parsable Y (factory lib_env) (snd cv) (WObj (fst cv))
                     && canonical Y (snd cv) (WObj (fst cv))
                     && match encode lib_env 9 (snd cv) used_buf with (None, _, _) => true | _ => false end)
    [("sample.RootPacket", s_root); ("sample.RootPacket", s_root_nested); ("sse.SseBinary", s_sse); ("risk.RcBinary", s_risk);
     ("bjse.BjseBinary", s_bjse)]%string = true
  /\ nesting s_root_nested = 3%nat
  /\ exact_form Y (build "sse.Logout" []) (WObj "sse.Logout") = false /\ exact_form Y s_sse (WObj "sse.SseBinary") = true /\ exact_form Y s_bjse (WObj "bjse.BjseBinary") = true.
Proof. vm_compute. repeat split. Qed.

(* ---- C24 ---- *)
Theorem C24_consumes_what_encode_wrote : forall E E2 d d2 c v b v1 b1, classes E = lib_classes -> classes E2 = lib_classes ->
  object_of E c v = true -> buf_wf b = true -> encode E d v b = (None, v1, b1) ->
  parsable Y (factory E2) v (WObj c) = true -> (nesting v <= d2)%nat ->
  forall bs, appended b bs b1 ->
    forall b2 rest, buf_wf b2 = true -> readable b2 = bs ++ rest ->
    exists v2 b3, decode E2 d2 (new_obj E2 c) b2 = (None, v2, b3) /\ advanced b2 (List.length bs) b3 /\ readable b3 = rest.
Proof. intros E E2 d d2 c v b v1 b1 HE HE2. exact (consumes_between lib_classes Y library_conforms E E2 HE HE2 d d2 c v b v1 b1). Qed.
(* messages vs of classes cs, written one after the other *)
Theorem C24_streams : forall E E2 d d2 cs vs b v1s b1, classes E = lib_classes -> classes E2 = lib_classes ->
  Forall2 (fun c v => object_of E c v = true /\ parsable Y (factory E2) v (WObj c) = true /\ canonical Y v (WObj c) = true) cs vs ->
  buf_wf b = true -> encode_seq E d vs b = (None, v1s, b1) -> (forall v, In v vs -> (nesting v <= d2)%nat) ->
  exists bs, appended b bs b1 /\ buf_wf b1 = true /\
    forall b2 rest, buf_wf b2 = true -> readable b2 = bs ++ rest ->
    exists v2s b3, decode_seq E2 d2 cs b2 = (None, v2s, b3) /\ Forall2 equivalent v2s v1s
      /\ advanced b2 (List.length bs) b3 /\ readable b3 = rest.
Proof. intros E E2 d d2 cs vs b v1s b1 HE HE2. exact (stream_between lib_classes Y library_conforms E E2 HE HE2 d d2 cs vs b v1s b1). Qed.
Example C24_meets :
  let vs := [s_root; s_sse; s_bjse; s_root_nested] in
  let cs := ["sample.RootPacket"; "sse.SseBinary"; "bjse.BjseBinary"; "sample.RootPacket"]%string in
  forall2b (fun c v => object_of lib_env c v && parsable Y (factory lib_env) v (WObj c) && canonical Y v (WObj c)) cs vs = true
  /\ (let '(e, v1s, b1) := encode_seq lib_env 5 vs used_buf in
      e = None /\ widx b1 = 256%nat
      /\ let '(e2, v2s, b3) := decode_seq lib_env 5 cs (set_ridx b1 3) in
         e2 = None /\ map normalize v2s = map normalize v1s /\ ridx b3 = 256%nat).
Proof. vm_compute. repeat split. Qed.

(* ---- C25 ---- *)
(* bs: the bytes of v; bs ++ ext: the bytes of u *)
Theorem C25_injective_and_prefix_free : forall E d d' c v u b b' v1 b1 u1 b1' ext bs, classes E = lib_classes ->
  object_of E c v = true -> object_of E c u = true -> buf_wf b = true -> buf_wf b' = true ->
  encode E d v b = (None, v1, b1) -> encode E d' u b' = (None, u1, b1') ->
  parsable Y (factory E) v (WObj c) = true -> canonical Y v (WObj c) = true ->
  parsable Y (factory E) u (WObj c) = true -> canonical Y u (WObj c) = true ->
  appended b bs b1 -> appended b' (bs ++ ext) b1' -> ext = [] /\ equivalent v1 u1.
Proof. intros E d d' c v u b b' v1 b1 u1 b1' ext bs HE. exact (injective lib_classes Y library_conforms E HE d d' c v u b b' v1 b1 u1 b1' ext bs). Qed.
(* null and "" give the same bytes: equality only up to [equivalent] *)
Example C25_meets :
  let v := build "sse.Logout" [("text", VNull)]%string in let u := build "sse.Logout" [("text", VStr [])]%string in
  v <> u /\ object_of lib_env "sse.Logout" v = true /\ object_of lib_env "sse.Logout" u = true
  /\ parsable Y (factory lib_env) v (WObj "sse.Logout") = true /\ canonical Y v (WObj "sse.Logout") = true
  /\ parsable Y (factory lib_env) u (WObj "sse.Logout") = true /\ canonical Y u (WObj "sse.Logout") = true
  /\ (let '(e, _, b1) := encode lib_env 1 v used_buf in let '(e', _, b1') := encode lib_env 1 u used_buf in
      e = None /\ e' = None /\ content b1 = content b1' /\ widx b1 = 71%nat).
Proof. vm_compute. repeat split; discriminate. Qed.

(* ---- C37 (first half; the second is in DecodeProps) ---- *)
Theorem C37_null_parts_throw : forall E d c v b, classes E = lib_classes -> object_of E c v = true -> buf_wf b = true ->
  (nesting v <= d)%nat -> fits b (List.length (ser Y (fill_in Y (checksum E) (readable b) v (WObj c)) (WObj c))) ->
  ((exists v1 b1, encode E d v b = (Some NPE, v1, b1)) <-> complete Y v (WObj c) = false)
  /\ ((exists v1 b1, encode E d v b = (None, v1, b1)) <-> complete Y v (WObj c) = true).
Proof. intros E d c v b HE. exact (null_parts lib_classes Y library_conforms E HE d c v b). Qed.
(* null strings, lists and bodies are not among the missing parts *)
Theorem C37_null_string_list_body_allowed : forall E c fs f w L, classes E = lib_classes -> object_of E c (VObj c fs) = true ->
  find c Y = Some L -> find f L = Some w ->
  (match w with WFix _ _ _ | WDyn _ _ | WList _ _ _ | WBody _ => True | _ => False end) ->
  complete Y (VObj c fs) (WObj c) = true -> complete Y (VObj c (set f VNull fs)) (WObj c) = true.
Proof.
  intros E c fs f w L HE Hv HL Hf Hw Hc. apply (null_allowed Y c fs f w L); auto.
  destruct (object_shape lib_classes E HE c _ Hv) as (fs' & [= <-] & Ht).
  apply (fields_ok_names lib_classes). eapply typed_obj; eauto using library_conforms.
Qed.
Example C37_meets :
  let v := build "sample.NestedPacket" [("subPacket", s_sub 1)]%string in
  object_of lib_env "sample.NestedPacket" v = true /\ complete Y v (WObj "sample.NestedPacket") = false
  /\ fst (fst (encode lib_env 3 v used_buf)) = Some NPE
  /\ complete Y (build "sample.RootPacket" []) (WObj "sample.RootPacket") = true
  /\ fst (fst (encode lib_env 3 (build "sample.RootPacket" []) used_buf)) = None.
Proof. vm_compute. repeat split. Qed.

(* ---- C38 ---- *)
Theorem C38_only_length_and_checksum_change : forall E d c v b v1 b1, classes E = lib_classes ->
  object_of E c v = true -> buf_wf b = true -> encode E d v b = (None, v1, b1) ->
  forget Y v1 (WObj c) = forget Y v (WObj c).
Proof.
  intros E d c v b v1 b1 HE Hv Hb He.
  destruct (encoded_facts lib_classes Y library_conforms E HE d c v b v1 b1 Hv Hb He) as (_ & Hf & _). exact Hf.
Qed.
(* a class without such fields (and without sub-objects) is not changed at all *)
Theorem C38_plain_classes_unchanged : forall E d c v b v1 b1 L, classes E = lib_classes ->
  object_of E c v = true -> buf_wf b = true -> encode E d v b = (None, v1, b1) -> find c Y = Some L ->
  forallb (fun fw => match snd fw with WInt _ _ | WFlt _ _ | WFix _ _ _ | WDyn _ _ => true | _ => false end) L = true -> v1 = v.
Proof. intros E d c v b v1 b1 L HE. exact (plain_unchanged lib_classes Y library_conforms E HE d c v b v1 b1 L). Qed.
Theorem C38_encoding_again : forall E d c v b v1 b1, classes E = lib_classes ->
  object_of E c v = true -> buf_wf b = true -> encode E d v b = (None, v1, b1) ->
  forall b' bs, appended b bs b1 -> buf_wf b' = true -> readable b' = readable b -> fits b' (List.length bs) ->
  exists b1', encode E d v1 b' = (None, v1, b1') /\ appended b' bs b1'.
Proof. intros E d c v b v1 b1 HE. exact (encode_twice lib_classes Y library_conforms E HE d c v b v1 b1). Qed.
Example C38_meets :
  let '(e, v1, b1) := encode lib_env 9 s_sse used_buf in
  e = None /\ v1 <> s_sse /\ forget Y v1 (WObj "sse.SseBinary") = forget Y s_sse (WObj "sse.SseBinary")
  /\ encode lib_env 9 v1 used_buf = (None, v1, b1).
Proof. vm_compute. repeat split. discriminate. Qed.

(* ---- C39 ---- *)
Theorem C39_failed_encode_keeps_content : forall E d c v b e v1 b1, classes E = lib_classes ->
  object_of E c v = true -> buf_wf b = true -> encode E d v b = (e, v1, b1) ->
  buf_wf b1 = true /\ exists bs, appended b bs b1.
Proof. intros E d c v b e v1 b1 HE. exact (keeps_content lib_classes Y library_conforms E HE d c v b e v1 b1). Qed.
Theorem C39_complete_objects_throw_only_without_room : forall E d c v b, classes E = lib_classes ->
  object_of E c v = true -> buf_wf b = true -> complete Y v (WObj c) = true -> (nesting v <= d)%nat ->
  let n := List.length (ser Y (fill_in Y (checksum E) (readable b) v (WObj c)) (WObj c)) in
  (fits b n -> exists v1 b1, encode E d v b = (None, v1, b1))
  /\ (~ fits b n -> exists v1 b1, encode E d v b = (Some IOOBE, v1, b1)).
Proof. intros E d c v b HE. exact (room lib_classes Y library_conforms E HE d c v b). Qed.
Example C39_meets :
  let tight := {| arr := [1; 2; 3]; ridx := 1; widx := 3; maxcap := 40; cs_slack := true; policy := policy used_buf |} in
  buf_wf tight = true /\ complete Y s_sse (WObj "sse.SseBinary") = true
  /\ (let '(e, _, b1) := encode lib_env 9 s_sse tight in
      e = Some IOOBE /\ firstn 8 (content b1) = [1; 2; 3; 0; 0; 0; 40; 0] /\ widx b1 = 40%nat /\ ridx b1 = 1%nat).
Proof. vm_compute. repeat split. Qed.

Print Assumptions C23_encode_appends_wire_form.
Print Assumptions C23_declaration_order.
Print Assumptions C22_round_trip.
Print Assumptions C24_consumes_what_encode_wrote.
Print Assumptions C24_streams.
Print Assumptions C25_injective_and_prefix_free.
Print Assumptions C37_null_parts_throw.
Print Assumptions C37_null_string_list_body_allowed.
Print Assumptions C38_only_length_and_checksum_change.
Print Assumptions C38_plain_classes_unchanged.
Print Assumptions C38_encoding_again.
Print Assumptions C39_failed_encode_keeps_content.
Print Assumptions C39_complete_objects_throw_only_without_room.
