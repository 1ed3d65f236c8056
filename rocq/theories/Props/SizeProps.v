(* C43: sizes of encoded messages. *)
From Coq Require Import ZArith List Bool String Lia.
From Verif.Model Require Import JavaPrim ByteBuf Utf8 Checksum Ast Interp Factory Library.
From Verif.Spec Require Import Bytes Buffers Wire Reading Layouts Sizes Flat.
From Verif.Proofs Require Import BytesFacts BufFacts Conform TableFacts FillFacts EncodeFacts DecodeFacts Messages FrameFacts SizeFacts.
From Verif.Props Require Import Samples ArbitraryProps OversizeProps.
Import ListNotations.
Open Scope Z_scope.

(* the number of bytes written is a function of the object alone *)
Theorem C43_encoded_size : forall E d c v b v1 b1, classes E = lib_classes ->
  object_of E c v = true -> buf_wf b = true -> encode E d v b = (None, v1, b1) ->
  exists bs, appended b bs b1 /\ List.length bs = size_of Y v (WObj c).
Proof.
  intros E d c v b v1 b1 HE Ho Hb He.
  destruct (encoded_facts lib_classes Y library_conforms E HE d c v b v1 b1 Ho Hb He) as (Ho1 & _ & _ & Hc & A & _ & Ef).
  exists (ser Y v1 (WObj c)). split; [exact A|]. destruct (object_shape lib_classes E HE c _ Ho1) as (fs1 & _ & Ht).
  rewrite (ser_size lib_classes Y library_conforms v1 (WObj c)); auto.
  - rewrite Ef. apply size_fill.
  - exact (known_class lib_classes Y library_conforms E HE c v1 Ho1).
Qed.
(* classes of fixed-width fields only: the sum of the widths *)
Theorem C43_constant_size : forall E d c fs b v1 b1 L, classes E = lib_classes ->
  object_of E c (VObj c fs) = true -> buf_wf b = true -> encode E d (VObj c fs) b = (None, v1, b1) ->
  find c Y = Some L -> flat L = true -> lefts_filled fs L = true ->
  exists bs, appended b bs b1 /\ List.length bs = total_width L.
Proof.
  intros E d c fs b v1 b1 L HE Ho Hb He HL Hfl Hp. destruct (C43_encoded_size E d c _ b v1 b1 HE Ho Hb He) as (bs & A & Hl).
  exists bs. split; auto. rewrite Hl. cbn [size_of]. rewrite HL.
  destruct (object_shape lib_classes E HE c _ Ho) as (fs' & [= <-] & Ht). apply size_flat; auto.
  apply (fields_ok_length lib_classes). eapply typed_obj; eauto using library_conforms.
Qed.
(* a null body takes no bytes: the message is shorter by the size of the body it would have *)
Theorem C37_null_body_is_shorter : forall E d d' c fs f k pre post b v1 b1 b' u1 b1', classes E = lib_classes ->
  object_of E c (VObj c fs) = true -> find c Y = Some (pre ++ (f, WBody k) :: post) -> buf_wf b = true -> buf_wf b' = true ->
  encode E d (VObj c fs) b = (None, v1, b1) -> encode E d' (VObj c (set f VNull fs)) b' = (None, u1, b1') ->
  exists bs bs', appended b bs b1 /\ appended b' bs' b1' /\ List.length bs = (List.length bs' + size_of Y (get f fs) (WBody k))%nat.
Proof.
  intros E d d' c fs f k pre post b v1 b1 b' u1 b1' HE Ho HL Hb Hb' He He'.
  destruct (object_shape lib_classes E HE c _ Ho) as (fs' & [= <-] & Ht). pose proof (typed_obj lib_classes Y c fs _ _ library_conforms HL Ht) as Hf.
  destruct (layout_at c pre f (WBody k) post HL) as [_ Hfn].
  destruct (fields_ok_split lib_classes _ _ _ Hf) as (a & r & -> & Hf1 & Hf2). destruct r as [|[g x] r]; [discriminate|]. apply fields_ok_cons in Hf2 as (-> & Hx & Hf2).
  assert (Ha : existsb (fun fv : string * val => String.eqb f (fst fv)) a = false) by (rewrite (existsb_names f a pre (fields_ok_names _ _ _ Hf1)); exact Hfn).
  rewrite set_mid in He' by exact Ha. rewrite get_mid by exact Ha.
  assert (Ho' : object_of E c (VObj c (a ++ (f, VNull) :: r)) = true).
  { apply (object_intro lib_classes E HE). apply (FrameDecode.typed_intro lib_classes Y library_conforms c _ _ HL). apply (FrameDecode.fields_ok_app lib_classes); auto.
    cbn [fields_ok forall2b fst snd]. rewrite String.eqb_refl. exact Hf2. }
  destruct (C43_encoded_size E d c _ b v1 b1 HE Ho Hb He) as (bs & A & Hl). destruct (C43_encoded_size E d' c _ b' u1 b1' HE Ho' Hb' He') as (bs' & A' & Hl').
  exists bs, bs'. split; [exact A|]. split; [exact A'|]. rewrite Hl, Hl'. cbn [size_of]. rewrite HL.
  pose proof (fields_ok_length lib_classes _ _ Hf1) as Hl1. clear - Hl1. revert a Hl1. induction pre as [|[g u] pre IH]; intros [|[h y] a] Hl1; try discriminate.
  - cbn [app sum2 snd]. replace (size_of Y VNull (WBody k)) with O by reflexivity. lia.
  - cbn [app sum2 snd]. rewrite (IH a) by (simpl in Hl1; lia). lia.
Qed.
Example C43_meets :
  let v := build "sse.Logon" [("senderCompId", str "far too long for its field, which is 32 bytes wide")]%string in
  object_of lib_env "sse.Logon" v = true /\ (exists L, find "sse.Logon"%string Y = Some L /\ flat L = true /\ total_width L = 82%nat
    /\ lefts_filled (match v with VObj _ fs => fs | _ => [] end) L = true)
  /\ (let '(e, _, b1) := encode lib_env 9 v used_buf in e = None /\ widx b1 = 85%nat)
  /\ List.length (filter (fun cL => flat (snd cL)) Y) = 143%nat.
Proof. split; [vm_compute; reflexivity|]. split; [eexists; split; [reflexivity|vm_compute; repeat split]|]. vm_compute. repeat split. Qed.

Print Assumptions C43_encoded_size.
Print Assumptions C43_constant_size.
Print Assumptions C37_null_body_is_shorter.
