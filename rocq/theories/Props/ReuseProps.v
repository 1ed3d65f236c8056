(* C34, C36: decoding into a used object; empty strings in lists. *)
From Coq Require Import ZArith List Bool String Lia.
From Verif.Model Require Import JavaPrim ByteBuf Utf8 Ast Interp Library.
From Verif.Spec Require Import Bytes Buffers Wire Reading Layouts Overlay.
From Verif.Proofs Require Import BytesFacts BufFacts Utf8Facts Utf8More Conform TableFacts FillFacts EncodeFacts DecodeFacts Messages OverlayFacts.
From Verif.Props Require Import Samples ArbitraryProps OversizeProps.
Import ListNotations.
Open Scope Z_scope.

(* ---- C34 ---- *)
(* any bytes, also when decode fails: exception and bytes consumed do not depend on the object decoded into, and the old values show
   through as Spec/Overlay.v says *)
Theorem C34_any_bytes : forall E d c old b, classes E = lib_classes -> object_of E c old = true ->
  exists e fresh v b', decode E d (new_obj E c) b = (e, fresh, b') /\ decode E d old b = (e, v, b') /\ overlay Y (WObj c) old fresh v.
Proof.
  intros E d c old b HE Ho. destruct (object_shape lib_classes E HE c old Ho) as (os & -> & Ht).
  destruct (typed_obj_known lib_classes Y c os _ library_conforms Ht) as [L HL].
  destruct (two_all lib_classes Y library_conforms E HE d c L os b HL Ht) as (e & fs1 & fs & b' & D1 & D2 & O & _).
  exists e, (VObj c fs1), (VObj c fs), b'. rewrite (new_blank lib_classes Y library_conforms E HE). unfold blank_obj. rewrite HL.
  split; auto. split; auto. econstructor; eauto.
Qed.
(* classes without length or count prefixes (nor in their sub-objects) are overwritten completely *)
Theorem C34_overwritten : forall E d c old b n v b', classes E = lib_classes -> object_of E c old = true -> steady Y n (WObj c) = true ->
  decode E d old b = (None, v, b') -> decode E d (new_obj E c) b = (None, v, b').
Proof.
  intros E d c old b n v b' HE Ho Hs D. destruct (object_shape lib_classes E HE c old Ho) as (os & -> & Ht).
  destruct (typed_obj_known lib_classes Y c os _ library_conforms Ht) as [L HL].
  destruct (two_all lib_classes Y library_conforms E HE d c L os b HL Ht) as (e & fs1 & fs & b2 & D1 & D2 & O & Q).
  rewrite D in D2. injection D2 as <- -> ->. rewrite (Q eq_refl n Hs) in D1.
  rewrite (new_blank lib_classes Y library_conforms E HE). unfold blank_obj. rewrite HL. exact D1.
Qed.
(* the bytes of a message: the exact value, and when it is the one a new object gets *)
Theorem C34_value : forall E d d2 c v old b v1 b1 bs b2 rest, classes E = lib_classes ->
  object_of E c v = true -> object_of E c old = true -> buf_wf b = true -> encode E d v b = (None, v1, b1) ->
  parsable Y (factory E) v (WObj c) = true -> (nesting v <= d2)%nat -> appended b bs b1 -> buf_wf b2 = true -> readable b2 = bs ++ rest ->
  exists b3, decode E d2 old b2 = (None, absorb Y old v1 (WObj c), b3) /\ advanced b2 (List.length bs) b3
    /\ (decode E d2 old b2 = decode E d2 (new_obj E c) b2 <-> clean Y old v1 (WObj c) = true).
Proof.
  intros E d d2 c v old b v1 b1 bs b2 rest HE Hv Ho Hb He Hp Hn A Hb2 Hr.
  destruct (encoded_facts lib_classes Y library_conforms E HE d c v b v1 b1 Hv Hb He) as (Hv1 & _ & Hn1 & _ & A1 & _ & E1).
  assert (bs = ser Y v1 (WObj c)) as -> by (destruct A as [A _ _ _ _], A1 as [A1 _ _ _ _]; rewrite A in A1; apply app_inv_head in A1; exact A1).
  assert (Hp1 : parsable Y (factory E) v1 (WObj c) = true) by (rewrite E1, fill_parsable; exact Hp).
  destruct (decode_bytes lib_classes Y library_conforms E HE d2 c v1 old b2 rest Hv1 Ho Hp1 ltac:(lia) Hb2 Hr) as (b3 & D & Ad).
  pose proof (new_object lib_classes Y library_conforms E HE c v Hv) as Hnew.
  destruct (decode_bytes lib_classes Y library_conforms E HE d2 c v1 _ b2 rest Hv1 Hnew Hp1 ltac:(lia) Hb2 Hr) as (b3' & D' & Ad').
  exists b3. split; auto. split; auto. rewrite D, D'. unfold advanced in *. subst b3 b3'.
  rewrite (absorb_new lib_classes Y library_conforms E HE c v1 Hv1).
  destruct (object_shape lib_classes E HE c v1 Hv1) as (fs & -> & Ht). destruct (object_shape lib_classes E HE c old Ho) as (os & -> & Hto).
  rewrite <- (clean_iff lib_classes Y library_conforms (VObj c fs) (WObj c) (VObj c os)); auto; [|eapply (known_class lib_classes Y library_conforms); eauto].
  cbn [blank_val]. split; [intros Q; apply (f_equal (fun r => snd (fst r))) in Q; exact Q|intros Q; rewrite Q; reflexivity].
Qed.
(* so decode does not always overwrite *)
Theorem C34_stale_refuted : exists v old v1 b1, object_of lib_env "sample.SubPacket" v = true /\ object_of lib_env "sample.SubPacket" old = true
  /\ encode lib_env 9 v empty_buf = (None, v1, b1)
  /\ (exists b2 v2, decode lib_env 9 (new_obj lib_env "sample.SubPacket") b1 = (None, v2, b2) /\ v2 = v)
  /\ exists b2 v2, decode lib_env 9 old b1 = (None, v2, b2) /\ field "fieldI16List" v2 = field "fieldI16List" old /\ v2 <> v.
Proof.
  exists (build "sample.SubPacket" [("fieldU32", VInt 5)]%string), (s_sub 1). eexists _, _.
  split; [vm_compute; reflexivity|]. split; [vm_compute; reflexivity|]. split; [vm_compute; reflexivity|].
  split; eexists _, _; (split; [vm_compute; reflexivity|]); [reflexivity|]. split; [vm_compute; reflexivity|discriminate].
Qed.
Example C34_meets :
  (* 161 of 182 classes are overwritten completely *)
  List.length (filter (fun cL => steady Y 3 (WObj (fst cL))) Y) = 161%nat /\ List.length Y = 182%nat
  /\ steady Y 3 (WObj "sse.SseBinary") = true /\ steady Y 3 (WObj "sample.NestedPacket") = false
  /\ object_of lib_env "sse.SseBinary" s_sse = true
  /\ (let '(e, v, _) := decode lib_env 9 s_sse (wrap_bytes ([0; 0; 0; 33] ++ repeat 0 16)) in e = None /\ v <> s_sse /\ field "body" v = build "sse.Heartbeat" [])
  (* stale data two levels down, and none *)
  /\ clean Y s_nested (build "sample.NestedPacket" [("subPacket", build "sample.SubPacket" []); ("inerPacket", build "sample.NestedPacket.InerPacket" [])]%string) (WObj "sample.NestedPacket") = false
  /\ clean Y s_nested s_nested (WObj "sample.NestedPacket") = true.
Proof. vm_compute. repeat split; discriminate. Qed.

(* ---- C36 ---- *)
Definition nonempty (x : val) : bool := match x with VStr (_ :: _) => true | _ => false end.
Definition well_formed (x : val) : bool := valid16 (text x).

Lemma string_elem x : is_null x || typed lib_classes x TStr = true -> x = VNull \/ exists s, x = VStr s.
Proof. intros H. destruct x as [| | |s| |]; cbn [is_null orb] in H; eauto; destruct (typed_str lib_classes _ H) as [Q|(t & Q & _)]; discriminate Q. Qed.
Lemma kept_filter n o l : forallb (fun x => is_null x || typed lib_classes x TStr) l = true -> forallb well_formed l = true ->
  flat_map (kept Y (WDyn n o)) l = filter nonempty l.
Proof.
  induction l as [|x l IH]; auto. cbn [forallb flat_map filter]. intros Ht Hw. apply andb_true_iff in Ht as [Hx Ht]. apply andb_true_iff in Hw as [Hw1 Hw].
  rewrite IH by auto. destruct (string_elem x Hx) as [->|(s & ->)]; [reflexivity|]. destruct s as [|a s]; [reflexivity|].
  cbn [kept text nonempty app absorb]. unfold well_formed in Hw1. cbn [text] in Hw1. rewrite decode_utf8_valid by exact Hw1. reflexivity.
Qed.
Theorem C36_empty_elements_dropped : forall E d d2 c fs b v1 b1 bs b2 rest f n o m p l, classes E = lib_classes ->
  object_of E c (VObj c fs) = true -> buf_wf b = true -> encode E d (VObj c fs) b = (None, v1, b1) ->
  parsable Y (factory E) (VObj c fs) (WObj c) = true -> (nesting (VObj c fs) <= d2)%nat ->
  appended b bs b1 -> buf_wf b2 = true -> readable b2 = bs ++ rest ->
  forall L, find c Y = Some L -> find f L = Some (WList n o (WDyn m p)) ->
  get f fs = VList l -> l <> [] -> forallb well_formed l = true ->
  exists v2 b3, decode E d2 (new_obj E c) b2 = (None, v2, b3) /\ field f v2 = VList (filter nonempty l).
Proof.
  intros E d d2 c fs b v1 b1 bs b2 rest f n o m p l HE Hv Hb He Hp Hn A Hb2 Hr L HL Hf Hg Hne Hw.
  destruct (C34_value E d d2 c (VObj c fs) (new_obj E c) b v1 b1 bs b2 rest HE Hv (new_object lib_classes Y library_conforms E HE c _ Hv) Hb He Hp Hn A Hb2 Hr)
    as (b3 & D & _ & _).
  destruct (encoded_facts lib_classes Y library_conforms E HE d c _ b v1 b1 Hv Hb He) as (Hv1 & Hfg & _).
  destruct (object_shape lib_classes E HE c _ Hv) as (fs' & [= <-] & Hty). destruct (object_shape lib_classes E HE c _ Hv1) as (fs1 & -> & Hty1).
  pose proof (typed_obj lib_classes Y c fs _ _ library_conforms HL Hty) as Hf0. pose proof (typed_obj lib_classes Y c fs1 _ _ library_conforms HL Hty1) as Hf1.
  rewrite !(forget_obj_eq Y c _ _ _ HL) in Hfg. injection Hfg as Hfg.
  pose proof (forget_get Y fs1 fs _ f _ (fields_ok_names _ _ _ Hf1) (fields_ok_names _ _ _ Hf0) Hfg Hf) as Hgg. rewrite Hg in Hgg.
  assert (Ht : forall fs L, fields_ok lib_classes fs L = true -> forall w, find f L = Some w -> typed lib_classes (get f fs) (wire_type w) = true).
  { clear. induction fs as [|[g x] fs IH]; intros [|[h u] L] H w Hw; try discriminate. apply fields_ok_cons in H as (-> & Hx & H).
    cbn [find get] in *. destruct (String.eqb f h); [injection Hw as <-; auto|]. eapply IH; eauto. }
  pose proof (Ht _ _ Hf1 _ Hf) as T1. pose proof (Ht _ _ Hf0 _ Hf) as T0. rewrite Hg in T0. cbn [wire_type typed] in T0.
  assert (Id : forall l, forallb (fun x => is_null x || typed lib_classes x TStr) l = true -> map (fun x => forget Y x (WDyn m p)) l = l).
  { clear. induction l as [|x l IH]; auto. cbn [forallb map]. intros H. apply andb_true_iff in H as [Hx H]. rewrite IH by auto.
    destruct (string_elem x Hx) as [->|(s & ->)]; reflexivity. }
  assert (G1 : get f fs1 = VList l).
  { destruct (get f fs1) as [| | | |l1|] eqn:Eg; try discriminate T1; cbn [forget_field forget] in Hgg; [discriminate|]. cbn [wire_type typed] in T1. rewrite !Id in Hgg by auto. exact Hgg. }
  eexists _, b3. split; [exact D|]. rewrite (absorb_new lib_classes Y library_conforms E HE c _ Hv1), (absorb_obj_eq Y _ _ _ _ L HL). cbn [olds field].
  rewrite <- (kept_filter m p l T0 Hw). clear - G1 Hf Hf1 Hne. revert L Hf Hf1. induction fs1 as [|[g x] fs1 IH]; intros [|[h u] L] Hf H; try discriminate.
  apply fields_ok_cons in H as (-> & Hx & H). cbn [find get absorb_fields blank map fst snd] in *. destruct (String.eqb f h).
  - injection Hf as ->. subst x. rewrite absorb_list. destruct l as [|a l]; [contradiction Hne; reflexivity|reflexivity].
  - fold (blank L). auto.
Qed.
(* null and the empty list are read as null; a list of empty strings only is read as an empty list *)
Example C36_meets :
  let l := [str "a"; VNull; VStr []; str "bc"; VStr []] in
  let v := build "sample.StringPacket" [("fieldFixedString1", str "x"); ("fieldFixedString10", str "x"); ("fieldFixedString10Pad", str "x"); ("fieldDynamicStringList", VList l)]%string in
  object_of lib_env "sample.StringPacket" v = true /\ parsable Y (factory lib_env) v (WObj "sample.StringPacket") = true /\ forallb well_formed l = true
  /\ match find "sample.StringPacket" Y with Some L => find "fieldDynamicStringList" L | None => None end = Some (WList 2 LE (WDyn 2 LE))
  /\ filter nonempty l = [str "a"; str "bc"]
  /\ (let '(e, v1, b1) := encode lib_env 9 v empty_buf in e = None
      /\ let '(e, v2, b2) := decode lib_env 9 (new_obj lib_env "sample.StringPacket") b1 in e = None /\ field "fieldDynamicStringList" v2 = VList [str "a"; str "bc"]).
Proof. vm_compute. repeat split. Qed.

Print Assumptions C34_any_bytes.
Print Assumptions C34_overwritten.
Print Assumptions C34_value.
Print Assumptions C34_stale_refuted.
Print Assumptions C36_empty_elements_dropped.
