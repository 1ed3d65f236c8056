(* C100: objects of classes that users derive from message classes. *)
From Coq Require Import ZArith List Bool String Lia.
From Verif.Model Require Import JavaPrim ByteBuf Utf8 Codec Checksum Ast Interp Factory Library Show Heap Subclass.
From Verif.Spec Require Import Bytes Buffers Wire Reading Layouts Equality Sharing Recast.
From Verif.Proofs Require Import BufFacts HeapFacts HeapCheck SubclassFacts KindFacts.
From Verif.Props Require Import Samples MessageProps EqualProps HeapProps.
Import ListNotations.
Open Scope Z_scope.
Open Scope list_scope.
Notation Y := lib_layouts.

Lemma library_literals E : classes E = lib_classes -> literals_known E.
Proof.
  intros HE c cd s k A I J. rewrite HE in *.
  assert (X : forallb (fun x => forallb (fun s => forallb (fun k => match assoc k lib_classes with Some _ => true | None => false end) (literals s)) (c_dec (snd x))) lib_classes = true) by (vm_compute; reflexivity).
  rewrite forallb_forall in X. apply RegistryFacts.assoc_in in A. specialize (X _ A). cbn [snd] in X. rewrite forallb_forall in X. specialize (X _ I). rewrite forallb_forall in X. specialize (X _ J).
  destruct (assoc k lib_classes) as [kd|]; [exists kd; reflexivity|discriminate].
Qed.

(* encode writes the same bytes, sets the same fields and ends in the same way as for objects of the library's classes; no object changes its class *)
Theorem C100_encode : forall S E d h v b e h1 b1, classes E = lib_classes -> derived S lib_classes ->
  hencode (with_subclasses S E) d h v b = (e, h1, b1) ->
  hencode (plain S E) d (recast S h) v b = (e, recast S h1, b1) /\ kinds h1 = kinds h.
Proof.
  intros S E d h v b e h1 b1 HE D Q. rewrite <- HE in D. split; [rewrite (encode_base S E D), Q; reflexivity|]. eapply encode_kinds; eauto.
Qed.
(* decode reads the same values; no object changes its class, and a new one is of a class of the library or of the class a factory creates *)
Theorem C100_decode : forall S E d h v b e h1 b1, classes E = lib_classes -> derived S lib_classes ->
  hdecode (with_subclasses S E) d h v b = (e, h1, b1) ->
  hdecode (plain S E) d (recast S h) v b = (e, recast S h1, b1)
  /\ exists new, kinds h1 = kinds h ++ new /\ forall c, In (Some c) new -> assoc c lib_classes <> None \/ exists o k, factory E o k = Some c.
Proof.
  intros S E d h v b e h1 b1 HE D Q. rewrite <- HE in D. split; [rewrite (decode_base S E D (library_literals E HE)), Q; reflexivity|].
  apply (decode_kinds (with_subclasses S E) (fun c => assoc c lib_classes <> None \/ exists o k, factory E o k = Some c)) in Q; [exact Q| |].
  - intros c cd s k F I J. left. rewrite (find_base S E D) in F. destruct (library_literals E HE (base S c) cd s k F I J) as (kd & K). rewrite HE in K. rewrite K. discriminate.
  - intros o k c F. right. exists (base S o), k. exact F.
Qed.
(* hashCode and toString are those of the class of the library *)
Theorem C100_hash_and_text : forall S E P d h v, classes E = lib_classes -> derived S lib_classes ->
  hhash (with_subclasses S E) d h v = hhash (plain S E) d (recast S h) v /\ hstring (with_subclasses S E) P d h v = hstring (plain S E) P d (recast S h) v.
Proof. intros S E P d h v HE D. rewrite <- HE in D. split; symmetry; [apply (hash_base S E D)|apply (string_base S E D)]. Qed.
(* equals holds for no more objects than it does for those of the library's classes, *)
Theorem C100_equals_sound : forall S E d h a b, classes E = lib_classes -> derived S lib_classes ->
  hequals (with_subclasses S E) d h a b = Some true -> hequals (plain S E) d (recast S h) a b = Some true.
Proof. intros S E d h a b HE D. rewrite <- HE in D. apply (equals_weak S E D). Qed.
(* never between a class and another derived from it, in either direction, *)
Theorem C100_equals_class : forall S E d h l m c fs c' gs, nth_error h l = Some (CObj c fs) -> nth_error h m = Some (CObj c' gs) -> c <> c' ->
  hequals (with_subclasses S E) (Datatypes.S d) h (HRef l) (HRef m) = Some false /\ hequals (with_subclasses S E) (Datatypes.S d) h (HRef m) (HRef l) = Some false.
Proof.
  intros S E d h l m c fs c' gs Nl Nm N. assert (LM : l <> m) by (intros ->; congruence). cbn [hequals]. rewrite Nl, Nm. rewrite (proj2 (PeanoNat.Nat.eqb_neq l m) LM), (proj2 (PeanoNat.Nat.eqb_neq m l) (not_eq_sym LM)).
  rewrite (proj2 (String.eqb_neq c c') N), (proj2 (String.eqb_neq c' c) (not_eq_sym N)). auto.
Qed.
(* and for the same objects if none in the one message and none in the other are of two classes derived from one *)
Theorem C100_equals_exact : forall S E d h a b, classes E = lib_classes -> derived S lib_classes -> told_apart S h a b ->
  hequals (with_subclasses S E) d h a b = hequals (plain S E) d (recast S h) a b.
Proof. intros S E d h a b HE D T. rewrite <- HE in D. symmetry. apply (equals_exact S E D). exact T. Qed.

(* what is decoded from the bytes of a message with parts of derived classes: the same message, with parts of the library's classes where the factories create those *)
Theorem C100_decoded : forall S E d d0 h v t fp c b h1 b1, classes E = lib_classes -> derived S lib_classes -> heap_ok lib_classes (recast S h) -> v <> HNull -> fits (recast S h) v (TObj c) -> owns (recast S h) v t fp -> buf_wf b = true ->
  hencode (with_subclasses S E) d0 h v b = (None, h1, b1) -> parsable Y (factory (plain S E)) t (WObj c) = true -> canonical Y t (WObj c) = true -> exact_form Y t (WObj c) = true -> (nesting t <= d)%nat ->
  exists bs t1 fp1, appended b bs b1 /\ owns (recast S h1) v t1 fp1 /\ forget Y t1 (WObj c) = forget Y t (WObj c) /\ forall b2 rest, buf_wf b2 = true -> readable b2 = bs ++ rest ->
  let '(h2, w) := hnew (with_subclasses S E) h1 c in let '(e, h3, b3) := hdecode (with_subclasses S E) d h2 w b2 in
  e = None /\ exists fp3, owns (recast S h3) w t1 fp3 /\ (forall l, In l fp3 -> (List.length h1 <= l)%nat) /\ advanced b2 (List.length bs) b3.
Proof.
  intros S E d d0 h v t fp c b h1 b1 HE D OK N F O Hb Q PA CA EX NE. destruct (C100_encode S E d0 h v b None h1 b1 HE D Q) as [Q0 _].
  pose proof (C56_unshared_exact (plain S E) d0 (recast S h) v t b fp O) as U. rewrite Q0 in U. destruct (encode (plain S E) d0 t b) as [[e2 t1] b1'] eqn:EN. destruct U as (<- & <- & fp1 & O1).
  assert (OB : object_of (plain S E) c t = true) by (exact (fits_object (plain S E) (recast S h) v t c HE OK F N (proj1 (HeapOwn.owns_shows _) _ _ _ O))).
  destruct (C22_round_trip (plain S E) (plain S E) d0 d c t b t1 b1 HE HE OB Hb EN PA CA NE) as (bs & AP & R). exists bs, t1, fp1. split; [exact AP|]. split; [exact O1|].
  split; [exact (C38_only_length_and_checksum_change (plain S E) d0 c t b t1 b1 HE OB Hb EN)|]. intros b2 rest Hb2 RD. destruct (R b2 rest Hb2 RD) as (v2 & b3 & D2 & _ & X2 & AD). specialize (X2 EX). subst v2.
  assert (DE : derived S (classes E)) by (rewrite HE; exact D).
  pose proof (C58_decode_fresh (plain S E) d (recast S h1) c b2) as W. pose proof (new_base S E DE h1 c) as NB. assert (BC : base S c = c).
  { destruct v as [| | | |l]; cbn in F; try contradiction; try (exfalso; apply N; reflexivity). destruct F as (fs & F). destruct (OK l c fs F) as (cd & A & _). apply (base_own S E DE c cd). rewrite HE. exact A. }
  rewrite BC in NB. rewrite NB in W. destruct (hnew (with_subclasses S E) h1 c) as [h2 w]. destruct (hdecode (with_subclasses S E) d h2 w b2) as [[e h3] b3'] eqn:DD. destruct (C100_decode S E d h2 w b2 e h3 b3' HE D DD) as [D0 _]. rewrite D0, D2 in W.
  destruct W as (-> & -> & _ & fp3 & O3 & FR). split; [reflexivity|]. exists fp3. split; [exact O3|]. split; [intros l I; specialize (FR l I); unfold recast in FR; rewrite map_length in FR; exact FR|]. exact (proj2 AD).
Qed.

(* ---- a message with a part of a subclass is not equal to what is decoded from its bytes ---- *)
Definition mine : subclasses := [("user.Priced", "sample.SubPacket"); ("user.Logged", "sample.NestedPacket")]%string.
Definition fields_like (c : string) (sets : list (string * hval)) : list (string * hval) := match obj c sets with CObj _ fs => fs | _ => [] end.
(* NestedPacket m with m.setSubPacket(new SubPacket() {{ setFieldU32(1); }}), and a new NestedPacket *)
Definition h_braces : heap :=
  [ CObj "user.Priced" (fields_like "sample.SubPacket" [("fieldU32", HInt 1)]); obj "sample.NestedPacket.InerPacket" [];
    obj "sample.NestedPacket" [("subPacket", HRef 0); ("inerPacket", HRef 1)]; obj "sample.NestedPacket" [] ]%string.
Definition mine_env : env := with_subclasses mine lib_env.
Lemma mine_derived : derived mine lib_classes.
Proof. intros d c [Q|[Q|[]]]; injection Q as <- <-; (split; [vm_compute; reflexivity|eexists; vm_compute; reflexivity]). Qed.
Theorem C100_round_trip_refuted : exists S h v w d h1 b1 h2 b2, derived S lib_classes
  /\ hencode (with_subclasses S lib_env) d h v empty_buf = (None, h1, b1) /\ hdecode (with_subclasses S lib_env) d h1 w b1 = (None, h2, b2)
  /\ hequals (with_subclasses S lib_env) d h2 v w = Some false /\ hequals (plain S lib_env) d (recast S h2) v w = Some true
  /\ hhash (with_subclasses S lib_env) d h2 v = hhash (with_subclasses S lib_env) d h2 w.
Proof.
  exists mine, h_braces, (HRef 2), (HRef 3), 3%nat. eexists _, _, _, _. split; [apply mine_derived|]. split; [vm_compute; reflexivity|]. split; [vm_compute; reflexivity|]. split; [vm_compute; reflexivity|]. split; vm_compute; reflexivity.
Qed.

(* a registered subclass: RootPacket.MessageFactory.register(3, Logged::new) *)
Definition logged : factories := on_factory lib_factories "sample.RootPacket" (fun m => register m (KInt 3) "user.Logged"%string).
Definition logged_env : env := env_of lib_classes logged initial_cache.
Definition logged_bytes : bytebuf := snd (hencode mine_env 3 (h_braces ++ [obj "sample.RootPacket" [("msgType", HInt 3); ("payload", HRef 2)]%string]) (HRef 4) empty_buf).
Lemma reach_flat h l c fs m : nth_error h l = Some (CObj c fs) -> forallb (fun x => match snd x with HRef _ => false | _ => true end) fs = true -> reach h (HRef l) m -> m = l.
Proof.
  intros N F R. inversion R as [|? c' fs' f v ? N' I' R'|? vs v ? N' I' R']; subst; [reflexivity| |congruence]. rewrite N in N'. injection N' as <- <-. rewrite forallb_forall in F. specialize (F _ I'). cbn in F. destruct v; try discriminate; inversion R'.
Qed.
Example C100_meets : classes logged_env = lib_classes /\ derived mine lib_classes
  /\ (let '(e, h1, b1) := hdecode (with_subclasses mine logged_env) 4 [obj "sample.RootPacket" []] (HRef 0) logged_bytes in
      e = None /\ kinds h1 = [Some "sample.RootPacket"; Some "user.Logged"; Some "sample.SubPacket"; Some "sample.NestedPacket.InerPacket"]%string /\ ridx b1 = widx b1 /\ widx b1 = 24%nat
      /\ told_apart mine h1 (HRef 0) (HRef 0) /\ hequals (with_subclasses mine logged_env) 4 h1 (HRef 0) (HRef 0) = Some true)
  /\ kinds (recast mine h_braces) <> kinds h_braces /\ ~ told_apart mine (h_braces ++ [obj "sample.SubPacket" []]%string) (HRef 0) (HRef 4) /\ told_apart mine (h_braces ++ [obj "sample.SubPacket" []]%string) (HRef 0) (HRef 1)
  /\ hequals mine_env 3 (h_braces ++ [nth 0 h_braces (CList [])]) (HRef 0) (HRef 4) = Some true
  /\ hequals mine_env 3 (h_braces ++ [obj "sample.SubPacket" [("fieldU32", HInt 1)]]%string) (HRef 0) (HRef 4) = Some false
  /\ hequals (plain mine lib_env) 3 (recast mine (h_braces ++ [obj "sample.SubPacket" [("fieldU32", HInt 1)]]%string)) (HRef 0) (HRef 4) = Some true
  /\ hhash mine_env 3 h_braces (HRef 0) <> None.
Proof.
  split; [reflexivity|]. split; [apply mine_derived|]. split.
  { destruct (hdecode (with_subclasses mine logged_env) 4 [obj "sample.RootPacket" []] (HRef 0) logged_bytes) as [[e h1] b1] eqn:X. vm_compute in X. apply pair_equal_spec in X. destruct X as [X <-]. apply pair_equal_spec in X. destruct X as [<- <-].
    split; [reflexivity|]. split; [reflexivity|]. split; [reflexivity|]. split; [reflexivity|]. split; [|reflexivity]. intros l m c fs c' gs _ _ A B Q.
    do 4 (destruct l as [|l]; [injection A as <- _; do 4 (destruct m as [|m]; [injection B as <- _; vm_compute in Q; congruence|]); destruct m; discriminate B|]). destruct l; discriminate A. }
  split; [vm_compute; discriminate|]. split.
  { intros T. specialize (T 0%nat 4%nat _ _ _ _ (reach_here _ 0) (reach_here _ 4) eq_refl eq_refl eq_refl). discriminate T. }
  split.
  { intros l m c fs c' gs R0 R1 A B Q. eapply reach_flat in R0; [|reflexivity|vm_compute; reflexivity]. eapply reach_flat in R1; [|reflexivity|vm_compute; reflexivity]. subst l m. injection A as <- _. injection B as <- _. vm_compute in Q. discriminate Q. }
  split; [vm_compute; reflexivity|]. split; [vm_compute; reflexivity|]. split; [vm_compute; reflexivity|]. vm_compute. discriminate.
Qed.
Example C100_decoded_meets : heap_ok lib_classes (recast mine h_braces) /\ fits (recast mine h_braces) (HRef 2) (TObj "sample.NestedPacket") /\ exists t fp h1 b1,
  owns (recast mine h_braces) (HRef 2) t fp /\ hencode mine_env 3 h_braces (HRef 2) empty_buf = (None, h1, b1) /\ widx b1 = 14%nat
  /\ parsable Y (factory (plain mine lib_env)) t (WObj "sample.NestedPacket") = true /\ canonical Y t (WObj "sample.NestedPacket") = true /\ exact_form Y t (WObj "sample.NestedPacket") = true /\ (nesting t <= 3)%nat.
Proof.
  split; [apply cells_ok; vm_compute; reflexivity|]. split; [apply fitsb_fits; vm_compute; reflexivity|]. eexists _, _, _, _.
  split; [apply (owned_owns _ 9); vm_compute; reflexivity|]. split; [vm_compute; reflexivity|]. split; [vm_compute; reflexivity|]. split; [vm_compute; reflexivity|]. split; [vm_compute; reflexivity|]. split; [vm_compute; reflexivity|]. cbn. lia.
Qed.

Print Assumptions C100_encode.
Print Assumptions C100_decode.
Print Assumptions C100_hash_and_text.
Print Assumptions C100_equals_sound.
Print Assumptions C100_equals_class.
Print Assumptions C100_equals_exact.
Print Assumptions C100_decoded.
Print Assumptions C100_round_trip_refuted.
