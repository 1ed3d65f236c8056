(* C62-C64: decode and encode on object graphs of any shape. *)
From Coq Require Import ZArith List Bool String Lia.
From Verif.Model Require Import JavaPrim ByteBuf Utf8 Codec Ast Interp Library Show Heap.
From Verif.Spec Require Import Bytes Buffers Wire Reading Layouts Equality Text Sharing.
From Verif.Proofs Require Import BufFacts EncodeFacts DecodeFacts DecodeInv HeapFacts HeapReach HeapOwn HeapDecode HeapEq HeapCycle HeapCheck HeapFrame HeapTypes HeapEncTypes HeapUntangle.
From Verif.Props Require Import Samples MessageProps EqualProps TextProps ArbitraryProps HeapProps.
Import ListNotations.
Open Scope Z_scope.

(* ---- the classes of the library ---- *)
Definition sound_class (cd : class_def) : bool :=
  forallb (fine_dstmt (c_fields cd)) (c_dec cd) && keyed lib_env [] None (c_dec cd) && fine_enc (c_fields cd) [] (c_enc cd) && renews lib_env 3 (c_fields cd) (c_dec cd).
Lemma library_sound : forall c cd, assoc c lib_classes = Some cd -> sound_class cd = true.
Proof. apply all_classes_ok. vm_compute. reflexivity. Qed.
Section Lib.
  Variable E : env.
  Hypothesis HE : classes E = lib_classes.
  Lemma sound c cd : find_class E c = Some cd -> sound_class cd = true.
  Proof. unfold find_class. rewrite HE. apply library_sound. Qed.
  Lemma lib_fine : forall c cd, find_class E c = Some cd -> forallb (fine_dstmt (c_fields cd)) (c_dec cd) = true.
  Proof. intros c cd H. apply sound in H. unfold sound_class in H. rewrite !andb_true_iff in H. tauto. Qed.
  Lemma lib_fine_enc : forall c cd, find_class E c = Some cd -> fine_enc (c_fields cd) [] (c_enc cd) = true.
  Proof. intros c cd H. apply sound in H. unfold sound_class in H. rewrite !andb_true_iff in H. tauto. Qed.
  Lemma has_lib c : has E c = has lib_env c.
  Proof. unfold has, find_class. rewrite HE. reflexivity. Qed.
  Lemma keyed_lib ss : forall K T, keyed E K T ss = keyed lib_env K T ss.
  Proof. induction ss as [|s ss IH]; intros K T; [reflexivity|]. destruct s; cbn [keyed]; rewrite ?IH; auto; [destruct y; auto; rewrite has_lib; reflexivity|rewrite has_lib; reflexivity]. Qed.
  Lemma lib_keyed : forall c cd, find_class E c = Some cd -> keyed E [] None (c_dec cd) = true.
  Proof. intros c cd H. apply sound in H. unfold sound_class in H. rewrite !andb_true_iff in H. rewrite keyed_lib. tauto. Qed.
  Lemma plain_lib n : forall c, plain E n c = plain lib_env n c.
  Proof.
    induction n as [|n IH]; intros c; [reflexivity|]. cbn [plain]. unfold find_class. rewrite HE. change (classes lib_env) with lib_classes. destruct (assoc c lib_classes) as [cd|]; [|reflexivity].
    induction (c_fields cd) as [|[f t] F IHF]; [reflexivity|]. cbn [forallb snd]. rewrite IHF. f_equal. destruct t as [| | | | | | |[]| |]; cbn [plain_type]; auto.
  Qed.
  Lemma plain_type_lib n t : plain_type (plain E n) t = plain_type (plain lib_env n) t.
  Proof. destruct t as [| | | | | | |[]| |]; cbn [plain_type]; auto using plain_lib. Qed.
  Lemma renews_lib n F ss : renews E n F ss = renews lib_env n F ss.
  Proof.
    assert (P : forall F, forallb (fun ft : string * ftype => plain_type (plain E n) (snd ft)) F = forallb (fun ft : string * ftype => plain_type (plain lib_env n) (snd ft)) F)
      by (induction F0 as [|ft F0 IH]; cbn; [reflexivity|rewrite IH, plain_type_lib; reflexivity]).
    assert (Q : forall f F, forallb (fun ft : string * ftype => String.eqb f (fst ft) || plain_type (plain E n) (snd ft)) F = forallb (fun ft : string * ftype => String.eqb f (fst ft) || plain_type (plain lib_env n) (snd ft)) F)
      by (intros f; induction F0 as [|ft F0 IH]; cbn; [reflexivity|rewrite IH, plain_type_lib; reflexivity]).
    induction ss as [|s ss IH]; cbn [renews]; [apply P|]. destruct s; auto. destruct ss as [|[] ss]; auto. rewrite Q. reflexivity.
  Qed.
  Lemma lib_renews : forall c cd, find_class E c = Some cd -> renews E 3 (c_fields cd) (c_dec cd) = true.
  Proof. intros c cd H. apply sound in H. unfold sound_class in H. rewrite !andb_true_iff in H. rewrite renews_lib. tauto. Qed.
  Lemma lib_has : library_suppliers E -> forall o t c, factory E o t = Some c -> has E c = true.
  Proof. intros S o t c H. specialize (S o t c H). unfold has. unfold object_of, new_obj in S. destruct (find_class E c); [reflexivity|discriminate S]. Qed.
End Lib.

(* ---- C62: what decode changes in any object graph ---- *)
Theorem C62_decode_frame : forall E d h v b, let h1 := snd (fst (hdecode E d h v b)) in
  (forall l k, nth_error h l = Some k -> exists k', nth_error h1 l = Some k' /\ preserved k k' /\ (~ reach h v l -> k' = k))
  /\ (forall l, reach h1 v l -> reach h v l \/ (List.length h <= l)%nat).
Proof.
  intros E d h v b h1. pose proof (decode_moves E d h v b) as M. fold h1 in M. split.
  - intros l k Hk. destruct (mv_keeps _ _ _ M l k Hk) as (k' & Hk' & P). exists k'. split; auto. split; auto. intros N.
    pose proof (mv_off _ _ _ M l) as O. rewrite O in Hk'; [congruence|]. intros [R|L]; [contradiction|]. apply nth_lt in Hk. lia.
  - intros l R. apply (closed_reach _ h1 v l (mv_closed _ _ _ M)); [|exact R]. intros j ->. left. constructor.
Qed.
(* an object that has nothing in common with the one decoded into is not affected *)
Theorem C62_decode_spares_others : forall E d h v w t b, shows h w t -> (forall l, reach h w l -> ~ reach h v l) ->
  shows (snd (fst (hdecode E d h v b))) w t.
Proof.
  intros E d h v w t b S A. apply (proj1 (shows_apart h _) w t S). intros l R. specialize (A l R). pose proof (decode_moves E d h v b) as M. apply (mv_off _ _ _ M).
  intros [K|K]; [contradiction|]. assert (B : forall v t, shows h v t -> forall l, reach h v l -> (l < List.length h)%nat).
  { clear. intros v t S l R. revert t S. induction R as [l|l c fs f v m Hl I R IH|l vs v m Hl I R IH]; intros t S.
    - inversion S; subst; eapply nth_lt; eauto.
    - inversion S as [| | | |? ? ? Hl0|? ? fs0 gs Hl0 En SA]; subst; [congruence|]. rewrite Hl in Hl0. injection Hl0 as <- <-.
      assert (X : exists x, shows h v x). { clear - I SA. remember (map snd fs) as vs eqn:EV. revert fs I EV. induction SA; intros [|g fs] I EV; cbn in *; try discriminate; try contradiction. injection EV as -> ->. destruct I as [->|I]; eauto. }
      destruct X as (x & X). eauto.
    - inversion S as [| | | |? vs0 ts Hl0 SA|? ? ? ? Hl0]; subst; [|congruence]. rewrite Hl in Hl0. injection Hl0 as <-.
      assert (X : exists x, shows h v x). { clear - I SA. induction SA; [contradiction|]. destruct I as [->|I]; eauto. }
      destruct X as (x & X). eauto. }
  specialize (B w t S l R). lia.
Qed.

(* ---- C63: types, and what the state of the object before decode can change ---- *)
Theorem C63_decode_keeps_types : forall E d h v b, classes E = lib_classes -> heap_ok lib_classes h -> buf_wf b = true ->
  heap_ok lib_classes (snd (fst (hdecode E d h v b))).
Proof.
  intros E d h v b HE OK Hb. rewrite <- HE in *. apply buf_wf_iff, bk_wf in Hb. exact (proj1 (typing_decode E (lib_flat E HE) (lib_nodup E HE) (lib_fine E HE) d h v b OK Hb)).
Qed.
Lemma any_object E h v c : classes E = lib_classes -> heap_ok lib_classes h -> fits h v (TObj c) -> v <> HNull -> exists l fs, v = HRef l /\ nth_error h l = Some (CObj c fs) /\ has E c = true.
Proof.
  intros HE OK F N. destruct v as [| | | |l]; cbn in F; try contradiction. destruct F as (fs & Hl). exists l, fs. split; auto. split; auto.
  destruct (OK l c fs Hl) as (cd & A & _). unfold has, find_class. rewrite HE, A. reflexivity.
Qed.
(* whatever the object, shared, cyclic, filled or new: the same exception, and the same bytes consumed, as for a new object *)
Theorem C63_decode_ignores_the_old_object : forall E d h v c b, classes E = lib_classes -> library_suppliers E -> heap_ok lib_classes h -> fits h v (TObj c) -> v <> HNull -> buf_wf b = true ->
  fst (fst (hdecode E d h v b)) = fst (fst (decode E d (new_obj E c) b)) /\ snd (hdecode E d h v b) = snd (decode E d (new_obj E c) b).
Proof.
  intros E d h v c b HE HF OK F N Hb. destruct (any_object E h v c HE OK F N) as (l & fs & -> & Hl & Hc). apply buf_wf_iff, bk_wf in Hb.
  assert (OK' : heap_ok (classes E) h) by (rewrite HE; exact OK).
  destruct (new_known E [] c Hc) as (gs & Hn). pose proof (C58_decode_fresh E d [] c b) as D. rewrite Hn in D. cbn [app List.length] in D.
  assert (OKN : heap_ok (classes E) [CObj c gs]). { destruct (new_ok E [] c) as (K & _); [intros j c0 fs0 H; destruct j; discriminate|]. rewrite Hn in K. exact K. }
  destruct (same_decode E (lib_flat E HE) (lib_nodup E HE) (lib_fine E HE) (lib_keyed E HE) (lib_has E HF) d h l fs [CObj c gs] O gs c b OK' OKN Hl eq_refl Hb) as [Q1 Q2].
  destruct (hdecode E d [CObj c gs] (HRef O) b) as [[e2 h2] b2]. destruct (decode E d (new_obj E c) b) as [[e3 t3] b3]. cbn [fst snd] in *. destruct D as (-> & -> & _). auto.
Qed.
Lemma new_typed E c : classes E = lib_classes -> has E c = true -> object_of E c (new_obj E c) = true.
Proof.
  intros HE Hc. pose proof (own_new E [] c) as W. destruct (new_known E [] c Hc) as (gs & Hn). destruct (new_ok E [] c) as (K & _ & F); [intros j c0 fs0 H; destruct j; discriminate|].
  rewrite Hn in *. destruct W as (B & W & _). cbn [fst snd app List.length] in *. rewrite HE in K. apply (fits_object E _ (HRef 0) _ c HE K F); [discriminate|]. exact (proj1 (owns_shows _) _ _ _ W).
Qed.
Theorem C63_decode_exceptions : forall E d h v c b, classes E = lib_classes -> library_suppliers E -> heap_ok lib_classes h -> fits h v (TObj c) -> v <> HNull -> buf_wf b = true ->
  (exists n, reads b n (snd (hdecode E d h v b)))
  /\ (fst (fst (hdecode E d h v b)) = None \/ fst (fst (hdecode E d h v b)) = Some IOOBE \/ fst (fst (hdecode E d h v b)) = Some IAE \/ fst (fst (hdecode E d h v b)) = Some SOE).
Proof.
  intros E d h v c b HE HF OK F N Hb. destruct (C63_decode_ignores_the_old_object E d h v c b HE HF OK F N Hb) as [-> ->].
  destruct (any_object E h v c HE OK F N) as (l & fs & -> & Hl & Hc).
  destruct (C31_decode_is_total E d c (new_obj E c) b HE HF (new_typed E c HE Hc) Hb) as (e & t & n & b' & -> & _ & R & X). split; [exists n; exact R|exact X].
Qed.
(* with the message factories as the library sets them up, four frames are enough even for an object that contains itself; C60 says what encode does on it *)
Theorem C63_four_frames_decode_any_object : forall E d h v c b, classes E = lib_classes -> (forall o t, factory E o t = factory lib_env o t) -> heap_ok lib_classes h -> fits h v (TObj c) -> v <> HNull ->
  buf_wf b = true -> (4 <= d)%nat -> fst (fst (hdecode E d h v b)) <> Some SOE.
Proof.
  intros E d h v c b HE HF OK F N Hb Hd. destruct (C63_decode_ignores_the_old_object E d h v c b HE (initial_suppliers E HE HF) OK F N Hb) as [-> _].
  destruct (any_object E h v c HE OK F N) as (l & fs & -> & Hl & Hc). destruct (decode E d (new_obj E c) b) as [[e t] b'] eqn:D. cbn [fst].
  exact (C31_nesting_at_most_4 E d c (new_obj E c) b e t b' HE HF (new_typed E c HE Hc) Hb Hd D).
Qed.
Theorem C63_encode_keeps_types : forall E d h v b, classes E = lib_classes -> heap_ok lib_classes h -> fits h v TCodec ->
  let '(e, h1, _) := hencode E d h v b in heap_ok lib_classes h1 /\ (e = None \/ e = Some NPE \/ e = Some IOOBE \/ e = Some SOE).
Proof.
  intros E d h v b HE OK F. rewrite <- HE in *. pose proof (good_encode E (lib_fine_enc E HE) d h v b OK F) as G. destruct (hencode E d h v b) as [[e h1] b1]. destruct G as (A & B & _). auto.
Qed.

(* ---- C64: a successful decode leaves a tree ---- *)
Theorem C64_decode_untangles : forall E d h v c b h1 b1, classes E = lib_classes -> heap_ok lib_classes h -> fits h v (TObj c) -> buf_wf b = true ->
  hdecode E d h v b = (None, h1, b1) -> exists t, shows h1 v t.
Proof.
  intros E d h v c b h1 b1 HE OK F Hb D. pose proof (C63_decode_keeps_types E d h v b HE OK Hb) as K. rewrite D in K. cbn [fst snd] in K. rename K into OK1.
  destruct v as [| | | |l]; cbn in F; try contradiction; [destruct d; discriminate|]. destruct F as (fs & Hl). rewrite <- HE in OK, OK1.
  exact (untangled E (lib_nodup E HE) (lib_fine E HE) (lib_renews E HE) d h l c fs b h1 b1 OK OK1 Hl D).
Qed.
(* so it no longer contains itself *)
Theorem C64_no_cycle_is_left : forall E d h l c b h1 b1, classes E = lib_classes -> heap_ok lib_classes h -> fits h (HRef l) (TObj c) -> buf_wf b = true ->
  hdecode E d h (HRef l) b = (None, h1, b1) -> ~ cyclic h1 l.
Proof. intros E d h l c b h1 b1 HE OK F Hb D Cy. destruct (C64_decode_untangles E d h (HRef l) c b h1 b1 HE OK F Hb D) as (t & S). exact (shows_not_cyclic h1 l t S Cy). Qed.
(* after a failed decode it may *)
Theorem C64_failed_decode_untangles_refuted : exists h l b h1 e b1, heap_ok lib_classes h /\ fits h (HRef l) (TObj "sample.RootPacket") /\ buf_wf b = true
  /\ hdecode lib_env 4 h (HRef l) b = (Some e, h1, b1) /\ cyclic h1 l.
Proof.
  exists h_cycle, 0%nat, (wrap_bytes [1]), h_cycle, IOOBE. eexists. split; [apply cells_ok; vm_compute; reflexivity|]. split; [apply fitsb_fits; vm_compute; reflexivity|]. split; [reflexivity|].
  split; [vm_compute; reflexivity|]. apply C60_meets.
Qed.

(* ---- examples ---- *)
(* the payload of a cyclic RootPacket arrives: the cycle is gone *)
Definition incoming_root : bytebuf := snd (encode lib_env 3 (build "sample.RootPacket" [("msgType", VInt 3); ("payload", build "sample.NestedPacket" [("subPacket", s_sub 9); ("inerPacket", build "sample.NestedPacket.InerPacket" [])])]%string) empty_buf).
(* the InerPacket of h_two and the list at 6, which have nothing in common *)
Example C62_meets : let h1 := snd (fst (hdecode lib_env 3 h_two (HRef 3) incoming)) in
  shows h_two (HRef 6) (seen 9 h_two (HRef 6)) /\ (forall l, reach h_two (HRef 6) l -> ~ reach h_two (HRef 3) l)
  /\ nth_error h1 3 <> nth_error h_two 3.
Proof.
  split; [apply (view_shows _ 9); vm_compute; reflexivity|]. split; [|vm_compute; discriminate].
  assert (A3 : forall l, reach h_two (HRef 3) l -> l = 3%nat).
  { intros l0. apply (closed_reach (fun l => l = 3%nat)); [|intros l [= <-]; reflexivity]. intros l k m -> Hk Hp. vm_compute in Hk. injection Hk as <-. cbn in Hp. destruct Hp as (f & I). repeat (destruct I as [I|I]; [discriminate I|]). contradiction. }
  assert (A6 : forall l, reach h_two (HRef 6) l -> l = 6%nat \/ l = 0%nat).
  { intros l0. apply (closed_reach (fun l => l = 6%nat \/ l = 0%nat)); [|intros l [= <-]; auto]. intros l k m [->| ->] Hk Hp; vm_compute in Hk; injection Hk as <-; cbn in Hp.
    - destruct Hp as [[= <-]|[]]; auto.
    - destruct Hp as (f & I). repeat (destruct I as [I|I]; [discriminate I|]). contradiction. }
  intros l R6 R3. apply A3 in R3. apply A6 in R6. destruct R6; subst; discriminate.
Qed.
(* incoming bytes are those of another object: decode into the object on the cycle succeeds, and encode of it did not *)
Example C63_meets : heap_ok lib_classes h_cycle /\ fits h_cycle (HRef 0) (TObj "sample.RootPacket") /\ buf_wf incoming_root = true
  /\ fst (fst (hdecode lib_env 4 h_cycle (HRef 0) incoming_root)) = None /\ (0 < ridx (snd (hdecode lib_env 4 h_cycle (HRef 0) incoming_root)))%nat
  /\ fst (fst (hencode lib_env 4 h_cycle (HRef 0) empty_buf)) = Some SOE /\ library_suppliers lib_env.
Proof.
  split; [apply cells_ok; vm_compute; reflexivity|]. split; [apply fitsb_fits; vm_compute; reflexivity|]. split; [vm_compute; reflexivity|]. split; [vm_compute; reflexivity|].
  split; [vm_compute; lia|]. split; [vm_compute; reflexivity|]. apply initial_suppliers; reflexivity.
Qed.
Example C64_meets : cyclic h_cycle 0 /\ exists h1 b1, hdecode lib_env 4 h_cycle (HRef 0) incoming_root = (None, h1, b1)
  /\ seen 9 h1 (HRef 0) = build "sample.RootPacket" [("msgType", VInt 3); ("payloadLen", VInt 18); ("payload", build "sample.NestedPacket" [("subPacket", s_sub 9); ("inerPacket", build "sample.NestedPacket.InerPacket" [])]); ("checksum", VInt 1354030407)]%string.
Proof. split; [apply C60_meets|]. eexists _, _. split; vm_compute; reflexivity. Qed.

Print Assumptions C62_decode_frame.
Print Assumptions C62_decode_spares_others.
Print Assumptions C63_decode_keeps_types.
Print Assumptions C63_decode_ignores_the_old_object.
Print Assumptions C63_decode_exceptions.
Print Assumptions C63_four_frames_decode_any_object.
Print Assumptions C63_encode_keeps_types.
Print Assumptions C64_decode_untangles.
Print Assumptions C64_no_cycle_is_left.
Print Assumptions C64_failed_decode_untangles_refuted.
