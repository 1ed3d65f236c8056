(* What holds of every run of decode on arbitrary bytes: types, bounds, exceptions, sizes. *)
From Coq Require Import ZArith List Bool String Lia.
From Verif.Model Require Import JavaPrim ByteBuf Utf8 Codec Ast Interp.
From Verif.Spec Require Import Bytes Buffers Wire Reading Sizes.
From Verif.Proofs Require Import BytesFacts BufFacts Utf8Facts Utf8More CodecFacts Conform TableFacts EncodeFacts DecodeFacts DecodeRel.
Import ListNotations.
Open Scope Z_scope.

(* a buffer whose reader index may have run into the spare capacity *)
Record bk (b : bytebuf) : Prop := { bk_bytes : bytes_ok (arr b); bk_widx : (widx b <= cs_limit b)%nat; bk_limit : (cs_limit b <= List.length (arr b))%nat }.
Lemma bk_wf b : wf b -> bk b.
Proof. intros H. pose proof (cs_limit_bound b H). destruct H. constructor; auto. unfold cs_limit. destruct (cs_slack b); lia. Qed.
Lemma bk_adv b n : bk b -> bk (adv b n).
Proof. intros []. constructor; auto. Qed.
Global Hint Resolve bk_adv : core.
Lemma slice_ok b n : bk b -> (ridx b + n <= List.length (arr b))%nat -> List.length (slice (arr b) (ridx b) n) = n /\ bytes_ok (slice (arr b) (ridx b) n).
Proof.
  intros H Hn. unfold slice. split.
  - rewrite firstn_length, skipn_length. lia.
  - apply Forall_firstn, Forall_skipn. apply bk_bytes; auto.
Qed.
Lemma took_inv b n bs : bk b -> took b n bs -> List.length bs = n /\ bytes_ok bs /\ (ridx b + n <= widx b)%nat.
Proof.
  intros H T. unfold took, read_bytes in T. destruct (Nat.leb_spec (ridx b + n) (widx b)) as [Hl|Hl]; [|discriminate T]. injection T as <-.
  destruct (slice_ok b n H) as [L B]; [destruct H; lia|]. auto.
Qed.
Lemma took_chars_inv b n bs : bk b -> took_chars b n bs -> List.length bs = n /\ bytes_ok bs /\ (n = O \/ (ridx b + n <= cs_limit b)%nat).
Proof.
  intros H T. unfold took_chars, read_chars in T. destruct (Z.eqb_spec (Z.of_nat n) 0) as [E0|E0].
  - injection T as <- _. split; [simpl; lia|]. split; [constructor|]. left. lia.
  - destruct ((Z.of_nat n <? 0) || (Z.of_nat (cs_limit b) <? Z.of_nat (ridx b) + Z.of_nat n)) eqn:Eb; [discriminate T|].
    injection T as <-. rewrite Nat2Z.id. apply orb_false_iff in Eb as [_ Eb]. apply Z.ltb_ge in Eb.
    destruct (slice_ok b n H) as [L B]; [destruct H; lia|]. split; [exact L|]. split; [exact B|]. right. lia.
Qed.
Ltac tk := repeat match goal with
  | H : bk ?b, T : took ?b _ _ |- _ => apply (took_inv _ _ _ H) in T as (? & ? & ?)
  | H : bk ?b, T : took_chars ?b _ _ |- _ => apply (took_chars_inv _ _ _ H) in T as (? & ? & ?)
  | H : bk ?b, T : took_chars (adv ?b ?n) _ _ |- _ => apply (took_chars_inv _ _ _ (bk_adv b n H)) in T as (? & ? & ?)
  end.

(* ---- the reader index stays within bounds ---- *)
Definition within (b : bytebuf) (n : nat) : Prop := n = O \/ (ridx b + n <= cs_limit b)%nat.
Lemma within_add b n m : within b n -> within (adv b n) m -> within b (n + m).
Proof. unfold within, adv, cs_limit. cbn. intros [->|H1] [->|H2]; auto; right; lia. Qed.
Lemma rleaf_within b w e x n : bk b -> rleaf b w e x n -> within b n.
Proof.
  intros H R. pose proof (bk_widx b H). destruct R; tk; unfold within in *; auto; try (right; lia).
  unfold adv, cs_limit in *; cbn in *. right. lia.
Qed.
Lemma rel_within Y F :
  (forall d w k b e xs n, relems Y F d w k b e xs n -> bk b -> within b n) /\
  (forall d o dn w old b e x n, rfield Y F d o dn w old b e x n -> bk b -> within b n) /\
  (forall d o dn L os b e fs n, rfields Y F d o dn L os b e fs n -> bk b -> within b n) /\
  (forall d c os b e fs n, robj Y F d c os b e fs n -> bk b -> within b n).
Proof.
  apply rel_min; intros; try (left; reflexivity); eauto using rleaf_within, within_add.
  - tk. pose proof (bk_widx _ H1). right. lia.
  - pose proof (bk_widx _ H4). assert (within b n) by (tk; right; lia). apply within_add; auto.
Qed.

(* ---- exceptions ---- *)
Definition decode_exn (e : option exn) : Prop := e = None \/ e = Some IOOBE \/ e = Some IAE \/ e = Some SOE.
Lemma rleaf_exn b w e x n : rleaf b w e x n -> e = None \/ e = Some IOOBE.
Proof. intros []; auto. Qed.
Lemma rel_exn Y F :
  (forall d w k b e xs n, relems Y F d w k b e xs n -> decode_exn e) /\
  (forall d o dn w old b e x n, rfield Y F d o dn w old b e x n -> decode_exn e) /\
  (forall d o dn L os b e fs n, rfields Y F d o dn L os b e fs n -> decode_exn e) /\
  (forall d c os b e fs n, robj Y F d c os b e fs n -> decode_exn e).
Proof.
  assert (A : forall e, e = None \/ e = Some IOOBE -> decode_exn e) by (unfold decode_exn; tauto).
  apply rel_min; intros; eauto using rleaf_exn; unfold decode_exn; auto.
Qed.

(* ---- types ---- *)
Section Typed.
  Variable C : list (string * class_def).
  Variable Y : layouts.
  Hypothesis HC : conforms C Y.
  Variable F : string -> key -> option string.

  Lemma typed_intro' c c' fs L : find c Y = Some L -> fields_ok C fs L = true ->
    typed C (VObj c fs) (TObj c) = true /\ typed C (VObj c fs) (wire_type (WBody c')) = true.
  Proof.
    intros HL Hf. pose proof (conforms_find C Y c HC) as Fd. rewrite HL in Fd. destruct Fd as (cd & E1 & _ & E2 & _).
    cbn [typed wire_type]. rewrite E1, E2, String.eqb_refl. unfold types_of. rewrite forall2b_map_r. split; exact Hf.
  Qed.
  Definition ok_leaf (w : wire) : bool :=
    match w with WLen n _ | WSum n _ _ => Nat.eqb n 4 | WObj _ | WBody _ | WList _ _ _ => true | _ => ok_elem Y w end.
  Lemma typed_get_int n (o : endian) bs w : ok_width n = true -> List.length bs = n -> bytes_ok bs ->
    wire_type w = wire_type (WInt n o) -> typed C (VInt (get_int o bs)) (wire_type w) = true.
  Proof.
    intros Hn L B ->. assert (Hp : bs <> []) by (apply ok_width_pos in Hn; destruct bs; [simpl in L; lia|discriminate]).
    pose proof (get_int_range o bs Hp) as G. rewrite L in G.
    destruct n as [|[|[|[|[|[|[|[|[|n]]]]]]]]]; try discriminate Hn; exact G.
  Qed.
  Lemma rleaf_typed b w e x n : bk b -> ok_leaf w = true -> rleaf b w e x n -> forall v, x = Some v -> typed C v (wire_type w) = true.
  Proof.
    intros H Hok R. destruct R; intros v Hv; try discriminate Hv; injection Hv as <-; tk; cbn [ok_leaf ok_elem] in Hok.
    - apply (typed_get_int n o); auto.
    - apply Nat.eqb_eq in Hok. subst n. apply (typed_get_int 4 o); auto.
    - apply Nat.eqb_eq in Hok. subst n. apply (typed_get_int 4 o); auto.
    - pose proof (get_bits_range o bs H1) as G. rewrite H0 in G.
      destruct n as [|[|[|[|[|[|[|[|[|n]]]]]]]]]; try discriminate Hok; cbn; cbn in G; lia.
    - cbn. apply strip_units. apply decode_units. auto.
    - cbn. apply decode_units. auto.
  Qed.

  Definition elem_fine (w : wire) (x : val) : bool := typed C x (wire_type w).
  Lemma rel_typed :
    (forall d w k b e xs n, relems Y F d w k b e xs n -> bk b -> ok_elem Y w = true -> forallb (elem_fine w) xs = true) /\
    (forall d o dn w old b e x n, rfield Y F d o dn w old b e x n -> bk b -> ok_field Y w = true -> typed C old (wire_type w) = true -> typed C x (wire_type w) = true) /\
    (forall d o dn L os b e fs n, rfields Y F d o dn L os b e fs n -> bk b -> forall seen, ok_fields Y seen L = true -> fields_ok C os L = true -> fields_ok C fs L = true) /\
    (forall d c os b e fs n, robj Y F d c os b e fs n -> bk b -> forall L, find c Y = Some L -> fields_ok C os L = true -> fields_ok C fs L = true).
  Proof.
    apply rel_min; intros; auto.
    - (* leaf element *)
      rewrite forallb_app. rewrite H1 by auto. rewrite andb_true_r. destruct x as [v|]; auto. cbn. rewrite andb_true_r.
      eapply rleaf_typed; eauto. destruct w; auto; discriminate H3.
    - (* object element *)
      cbn [forallb]. rewrite H3 by auto. rewrite andb_true_r. unfold elem_fine. cbn [wire_type].
      apply (typed_intro' c c fs L); auto. apply H1; auto. apply (fields_ok_blank C).
    - (* leaf *)
      destruct x as [v|]; auto. cbn [assigned]. eapply rleaf_typed; eauto. destruct w; auto.
    - (* object *)
      cbn [wire_type]. apply (typed_intro' c c fs L); auto. apply H2; auto.
      destruct H0 as [->|[os ->]]; [apply (fields_ok_blank C)|]. cbn [olds]. eapply typed_obj; eauto.
    - (* body *)
      apply (typed_intro' c k fs L); auto. apply H3; auto. apply (fields_ok_blank C).
    - (* list *)
      cbn [ok_field] in H5. apply andb_true_iff in H5 as [_ H5]. specialize (H3 (bk_adv _ _ H4) H5).
      change (wire_type (WList n o w)) with (TList (wire_type w)). cbn [typed].
      apply forallb_forall. intros y Hy. rewrite forallb_forall in H3. specialize (H3 y Hy). unfold elem_fine in H3. rewrite H3. apply orb_true_r.
    - (* field then fields *)
      apply ok_field_of in H4 as (_ & Hw & Hok & _). apply fields_ok_cons in H5 as (_ & Ho & Hos).
      unfold fields_ok in *. cbn [forall2b fst snd]. rewrite String.eqb_refl, (H0 H3 Hw Ho). cbn [andb].
      eapply H2; eauto.
    - (* stopped *)
      apply ok_field_of in H2 as (_ & Hw & Hok & _). apply fields_ok_cons in H3 as (_ & Ho & Hos).
      unfold fields_ok in *. cbn [forall2b fst snd]. rewrite String.eqb_refl, (H0 H1 Hw Ho). exact Hos.
    - rewrite H in H3. injection H3 as <-. eapply H1; eauto. eapply conforms_ok; eauto.
  Qed.
End Typed.

(* ---- depth of nested decode calls ---- *)
(* classes of the sub-objects and list elements *)
Definition parts (L : layout) : list string :=
  flat_map (fun fw => match snd fw with WObj c => [c] | WList _ _ (WObj c) => [c] | _ => [] end) L.
Definition has_body (L : layout) : bool := existsb (fun fw => match snd fw with WBody _ => true | _ => false end) L.
Definition part (w : wire) : list string := match w with WObj c => [c] | WList _ _ (WObj c) => [c] | _ => [] end.
Definition is_body (w : wire) : bool := match w with WBody _ => true | _ => false end.

Section Depth.
  Variable Y : layouts.
  Variable F : string -> key -> option string.
  Variable M : string -> nat.
  Hypothesis M_pos : forall c, (1 <= M c)%nat.
  Hypothesis M_parts : forall c L c', find c Y = Some L -> In c' (parts L) -> (M c' < M c)%nat.
  Hypothesis M_body : forall c L t c', find c Y = Some L -> has_body L = true -> F c t = Some c' -> (M c' < M c)%nat.

  Lemma rel_depth :
    (forall d w k b e xs n, relems Y F d w k b e xs n -> (forall c, w = WObj c -> M c <= d)%nat -> e <> Some SOE) /\
    (forall d o dn w old b e x n, rfield Y F d o dn w old b e x n -> (forall c, In c (part w) -> M c <= d)%nat ->
       (is_body w = true -> forall t c, F o t = Some c -> M c <= d)%nat -> e <> Some SOE) /\
    (forall d o dn L os b e fs n, rfields Y F d o dn L os b e fs n -> (forall c, In c (parts L) -> M c <= d)%nat ->
       (has_body L = true -> forall t c, F o t = Some c -> M c <= d)%nat -> e <> Some SOE) /\
    (forall d c os b e fs n, robj Y F d c os b e fs n -> (M c <= d)%nat -> e <> Some SOE).
  Proof.
    assert (A : forall b w e x n, rleaf b w e x n -> e <> Some SOE) by (intros ? ? ? ? ? []; discriminate).
    apply rel_min; intros; eauto; try discriminate.
    - apply H2. apply H3. left. reflexivity.
    - apply H3. intros c ->. apply H4. left. reflexivity.
    - apply H2; [intros c Hc; apply H3; apply in_or_app; auto|].
      intros Hb. apply H4. cbn. unfold has_body in Hb. rewrite Hb. apply orb_true_r.
    - apply H0; [intros c Hc; apply H1; apply in_or_app; auto|].
      intros Hb. apply H2. cbn. unfold is_body in Hb. rewrite Hb. reflexivity.
    - pose proof (M_pos c). lia.
    - apply H1.
      + intros c' Hc. pose proof (M_parts c L c' H Hc). lia.
      + intros Hb t c' Hc. pose proof (M_body c L t c' H Hb Hc). lia.
  Qed.
End Depth.

(* bytes left for readCharSequence *)
Definition left_in (b : bytebuf) : nat := cs_limit b - ridx b.
Definition tag_format (w : wire) : bool := match w with WInt _ _ | WFix _ _ _ => true | _ => false end.
Section Budget.
  Variable C : list (string * class_def).
  Variable Y : layouts.
  Hypothesis HC : conforms C Y.
  Variable F : string -> key -> option string.
  Variable M : string -> nat.
  Variable R : nat.
  Hypothesis M_pos : forall c, (1 <= M c <= R)%nat.
  Hypothesis M_parts : forall c L c', find c Y = Some L -> In c' (parts L) -> (M c' < M c)%nat.

  Lemma left_adv b n : (left_in (adv b n) <= left_in b)%nat.
  Proof. unfold left_in, adv, cs_limit. cbn. lia. Qed.
  Lemma left_tag d o dn w old b x n : bk b -> tag_format w = true -> ok_field Y w = true -> rfield Y F d o dn w old b None x n -> (left_in (adv b n) < left_in b)%nat.
  Proof.
    intros H Ht Hok Rf. pose proof (bk_widx b H). inversion Rf; subst; try discriminate Ht.
    match goal with X : rleaf _ _ _ _ _ |- _ => inversion X; subst; try discriminate Ht end; tk; unfold left_in, adv, cs_limit in *; cbn in *.
    - apply ok_width_pos in Hok. destruct (cs_slack b); lia.
    - apply ok_fix in Hok. destruct (cs_slack b); lia.
  Qed.

  Lemma rel_budget :
    (forall d w k b e xs n, relems Y F d w k b e xs n -> bk b -> (forall c, w = WObj c -> M c + R * left_in b <= d)%nat -> e <> Some SOE) /\
    (forall d o dn w old b e x n, rfield Y F d o dn w old b e x n -> bk b -> (forall c, In c (part w) -> M c + R * left_in b <= d)%nat ->
       (is_body w = true -> R + R * left_in b <= d)%nat -> e <> Some SOE) /\
    (forall d o dn L os b e fs n, rfields Y F d o dn L os b e fs n -> bk b -> forall seen m, ok_fields Y seen L = true ->
       (forall k w, find k seen = Some w -> tag_format w = true -> left_in b < m)%nat -> (left_in b <= m)%nat ->
       (forall c, In c (parts L) -> M c + R * m <= d)%nat -> (R * m <= d)%nat -> e <> Some SOE) /\
    (forall d c os b e fs n, robj Y F d c os b e fs n -> bk b -> (M c + R * left_in b <= d)%nat -> e <> Some SOE).
  Proof.
    assert (A : forall b w e x n, rleaf b w e x n -> e <> Some SOE) by (intros ? ? ? ? ? []; discriminate).
    apply rel_min; intros; eauto; try discriminate.
    - (* leaf element *) apply H1; auto. intros c ->. specialize (H3 c eq_refl). pose proof (left_adv b n). nia.
    - (* object element *) apply H3; auto. intros c' Hc. specialize (H5 c' Hc). pose proof (left_adv b n). nia.
    - (* object *) apply H2; auto. apply H4. left. reflexivity.
    - (* body *) apply H3; auto. specialize (H6 eq_refl). pose proof (M_pos c). lia.
    - (* list *) apply H3; auto. intros c ->. specialize (H5 c (or_introl eq_refl)). pose proof (left_adv b n). nia.
    - (* field, fields *)
      pose proof (ok_field_of _ _ _ _ _ H4) as (_ & Hw & Hok & _). pose proof (left_adv b n).
      apply H2 with (seen := seen ++ [(f, w)]) (m := m0); auto.
      + intros k w' Hk Ht. rewrite find_app in Hk. destruct (find k seen) as [w''|] eqn:Ek.
        * injection Hk as ->. specialize (H5 k w' Ek Ht). lia.
        * cbn [find] in Hk. destruct (String.eqb k f); [|discriminate Hk]. injection Hk as ->.
          pose proof (left_tag d owner dn w' old b x n H3 Ht Hw H). lia.
      + lia.
      + intros c Hc. apply H7. apply in_or_app. auto.
    - (* stop *)
      pose proof (ok_field_of _ _ _ _ _ H2) as (_ & Hw & Hok & Hkey). apply H0; auto.
      + intros c Hc. specialize (H5 c (in_or_app _ _ _ (or_introl Hc))). nia.
      + intros Hb. destruct w; try discriminate Hb. destruct (find key seen) as [wk|] eqn:Ek; [|contradiction].
        assert (Ht : tag_format wk = true) by (destruct wk; auto; contradiction). specialize (H3 key wk Ek Ht). nia.
    - pose proof (M_pos c). lia.
    - apply H1 with (seen := []) (m := left_in b); auto.
      + eapply conforms_ok; eauto.
      + discriminate.
      + intros c' Hc. pose proof (M_parts c L c' H Hc). lia.
      + pose proof (M_pos c). lia.
  Qed.
End Budget.

(* ---- sizes ---- *)
(* decoding such a field always consumes a byte *)
Definition sized_field (w : wire) : bool := match w with WObj _ | WBody _ => false | _ => true end.
Definition sized (L : layout) : bool := existsb (fun fw => sized_field (snd fw)) L.
Definition sized_elem (Y : layouts) (w : wire) : bool :=
  match w with WObj c => match find c Y with Some L => sized L | None => false end | _ => true end.
Definition sized_lists (Y : layouts) : bool :=
  forallb (fun cL => forallb (fun fw : string * wire => match snd fw with WList _ _ w => sized_elem Y w | _ => true end) (snd cL)) Y.
Definition sized_list (Y : layouts) (w : wire) : bool := match w with WList _ _ w => sized_elem Y w | _ => true end.
Lemma sized_find Y c L : sized_lists Y = true -> find c Y = Some L -> forallb (fun fw => sized_list Y (snd fw)) L = true.
Proof.
  unfold sized_lists. intros H. assert (A : forall Z0, forallb (fun cL => forallb (fun fw : string * wire => match snd fw with WList _ _ w => sized_elem Y w | _ => true end) (snd cL)) Z0 = true ->
    find c Z0 = Some L -> forallb (fun fw => sized_list Y (snd fw)) L = true).
  { induction Z0 as [|[c1 L1] Z0 IH]; cbn [forallb find]; [discriminate|]. intros H1 H2. apply andb_true_iff in H1 as [H1 H3].
    destruct (String.eqb c c1); [injection H2 as <-; exact H1|auto]. }
  apply A. exact H.
Qed.

Lemma sum_blank f L : (forall w, f (blank_val w) = O) -> sum_of (fun fv : string * val => f (snd fv)) (blank L) = O.
Proof. intros H. induction L as [|[g w] L IH]; auto. cbn [blank map sum_of fst snd]. rewrite H. exact IH. Qed.
Lemma sum_app {A} (f : A -> nat) l m : sum_of f (l ++ m) = (sum_of f l + sum_of f m)%nat.
Proof. induction l; simpl; auto. lia. Qed.
Lemma elems_blank w : elems (blank_val w) = O. Proof. destruct w; reflexivity. Qed.
Lemma chars_blank w : chars (blank_val w) = O. Proof. destruct w; reflexivity. Qed.
Lemma olds_sum f old c L : (old = VNull \/ exists os, old = VObj c os) -> (forall w, f (blank_val w) = O) -> (f VNull = O) ->
  (forall os, f (VObj c os) = sum_of (fun fv => f (snd fv)) os) -> sum_of (fun fv => f (snd fv)) (olds old L) = f old.
Proof. intros [->|[os ->]] H1 H2 H3; cbn [olds]; [rewrite H2; apply sum_blank; auto|rewrite H3; reflexivity]. Qed.

Lemma rleaf_consumes b w x n : bk b -> ok_leaf [] w = true -> sized_field w = true -> rleaf b w None x n -> (1 <= n)%nat.
Proof.
  intros H Hok Hs R. inversion R; subst; try discriminate Hs; cbn [ok_leaf ok_elem] in Hok.
  - apply ok_width_pos in Hok. lia.
  - apply Nat.eqb_eq in Hok. lia.
  - apply Nat.eqb_eq in Hok. lia.
  - apply ok_flt_pos in Hok. lia.
  - apply ok_fix in Hok. lia.
  - lia.
  - apply ok_count_pos in Hok. lia.
Qed.
Lemma ok_leaf_any Y Y' w : ok_leaf Y w = ok_leaf Y' w. Proof. destruct w; reflexivity. Qed.
Lemma rleaf_elems b w e x n : rleaf b w e x n -> forall v, x = Some v -> elems v = O.
Proof. intros [] v Hv; try discriminate Hv; injection Hv as <-; reflexivity. Qed.
Lemma rleaf_chars b w e x n : bk b -> rleaf b w e x n -> forall v, x = Some v -> (chars v <= n)%nat.
Proof.
  intros H [] v Hv; try discriminate Hv; injection Hv as <-; cbn [chars]; try lia; tk.
  - pose proof (strip_length pad lft (utf8_decode bs)). pose proof (decode_length bs). lia.
  - pose proof (decode_length cs). lia.
Qed.
Lemma ok_elem_leaf Y w : ok_elem Y w = true -> ok_leaf [] w = true.
Proof. destruct w; auto; discriminate. Qed.
Lemma ok_field_leaf Y w : ok_field Y w = true -> ok_leaf [] w = true.
Proof. destruct w; auto. Qed.

Section Sizes.
  Variable C : list (string * class_def).
  Variable Y : layouts.
  Hypothesis HC : conforms C Y.
  Hypothesis HS : sized_lists Y = true.
  Variable F : string -> key -> option string.
  Definition plus1 (e : option exn) (s : bool) : nat := match e with None => if s then 1%nat else O | Some _ => O end.

  Lemma leaf_no_obj b w x n : rleaf b w None x n -> sized_field w = true.
  Proof. intros R. inversion R; reflexivity. Qed.
  Lemma rel_elems :
    (forall d w k b e xs n, relems Y F d w k b e xs n -> bk b -> ok_elem Y w = true -> sized_elem Y w = true -> (List.length xs + sum_of elems xs <= n)%nat) /\
    (forall d o dn w old b e x n, rfield Y F d o dn w old b e x n -> bk b -> ok_field Y w = true -> sized_list Y w = true ->
       (elems x + plus1 e (sized_field w) <= elems old + n)%nat) /\
    (forall d o dn L os b e fs n, rfields Y F d o dn L os b e fs n -> bk b -> forall seen, ok_fields Y seen L = true -> forallb (fun fw => sized_list Y (snd fw)) L = true ->
       (sum_of (fun fv => elems (snd fv)) fs + plus1 e (sized L) <= sum_of (fun fv => elems (snd fv)) os + n)%nat) /\
    (forall d c os b e fs n, robj Y F d c os b e fs n -> bk b -> forall L, find c Y = Some L ->
       (sum_of (fun fv => elems (snd fv)) fs + plus1 e (sized L) <= sum_of (fun fv => elems (snd fv)) os + n)%nat).
  Proof.
    apply rel_min; intros; cbn [plus1].
    - simpl. lia.
    - specialize (H1 (bk_adv _ _ H2) H3 H4). pose proof (rleaf_consumes b w x n H2 (ok_elem_leaf Y w H3) (leaf_no_obj _ _ _ _ H) H).
      pose proof (rleaf_elems _ _ _ _ _ H). rewrite app_length, sum_app. destruct x as [v|]; cbn [listed List.length sum_of]; [rewrite (H6 v eq_refl)|]; lia.
    - simpl. lia.
    - specialize (H3 (bk_adv _ _ H4) H5 H6). specialize (H1 H4 L H). cbn [sized_elem] in H6. rewrite H in H6. rewrite H6 in H1. cbn [plus1] in H1.
      rewrite (sum_blank elems L elems_blank) in H1. cbn [List.length sum_of elems]. lia.
    - simpl. lia.
    - (* leaf field *)
      pose proof (rleaf_elems _ _ _ _ _ H) as He. assert (Ex : (elems (assigned old x) <= elems old)%nat) by (destruct x as [v|]; cbn [assigned]; [rewrite (He v eq_refl)|]; lia).
      destruct e as [ex|]; cbn [plus1]; [lia|]. pose proof (rleaf_consumes b w x n H0 (ok_field_leaf Y w H1) (leaf_no_obj _ _ _ _ H) H).
      destruct (sized_field w); lia.
    - specialize (H2 H3 L H). rewrite (olds_sum elems old c L) in H2 by (auto using elems_blank). cbn [elems sized_field]. destruct e; cbn [plus1] in *; lia.
    - lia.
    - specialize (H3 H4 L H1). rewrite (sum_blank elems L elems_blank) in H3. cbn [elems sized_field]. destruct e; cbn [plus1] in *; lia.
    - cbn [ok_field sized_field] in *. apply andb_true_iff in H2 as [H2 _]. apply ok_count_pos in H2. lia.
    - cbn [ok_field sized_field sized_list] in *. apply andb_true_iff in H5 as [H5 H7]. apply ok_count_pos in H5. specialize (H3 (bk_adv _ _ H4) H7 H6).
      cbn [elems]. destruct e; cbn [plus1]; lia.
    - simpl. lia.
    - pose proof (ok_field_of _ _ _ _ _ H4) as (_ & Hw & Hok & _). cbn [forallb snd] in H5. apply andb_true_iff in H5 as [Hs1 Hs2].
      specialize (H0 H3 Hw Hs1). specialize (H2 (bk_adv _ _ H3) _ Hok Hs2). cbn [sum_of snd sized existsb]. fold (sized L).
      destruct e; cbn [plus1] in *; [lia|]. destruct (sized_field w); cbn [orb]; [|lia]. destruct (sized L); lia.
    - pose proof (ok_field_of _ _ _ _ _ H2) as (_ & Hw & Hok & _). cbn [forallb snd] in H3. apply andb_true_iff in H3 as [Hs1 Hs2].
      specialize (H0 H1 Hw Hs1). cbn [sum_of snd plus1] in *. lia.
    - lia.
    - rewrite H in H3. injection H3 as <-. eapply H1; eauto; [eapply conforms_ok; eauto|eapply sized_find; eauto].
  Qed.

  Lemma rel_chars :
    (forall d w k b e xs n, relems Y F d w k b e xs n -> bk b -> (sum_of chars xs <= n)%nat) /\
    (forall d o dn w old b e x n, rfield Y F d o dn w old b e x n -> bk b -> (chars x <= chars old + n)%nat) /\
    (forall d o dn L os b e fs n, rfields Y F d o dn L os b e fs n -> bk b ->
       (sum_of (fun fv => chars (snd fv)) fs <= sum_of (fun fv => chars (snd fv)) os + n)%nat) /\
    (forall d c os b e fs n, robj Y F d c os b e fs n -> bk b ->
       (sum_of (fun fv => chars (snd fv)) fs <= sum_of (fun fv => chars (snd fv)) os + n)%nat).
  Proof.
    apply rel_min; intros; try (simpl; lia).
    - specialize (H1 (bk_adv _ _ H2)). pose proof (rleaf_chars _ _ _ _ _ H2 H) as He. rewrite sum_app.
      destruct x as [v|]; cbn [listed sum_of]; [specialize (He v eq_refl)|]; lia.
    - specialize (H1 H4). specialize (H3 (bk_adv _ _ H4)). rewrite (sum_blank chars L chars_blank) in H1. cbn [sum_of chars]. lia.
    - pose proof (rleaf_chars _ _ _ _ _ H0 H) as He. destruct x as [v|]; cbn [assigned]; [specialize (He v eq_refl)|]; lia.
    - specialize (H2 H3). rewrite (olds_sum chars old c L) in H2 by (auto using chars_blank). cbn [chars]. lia.
    - specialize (H3 H4). rewrite (sum_blank chars L chars_blank) in H3. cbn [chars]. lia.
    - specialize (H3 (bk_adv _ _ H4)). cbn [chars]. lia.
    - specialize (H0 H3). specialize (H2 (bk_adv _ _ H3)). cbn [sum_of snd]. lia.
  Qed.
End Sizes.

(* ---- length prefixes ---- *)
Lemma prefix_max o bs : bs <> [] -> get_int o bs <= max_prefix (List.length bs).
Proof. intros H. pose proof (get_int_range o bs H) as G. apply in_signed_spec in G. unfold max_prefix. lia. Qed.
Lemma all2_blank {A} (p : val -> wire -> bool) (q : A) L : (forall w, p (blank_val w) w = true) ->
  all2 (fun (fv : string * val) (fw : string * wire) => p (snd fv) (snd fw)) (blank L) L = true.
Proof. intros H. induction L as [|[f w] L IH]; auto. cbn [blank map all2 fst snd]. rewrite H. exact IH. Qed.
Section Countable.
  Variable C : list (string * class_def).
  Variable Y : layouts.
  Hypothesis HC : conforms C Y.
  Variable F : string -> key -> option string.
  Notation cnt_fields := (all2 (fun fv fw => countable Y (snd fv) (snd fw))).

  Lemma countable_blank w : countable Y (blank_val w) w = true. Proof. destruct w; reflexivity. Qed.
  Lemma cnt_blank L : cnt_fields (blank L) L = true.
  Proof. apply (all2_blank (countable Y) O). apply countable_blank. Qed.
  Lemma rleaf_countable b w e x n : bk b -> ok_leaf [] w = true -> rleaf b w e x n -> forall v, x = Some v -> countable Y v w = true.
  Proof.
    intros H Hok R. destruct R; intros v Hv; try discriminate Hv; injection Hv as <-; try reflexivity. tk. cbn [countable]. apply Z.leb_le.
    cbn [ok_leaf ok_elem] in Hok. apply ok_count_pos in Hok. pose proof (prefix_max o bs) as P. pose proof (decode_length cs).
    assert (bs <> []) by (destruct bs; [simpl in *; lia|discriminate]). specialize (P ltac:(auto)). replace n with (List.length bs) by auto. lia.
  Qed.
  Lemma rel_countable :
    (forall d w k b e xs n, relems Y F d w k b e xs n -> bk b -> ok_elem Y w = true -> (List.length xs <= k)%nat /\ forallb (fun x => countable Y x w) xs = true) /\
    (forall d o dn w old b e x n, rfield Y F d o dn w old b e x n -> bk b -> ok_field Y w = true -> countable Y old w = true -> countable Y x w = true) /\
    (forall d o dn L os b e fs n, rfields Y F d o dn L os b e fs n -> bk b -> forall seen, ok_fields Y seen L = true -> cnt_fields os L = true -> cnt_fields fs L = true) /\
    (forall d c os b e fs n, robj Y F d c os b e fs n -> bk b -> forall L, find c Y = Some L -> cnt_fields os L = true -> cnt_fields fs L = true).
  Proof.
    apply rel_min; intros; auto.
    - destruct (H1 (bk_adv _ _ H2) H3) as [L1 L2]. pose proof (rleaf_countable _ _ _ _ _ H2 (ok_elem_leaf Y w H3) H) as He.
      rewrite app_length, forallb_app, L2. destruct x as [v|]; cbn [listed List.length forallb]; [rewrite (He v eq_refl)|]; split; auto; lia.
    - split; [simpl; lia|reflexivity].
    - destruct (H3 (bk_adv _ _ H4) H5) as [L1 L2]. cbn [List.length forallb]. rewrite L2. split; [lia|].
      cbn [countable]. rewrite H, (H1 H4 L H (cnt_blank L)). reflexivity.
    - split; [simpl; lia|reflexivity].
    - pose proof (rleaf_countable _ _ _ _ _ H0 (ok_field_leaf Y w H1) H) as He. destruct x as [v|]; cbn [assigned]; auto.
    - cbn [countable]. rewrite H. apply (H2 H3 L H). destruct H0 as [->|[os ->]]; cbn [olds]; [apply cnt_blank|].
      cbn [countable] in H5. rewrite H in H5. exact H5.
    - cbn [countable]. rewrite H1. apply (H3 H4 L H1). apply cnt_blank.
    - cbn [ok_field] in H5. apply andb_true_iff in H5 as [H5 H7]. destruct (H3 (bk_adv _ _ H4) H7) as [L1 L2].
      cbn [countable]. rewrite L2, andb_true_r. apply Z.leb_le. tk. apply ok_count_pos in H5. pose proof (prefix_max o bs) as P.
      assert (bs <> []) by (destruct bs; [simpl in *; lia|discriminate]). specialize (P ltac:(auto)). subst n. lia.
    - pose proof (ok_field_of _ _ _ _ _ H4) as (_ & Hw & Hok & _). cbn [all2 snd] in H5 |- *. apply andb_true_iff in H5 as [H5 H6].
      rewrite (H0 H3 Hw H5). cbn [andb]. eapply H2; eauto.
    - pose proof (ok_field_of _ _ _ _ _ H2) as (_ & Hw & Hok & _). cbn [all2 snd] in H3 |- *. apply andb_true_iff in H3 as [H5 H6].
      rewrite (H0 H1 Hw H5). exact H6.
    - rewrite H in H3. injection H3 as <-. eapply H1; eauto. eapply conforms_ok; eauto.
  Qed.
End Countable.

(* ---- nothing is null after a successful decode ---- *)
Section NoNulls.
  Variable C : list (string * class_def).
  Variable Y : layouts.
  Hypothesis HC : conforms C Y.
  Variable F : string -> key -> option string.
  Notation full_fields := (all2 (fun fv fw => no_nulls Y (snd fv) (snd fw))).
  Notation list_fields := (all2 (fun fv fw => lists_no_nulls Y (snd fv) (snd fw))).
  Lemma lists_blank w : lists_no_nulls Y (blank_val w) w = true. Proof. destruct w; reflexivity. Qed.
  Lemma list_fields_blank L : list_fields (blank L) L = true.
  Proof. apply (all2_blank (lists_no_nulls Y) O). apply lists_blank. Qed.
  Lemma rleaf_full b w e x n : rleaf b w e x n -> forall v, x = Some v -> no_nulls Y v w = true.
  Proof. intros [] v Hv; try discriminate Hv; injection Hv as <-; reflexivity. Qed.
  Lemma rel_full :
    (forall d w k b e xs n, relems Y F d w k b e xs n -> e = None -> forallb (fun x => no_nulls Y x w) xs = true) /\
    (forall d o dn w old b e x n, rfield Y F d o dn w old b e x n -> e = None -> typed C old (wire_type w) = true -> lists_no_nulls Y old w = true -> no_nulls Y x w = true) /\
    (forall d o dn L os b e fs n, rfields Y F d o dn L os b e fs n -> e = None -> fields_ok C os L = true -> list_fields os L = true -> full_fields fs L = true) /\
    (forall d c os b e fs n, robj Y F d c os b e fs n -> e = None -> forall L, find c Y = Some L -> fields_ok C os L = true -> list_fields os L = true -> full_fields fs L = true).
  Proof.
    apply rel_min; intros; auto; try discriminate.
    - rewrite forallb_app, (H1 H2), andb_true_r. pose proof (rleaf_full _ _ _ _ _ H) as He.
      destruct x as [v|]; cbn [listed forallb]; auto. rewrite (He v eq_refl). reflexivity.
    - cbn [forallb]. rewrite (H3 H4), andb_true_r. cbn [no_nulls]. rewrite H. apply (H1 eq_refl L H).
      + apply (fields_ok_blank C).
      + apply list_fields_blank.
    - pose proof (rleaf_full _ _ _ _ _ H) as He. destruct x as [v|]; cbn [assigned]; auto.
      subst e. inversion H; subst. cbn [wire_type] in H1. destruct (typed_str C old H1) as [->|(s & -> & _)]; reflexivity.
    - cbn [no_nulls]. rewrite H. apply (H2 H3 L H).
      + destruct H0 as [->|[os ->]]; cbn [olds]; [apply (fields_ok_blank C)|]. eapply typed_obj; eauto.
      + destruct H0 as [->|[os ->]]; cbn [olds]; [apply list_fields_blank|]. cbn [lists_no_nulls] in H5. rewrite H in H5. exact H5.
    - cbn [no_nulls]. rewrite H1. apply (H3 H4 L H1); [apply (fields_ok_blank C)|apply list_fields_blank].
    - change (wire_type (WList n o w)) with (TList (wire_type w)) in H2. destruct (typed_list C old _ H2) as [->|(l & -> & _)]; [reflexivity|exact H3].
    - apply fields_ok_cons in H4 as (_ & Ho & Hos). cbn [all2 snd] in H5 |- *. apply andb_true_iff in H5 as [H5 H6].
      rewrite (H0 eq_refl Ho H5). cbn [andb]. auto.
    - rewrite H in H3. injection H3 as <-. auto.
  Qed.
End NoNulls.
