(* equals and hashCode of messages. *)
From Coq Require Import ZArith List Bool String Lia.
From Verif.Model Require Import JavaPrim ByteBuf Utf8 Codec Ast Interp Library.
From Verif.Spec Require Import Bytes Buffers Wire Reading Layouts Equality.
From Verif.Proofs Require Import BytesFacts Conform TableFacts EncodeFacts DecodeFacts ValInd.
Import ListNotations.
Open Scope Z_scope.

(* NaN patterns *)
Lemma land_field z k m : 0 <= k -> Z.land z (Z.shiftl m k) = Z.shiftl (Z.land (Z.shiftr z k) m) k.
Proof.
  intros Hk. apply Z.bits_inj'. intros i Hi. rewrite Z.land_spec, !Z.shiftl_spec by lia.
  destruct (Z_lt_ge_dec i k) as [H|H].
  - rewrite !(Z.testbit_neg_r _ (i - k)) by lia. apply andb_false_r.
  - rewrite Z.land_spec, Z.shiftr_spec by lia. rewrite Z.sub_add. reflexivity.
Qed.
Lemma nan_spec z m e : 0 <= m -> 0 < e -> 0 <= z ->
  (Z.land z (Z.shiftl (Z.ones e) m) =? Z.shiftl (Z.ones e) m) && negb (Z.land z (Z.ones m) =? 0) = ((2 ^ e - 1) * 2 ^ m <? z mod 2 ^ (m + e)).
Proof.
  intros Hm He Hz. rewrite land_field, !Z.land_ones, !Z.shiftl_mul_pow2, Z.shiftr_div_pow2, Z.ones_equiv by lia.
  rewrite Z.pow_add_r by lia. assert (0 < 2 ^ m) by (apply Z.pow_pos_nonneg; lia). assert (0 < 2 ^ e) by (apply Z.pow_pos_nonneg; lia).
  rewrite Z.rem_mul_r by lia.
  pose proof (Z.mod_pos_bound z (2 ^ m) ltac:(lia)). pose proof (Z.mod_pos_bound (z / 2 ^ m) (2 ^ e) ltac:(lia)).
  set (a := (z / 2 ^ m) mod 2 ^ e) in *. set (r := z mod 2 ^ m) in *. set (M := 2 ^ m) in *. set (K := 2 ^ e) in *. clearbody a r M K.
  assert (Q : (a * M =? Z.pred K * M) = (a =? K - 1)).
  { destruct (Z.eqb_spec a (K - 1)) as [->|N]; [apply Z.eqb_eq; lia|apply Z.eqb_neq; nia]. }
  rewrite Q. destruct (Z.eqb_spec a (K - 1)) as [->|N]; destruct (Z.eqb_spec r 0) as [R|R]; cbn [andb negb]; symmetry;
    [apply Z.ltb_ge|apply Z.ltb_lt|apply Z.ltb_ge|apply Z.ltb_ge]; try lia; assert (a + 1 <= K - 1) by lia; nia.
Qed.
Lemma canon32_spec z : 0 <= z -> canon32 z = if nan_float z then 2143289344 else z.
Proof. intros H. unfold canon32, nan_float. pose proof (nan_spec z 23 8 ltac:(lia) ltac:(lia) H) as P. change (Z.shiftl (Z.ones 8) 23) with 2139095040 in P. change (Z.ones 23) with 8388607 in P. change ((2 ^ 8 - 1) * 2 ^ 23) with 2139095040 in P. change (23 + 8) with 31 in P. rewrite P. reflexivity. Qed.
Lemma canon64_spec z : 0 <= z -> canon64 z = if nan_double z then 9221120237041090560 else z.
Proof. intros H. unfold canon64, nan_double. pose proof (nan_spec z 52 11 ltac:(lia) ltac:(lia) H) as P. change (Z.shiftl (Z.ones 11) 52) with 9218868437227405312 in P. change (Z.ones 52) with 4503599627370495 in P. change ((2 ^ 11 - 1) * 2 ^ 52) with 9218868437227405312 in P. change (52 + 11) with 63 in P. rewrite P. reflexivity. Qed.

Definition names_ok (cd : class_def) : Prop :=
  c_eq cd = map fst (c_fields cd)
  /\ c_hash cd = match c_fields cd with [] => HashSelf | _ => HashFields (map fst (c_fields cd)) end.

(* the result is there and answers P *)
Definition decides (r : option bool) (P : Prop) : Prop := exists x, r = Some x /\ (x = true <-> P).
Lemma decides_true (P : Prop) : P -> decides (Some true) P.
Proof. intros H. exists true. tauto. Qed.
Lemma decides_false (P : Prop) : ~ P -> decides (Some false) P.
Proof. intros H. exists false. split; [reflexivity|]. split; [discriminate|tauto]. Qed.

Section Eq.
  Variable C : list (string * class_def).
  Variable Y : layouts.
  Hypothesis HC : conforms C Y.
  Variable E : env.
  Hypothesis HE : classes E = C.
  Hypothesis HN : forall c cd, assoc c C = Some cd -> names_ok cd.

  Fixpoint one_fields (fs : list (string * val)) (L : layout) : list (string * val) :=
    match fs, L with
    | (f, x) :: fs', (_, w) :: L' => (f, one_nan Y x w) :: one_fields fs' L'
    | _, _ => fs
    end.
  Lemma one_obj_eq c fs w L : find c Y = Some L -> one_nan Y (VObj c fs) w = VObj c (one_fields fs L).
  Proof. intros H. cbn [one_nan]. rewrite H. reflexivity. Qed.
  Lemma one_nan_obj c fs w : exists fs', one_nan Y (VObj c fs) w = VObj c fs'.
  Proof. cbn [one_nan]. destruct (find c Y); eauto. Qed.
  Lemma one_nan_null v w : one_nan Y v w = VNull <-> v = VNull.
  Proof.
    split; [|intros ->; reflexivity]. destruct v; cbn [one_nan]; auto; try discriminate.
    - destruct w; try discriminate. destruct n as [|[|[|[|[|n]]]]]; destruct (nan_float bits), (nan_double bits); discriminate.
    - destruct w; discriminate.
    - destruct (find c Y); discriminate.
  Qed.
  Lemma one_nan_nesting : forall v w, nesting (one_nan Y v w) = nesting v.
  Proof.
    induction v as [|z|z|s|l IH|c fs IH] using val_ind2; intros w; try reflexivity.
    - cbn [one_nan]. destruct w; auto. destruct n as [|[|[|[|[|n]]]]]; destruct (nan_float z), (nan_double z); reflexivity.
    - cbn [one_nan]. destruct w; auto. cbn [nesting]. induction IH as [|x l Hx _ IHl]; auto. cbn [map max_of]. rewrite Hx. f_equal. exact IHl.
    - destruct (find c Y) as [L|] eqn:HL; [|cbn [one_nan]; rewrite HL; reflexivity]. rewrite (one_obj_eq _ _ _ _ HL). cbn [nesting]. f_equal.
      clear HL. revert L. induction IH as [|[f x] fs Hx _ IHfs]; intros [|[g u] L]; auto. cbn [one_fields max_of snd] in *. rewrite Hx, IHfs. reflexivity.
  Qed.

  Definition okd (eqo : val -> val -> option bool) (d : nat) : Prop := forall c c' fs gs w w',
    typed C (VObj c fs) TCodec = true -> typed C (VObj c' gs) TCodec = true -> (nesting (VObj c fs) <= d)%nat ->
    decides (eqo (VObj c fs) (VObj c' gs)) (one_nan Y (VObj c fs) w = one_nan Y (VObj c' gs) w').

  (* not lists *)
  Lemma eq_leaf eqo d w a b : okd eqo d -> (forall n o w', w <> WList n o w') -> ok_field Y w = true ->
    a = VNull \/ typed C a (wire_type w) = true -> b = VNull \/ typed C b (wire_type w) = true -> (nesting a <= d)%nat ->
    decides (eq_val eqo (wire_type w) a b) (one_nan Y a w = one_nan Y b w).
  Proof.
    intros IH Hw Hok Ha Hb Hn.
    assert (Hnull : forall v, v <> VNull -> VNull <> one_nan Y v w) by (intros v Hv Q; symmetry in Q; apply one_nan_null in Q; auto).
    destruct Ha as [->|Ha].
    { assert (D : b = VNull \/ b <> VNull) by (destruct b; auto; right; discriminate). destruct D as [->|D].
      - apply decides_true. reflexivity.
      - replace (eq_val eqo (wire_type w) VNull b) with (Some false) by (destruct b; auto; congruence). apply decides_false. cbn [one_nan] in *. apply Hnull. exact D. }
    destruct Hb as [->|Hb].
    { assert (D : a = VNull \/ a <> VNull) by (destruct a; auto; right; discriminate). destruct D as [->|D].
      - apply decides_true. reflexivity.
      - replace (eq_val eqo (wire_type w) a VNull) with (Some false) by (destruct a; auto; congruence). apply decides_false. intros Q. cbn [one_nan] in Q. symmetry in Q. exact (Hnull _ D Q). }
    assert (Hint : forall n o, ok_width n = true -> typed C a (wire_type (WInt n o)) = true -> typed C b (wire_type (WInt n o)) = true -> decides (eq_val eqo (wire_type w) a b) (one_nan Y a w = one_nan Y b w)).
    { intros n o Hk H1 H2. destruct (typed_int C a n o Hk H1) as (x & -> & _). destruct (typed_int C b n o Hk H2) as (y & -> & _). cbn [one_nan eq_val].
      exists (x =? y). split; auto. rewrite Z.eqb_eq. split; congruence. }
    assert (Hstr : typed C a TStr = true -> typed C b TStr = true -> decides (eq_val eqo (wire_type w) a b) (one_nan Y a w = one_nan Y b w)).
    { intros H1 H2. destruct (typed_str C a H1) as [->|(s & -> & _)], (typed_str C b H2) as [->|(t & -> & _)]; cbn [one_nan eq_val];
        try (apply decides_true; reflexivity); try (apply decides_false; discriminate).
      destruct (list_eq_dec Z.eq_dec s t) as [->|N]; [apply decides_true; reflexivity|apply decides_false; congruence]. }
    assert (Hobj : typed C a TCodec = true -> typed C b TCodec = true -> decides (eq_val eqo (wire_type w) a b) (one_nan Y a w = one_nan Y b w)).
    { intros H1 H2. destruct (typed_codec C a H1) as [->|(c1 & fs & ->)], (typed_codec C b H2) as [->|(c2 & gs & ->)].
      - apply decides_true. reflexivity.
      - apply decides_false. apply Hnull. discriminate.
      - apply decides_false. intros Q. symmetry in Q. revert Q. apply Hnull. discriminate.
      - cbn [eq_val]. apply IH; auto. }
    destruct w; cbn [ok_field ok_elem] in Hok.
    - eapply Hint; eauto.
    - destruct (typed_flt C a n o Hok Ha) as (x & -> & Hx). destruct (typed_flt C b n o Hok Hb) as (y & -> & Hy).
      assert (N : n = 4%nat \/ n = 8%nat) by (destruct n as [|[|[|[|[|[|[|[|[|n]]]]]]]]]; try discriminate Hok; auto).
      destruct N as [-> | ->]; cbn [one_nan eq_val wire_type canon]; rewrite ?canon32_spec, ?canon64_spec by lia.
      + exists ((if nan_float x then 2143289344 else x) =? (if nan_float y then 2143289344 else y)). split; auto. rewrite Z.eqb_eq.
        destruct (nan_float x), (nan_float y); split; congruence.
      + exists ((if nan_double x then 9221120237041090560 else x) =? (if nan_double y then 9221120237041090560 else y)). split; auto. rewrite Z.eqb_eq.
        destruct (nan_double x), (nan_double y); split; congruence.
    - auto.
    - auto.
    - apply Hobj; [destruct (typed_tobj C a c Ha) as [->|(? & ->)]|destruct (typed_tobj C b c Hb) as [->|(? & ->)]]; auto; eapply typed_obj_codec; eauto.
    - auto.
    - exfalso. eapply Hw. reflexivity.
    - eapply (Hint 4%nat o); auto; apply Nat.eqb_eq in Hok; subst n; auto.
    - eapply (Hint 4%nat o); auto; apply Nat.eqb_eq in Hok; subst n; auto.
  Qed.

  Fixpoint eq_list (eqo : val -> val -> option bool) (t : ftype) (x y : list val) : option bool :=
    match x, y with
    | [], [] => Some true
    | u :: x', w :: y' => match eq_val eqo t u w with
                          | Some true => eq_list eqo t x' y'
                          | r => r
                          end
    | _, _ => Some false
    end.
  Lemma eq_val_list eqo t l m : eq_val eqo (TList t) (VList l) (VList m) = eq_list eqo t l m.
  Proof. cbn [eq_val]. revert m. induction l as [|x l IH]; intros [|y m]; auto. cbn [eq_list]. destruct (eq_val eqo t x y) as [[]|]; auto. Qed.

  Lemma eq_any eqo d w a b : okd eqo d -> ok_field Y w = true -> typed C a (wire_type w) = true -> typed C b (wire_type w) = true -> (nesting a <= d)%nat ->
    decides (eq_val eqo (wire_type w) a b) (one_nan Y a w = one_nan Y b w).
  Proof.
    intros IH Hok Ha Hb Hn. assert (D : (exists n o w', w = WList n o w') \/ forall n o w', w <> WList n o w') by (destruct w; eauto; right; discriminate).
    destruct D as [(n & o & w' & ->)|D]; [|eapply eq_leaf; eauto].
    cbn [ok_field] in Hok. apply andb_true_iff in Hok as [_ Hok]. change (wire_type (WList n o w')) with (TList (wire_type w')) in *.
    destruct (typed_list C a _ Ha) as [->|(l & -> & Hl)], (typed_list C b _ Hb) as [->|(m & -> & Hm)];
      try (apply decides_true; reflexivity); try (apply decides_false; discriminate).
    rewrite eq_val_list. cbn [one_nan nesting] in *.
    assert (Q : decides (eq_list eqo (wire_type w') l m) (map (fun x => one_nan Y x w') l = map (fun x => one_nan Y x w') m)).
    { clear Ha Hb. revert m Hm. induction l as [|x l IHl]; intros [|y m] Hm; try (apply decides_true; reflexivity); try (apply decides_false; discriminate).
      cbn [forallb] in Hl, Hm. apply andb_true_iff in Hl as [Hx Hl]. apply andb_true_iff in Hm as [Hy Hm]. cbn [max_of] in Hn.
      assert (F : forall z, is_null z || typed C z (wire_type w') = true -> z = VNull \/ typed C z (wire_type w') = true)
        by (intros z Hz; destruct z; auto).
      destruct (eq_leaf eqo d w' x y IH) as (r & Er & Hr); auto.
      { intros n' o' w'' ->. discriminate Hok. } { destruct w'; auto; discriminate. } { lia. }
      cbn [eq_list map]. rewrite Er. destruct r.
      - destruct (IHl ltac:(lia) Hl m Hm) as (r & -> & Hr2). exists r. split; auto. rewrite Hr2. split; [intros ->; f_equal; tauto|congruence].
      - apply decides_false. intros Q. injection Q as Q _. apply Hr in Q. discriminate. }
    destruct Q as (r & -> & Hr). exists r. split; auto. rewrite Hr. split; congruence.
  Qed.

  Lemma type_mid f w (pre post : layout) : existsb (fun fw => String.eqb f (fst fw)) pre = false -> type_of f (types_of (pre ++ (f, w) :: post)) = wire_type w.
  Proof.
    unfold types_of. induction pre as [|[g u] pre IH]; cbn [app map type_of existsb fst snd]; intros H; [rewrite String.eqb_refl; reflexivity|].
    apply orb_false_iff in H as [H1 H2]. rewrite H1. auto.
  Qed.

  Lemma eq_all_fields eqo d : okd eqo d -> forall L seen fd gd fs gs, ok_fields Y seen L = true -> map fst fd = map fst seen -> map fst gd = map fst seen ->
    fields_ok C fs L = true -> fields_ok C gs L = true -> (max_of (fun fv => nesting (snd fv)) fs <= d)%nat ->
    decides (eq_fields eqo (types_of (seen ++ L)) (map fst L) (fd ++ fs) (gd ++ gs)) (one_fields fs L = one_fields gs L).
  Proof.
    intros IHd. induction L as [|[f w] L IH]; intros seen fd gd fs gs Hok Nf Ng Hf Hg Hn.
    - destruct fs, gs; try discriminate. apply decides_true. reflexivity.
    - destruct fs as [|[f1 x] fs]; [discriminate|]. destruct gs as [|[f2 y] gs]; [discriminate|].
      apply fields_ok_cons in Hf as (-> & Hx & Hf). apply fields_ok_cons in Hg as (-> & Hy & Hg).
      apply ok_field_of in Hok as (Hs & Hw & Hok & _). cbn [max_of snd] in Hn. cbn [map fst eq_fields].
      rewrite !get_mid, (type_mid f w seen L Hs) by (rewrite (existsb_names f _ seen); auto).
      destruct (eq_any eqo d w x y IHd Hw Hx Hy ltac:(lia)) as (r & -> & Hr). cbn [one_fields]. destruct r.
      + replace (fd ++ (f, x) :: fs) with ((fd ++ [(f, x)]) ++ fs) by (rewrite <- app_assoc; reflexivity).
        replace (gd ++ (f, y) :: gs) with ((gd ++ [(f, y)]) ++ gs) by (rewrite <- app_assoc; reflexivity).
        replace (seen ++ (f, w) :: L) with ((seen ++ [(f, w)]) ++ L) by (rewrite <- app_assoc; reflexivity).
        destruct (IH (seen ++ [(f, w)]) (fd ++ [(f, x)]) (gd ++ [(f, y)]) fs gs Hok) as (r & -> & Hr2); auto; try lia.
        { rewrite !map_app, Nf. reflexivity. } { rewrite !map_app, Ng. reflexivity. }
        exists r. split; auto. rewrite Hr2. destruct Hr as [Hr _]. specialize (Hr eq_refl). split; [intros ->; rewrite Hr; reflexivity|congruence].
      + apply decides_false. intros Q. injection Q as Q _. apply Hr in Q. discriminate.
  Qed.

  Theorem equals_all d : okd (jequals E d) d.
  Proof.
    induction d as [|d IH]; intros c c' fs gs w w' Hf Hg Hn; [cbn [nesting] in Hn; lia|].
    cbn [jequals]. destruct (String.eqb_spec c c') as [<-|N].
    - destruct (typed_obj_known C Y c fs _ HC Hf) as [L HL]. pose proof (conforms_find C Y c HC) as F. rewrite HL in F. destruct F as (cd & E1 & _ & E2 & _).
      unfold find_class. rewrite HE, E1, E2. destruct (HN c cd E1) as [Eq _]. rewrite Eq, E2.
      replace (map fst (types_of L)) with (map fst L) by (unfold types_of; rewrite map_map; reflexivity).
      rewrite !(one_obj_eq _ _ _ L HL). cbn [nesting] in Hn.
      destruct (eq_all_fields (jequals E d) d IH L [] [] [] fs gs (conforms_ok C Y c L HC HL) eq_refl eq_refl (typed_obj C Y c fs _ L HC HL Hf) (typed_obj C Y c gs _ L HC HL Hg) ltac:(lia)) as (r & R & Hr).
      cbn [app] in R. exists r. split; [exact R|]. rewrite Hr. split; [intros ->; reflexivity|intros Q; injection Q as Q; exact Q].
    - apply decides_false. destruct (one_nan_obj c fs w) as (x & ->), (one_nan_obj c' gs w') as (y & ->). congruence.
  Qed.

  (* symmetry, at every depth *)
  Lemma jequals_sym d : forall c fs c' gs, jequals E d (VObj c fs) (VObj c' gs) = jequals E d (VObj c' gs) (VObj c fs).
  Proof.
    induction d as [|d IH]; intros c fs c' gs; auto. cbn [jequals]. rewrite (String.eqb_sym c' c). destruct (String.eqb_spec c c') as [<-|]; auto.
    destruct (find_class E c) as [cd|]; auto. generalize (c_eq cd). intros ns. induction ns as [|f ns IHn]; auto. cbn [eq_fields].
    rewrite IHn. enough (Q : forall a b t, eq_val (jequals E d) t a b = eq_val (jequals E d) t b a) by (rewrite Q; reflexivity).
    clear - IH. induction a as [|z|z|s|l IHl|c' fs' _] using val_ind2; intros b t; destruct b; try reflexivity.
    - cbn. rewrite Z.eqb_sym. reflexivity.
    - cbn. rewrite Z.eqb_sym. reflexivity.
    - cbn. destruct (list_eq_dec Z.eq_dec s s0), (list_eq_dec Z.eq_dec s0 s); congruence.
    - rename l0 into m. cbn [eq_val]. generalize (match t with TList u => u | _ => TCodec end). intros t'. revert m.
      induction IHl as [|x l Hx _ IHl']; intros [|y m]; try reflexivity. rewrite Hx, IHl'. reflexivity.
    - cbn [eq_val]. apply IH.
  Qed.
End Eq.
