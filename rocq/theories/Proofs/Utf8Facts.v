(* UTF-16 <-> UTF-8. *)
From Coq Require Import ZArith List Bool Lia ZifyBool.
From Verif.Model Require Import JavaPrim Utf8.
From Verif.Spec Require Import Bytes.
From Verif.Proofs Require Import BytesFacts BufFacts.
Import ListNotations.
Open Scope Z_scope.

Ltac Zify.zify_post_hook ::= Z.div_mod_to_equations.

(* finite sweep over byte values *)
Definition all_bytes : list Z := map Z.of_nat (seq 0 256).
Lemma sweep (P : Z -> bool) : forallb P all_bytes = true -> forall b, 0 <= b < 256 -> P b = true.
Proof.
  intros H b Hb. rewrite forallb_forall in H. apply H. unfold all_bytes.
  apply in_map_iff. exists (Z.to_nat b). split; [lia|]. apply in_seq. lia.
Qed.

Lemma is_cont_spec b : 0 <= b < 256 -> is_cont b = ((128 <=? b) && (b <? 192)).
Proof.
  intros Hb. apply eqb_prop. revert b Hb. apply (sweep (fun b => Bool.eqb (is_cont b) ((128 <=? b) && (b <? 192)))).
  vm_compute. reflexivity.
Qed.
Lemma land224_spec b : 0 <= b < 256 -> (Z.land b 224 =? 128) = ((128 <=? b) && (b <? 160)).
Proof.
  intros Hb. apply eqb_prop. revert b Hb. apply (sweep (fun b => Bool.eqb (Z.land b 224 =? 128) ((128 <=? b) && (b <? 160)))).
  vm_compute. reflexivity.
Qed.
Lemma land240_spec b : 0 <= b < 256 -> (Z.land b 240 =? 128) = ((128 <=? b) && (b <? 144)).
Proof.
  intros Hb. apply eqb_prop. revert b Hb. apply (sweep (fun b => Bool.eqb (Z.land b 240 =? 128) ((128 <=? b) && (b <? 144)))).
  vm_compute. reflexivity.
Qed.

Lemma lor_disjoint a m b : 0 <= m -> 0 <= b < 2 ^ m -> Z.lor (a * 2 ^ m) b = a * 2 ^ m + b.
Proof.
  intros Hm Hb.
  assert (E : Z.land (a * 2 ^ m) b = 0).
  { apply Z.bits_inj'. intros i Hi. rewrite Z.land_spec, Z.bits_0. destruct (Z.ltb_spec i m).
    - rewrite Z.mul_pow2_bits_low by lia. reflexivity.
    - rewrite <- (Z.mod_small b (2 ^ m)) by lia. rewrite Z.mod_pow2_bits_high by lia. apply andb_false_r. }
  rewrite <- Z.lxor_lor, <- Z.add_nocarry_lxor by exact E. reflexivity.
Qed.
Lemma lor192 x : 0 <= x < 64 -> Z.lor 192 x = 192 + x.
Proof. intros. exact (lor_disjoint 3 6 x ltac:(lia) H). Qed.
Lemma lor128 x : 0 <= x < 128 -> Z.lor 128 x = 128 + x.
Proof. intros. exact (lor_disjoint 1 7 x ltac:(lia) H). Qed.
Lemma lor224 x : 0 <= x < 32 -> Z.lor 224 x = 224 + x.
Proof. intros. exact (lor_disjoint 7 5 x ltac:(lia) H). Qed.
Lemma lor240 x : 0 <= x < 16 -> Z.lor 240 x = 240 + x.
Proof. intros. exact (lor_disjoint 15 4 x ltac:(lia) H). Qed.
Lemma land63 x : Z.land x 63 = x mod 64.
Proof. exact (Z.land_ones x 6 ltac:(lia)). Qed.
Lemma land31 x : Z.land x 31 = x mod 32.
Proof. exact (Z.land_ones x 5 ltac:(lia)). Qed.
Lemma land15 x : Z.land x 15 = x mod 16.
Proof. exact (Z.land_ones x 4 ltac:(lia)). Qed.
Lemma land7 x : Z.land x 7 = x mod 8.
Proof. exact (Z.land_ones x 3 ltac:(lia)). Qed.
Lemma land1023 x : Z.land x 1023 = x mod 1024.
Proof. exact (Z.land_ones x 10 ltac:(lia)). Qed.
Lemma shr6 x : Z.shiftr x 6 = x / 64.
Proof. exact (Z.shiftr_div_pow2 x 6 ltac:(lia)). Qed.
Lemma shr10 x : Z.shiftr x 10 = x / 1024.
Proof. exact (Z.shiftr_div_pow2 x 10 ltac:(lia)). Qed.
Lemma shr12 x : Z.shiftr x 12 = x / 4096.
Proof. exact (Z.shiftr_div_pow2 x 12 ltac:(lia)). Qed.
Lemma shr18 x : Z.shiftr x 18 = x / 262144.
Proof. exact (Z.shiftr_div_pow2 x 18 ltac:(lia)). Qed.
Lemma shl10 x : Z.shiftl x 10 = x * 1024.
Proof. exact (Z.shiftl_mul_pow2 x 10 ltac:(lia)). Qed.
Lemma lor_shl6 a b : 0 <= b < 64 -> Z.lor (Z.shiftl a 6) b = a * 64 + b.
Proof. intros. rewrite Z.shiftl_mul_pow2 by lia. exact (lor_disjoint a 6 b ltac:(lia) H). Qed.
Lemma lor_shl12 a b : 0 <= b < 4096 -> Z.lor (Z.shiftl a 12) b = a * 4096 + b.
Proof. intros. rewrite Z.shiftl_mul_pow2 by lia. exact (lor_disjoint a 12 b ltac:(lia) H). Qed.
Lemma lor_shl18 a b : 0 <= b < 262144 -> Z.lor (Z.shiftl a 18) b = a * 262144 + b.
Proof. intros. rewrite Z.shiftl_mul_pow2 by lia. exact (lor_disjoint a 18 b ltac:(lia) H). Qed.

(* arithmetic forms of the model's bit operations *)
Lemma to_cp_spec h l : to_cp h l = 65536 + (h - 55296) * 1024 + (l - 56320).
Proof. unfold to_cp. rewrite shl10. lia. Qed.
Lemma enc1_spec c : 0 <= c < 65536 -> enc1 c = utf8_scalar c.
Proof.
  intros H. unfold enc1, utf8_scalar. rewrite !shr6, shr12, !land63.
  destruct (Z.ltb_spec c 128); auto. destruct (Z.ltb_spec c 2048).
  - rewrite lor192, lor128 by lia. reflexivity.
  - destruct (Z.ltb_spec c 65536); [|lia]. rewrite lor224, !lor128 by lia. reflexivity.
Qed.
Lemma enc2_spec c : 65536 <= c < 1114112 -> enc2 c = utf8_scalar c.
Proof.
  intros H. unfold enc2, utf8_scalar. rewrite shr6, shr12, shr18, !land63.
  repeat match goal with |- context [?a <? ?b] => destruct (Z.ltb_spec a b); [lia|] end.
  rewrite lor240, !lor128 by lia. reflexivity.
Qed.
Lemma is_high_spec c : is_high c = hi_sur c. Proof. unfold is_high, hi_sur. lia. Qed.
Lemma is_low_spec c : is_low c = lo_sur c. Proof. unfold is_low, lo_sur. lia. Qed.

Lemma pair_ind (P : list Z -> Prop) : P [] -> (forall a, P [a]) -> (forall a b l, P l -> P (b :: l) -> P (a :: b :: l)) -> forall l, P l.
Proof.
  intros H0 H1 H2. assert (forall l, P l /\ forall a, P (a :: l)).
  { induction l as [|b l [IH1 IH2]]; split; auto. }
  intros l; apply H.
Qed.

Theorem utf8_encode_spec s : forallb is_unit s = true -> utf8_encode s = utf8 s.
Proof.
  unfold utf8. induction s as [|a|a b l IH1 IH2] using pair_ind; intros H; auto.
  - cbn [utf8_encode scalars]. simpl in H. unfold is_unit in H. rewrite is_high_spec, is_low_spec.
    destruct (hi_sur a) eqn:E1; auto. destruct (lo_sur a) eqn:E2; auto.
    cbn [flat_map]. rewrite enc1_spec by lia. reflexivity.
  - simpl in H. apply andb_true_iff in H as [Ha H]. pose proof H as Hb. apply andb_true_iff in Hb as [Hb Hl].
    specialize (IH1 Hl). specialize (IH2 H).
    change (utf8_encode (a :: b :: l)) with
      (if is_high a then (if is_low b then enc2 (to_cp a b) ++ utf8_encode l else 63 :: utf8_encode (b :: l))
       else if is_low a then 63 :: utf8_encode (b :: l) else enc1 a ++ utf8_encode (b :: l)).
    change (scalars (a :: b :: l)) with
      (if hi_sur a then (if lo_sur b then (65536 + (a - 55296) * 1024 + (b - 56320)) :: scalars l else 63 :: scalars (b :: l))
       else if lo_sur a then 63 :: scalars (b :: l) else a :: scalars (b :: l)).
    rewrite !is_high_spec, !is_low_spec. unfold is_unit in *.
    destruct (hi_sur a) eqn:E1; [destruct (lo_sur b) eqn:E2|destruct (lo_sur a) eqn:E2]; cbn [flat_map].
    + rewrite to_cp_spec, enc2_spec, IH1 by (unfold hi_sur, lo_sur in *; lia). reflexivity.
    + rewrite IH2. reflexivity.
    + rewrite IH2. reflexivity.
    + rewrite enc1_spec, IH2 by lia. reflexivity.
Qed.

Lemma valid16_unit s : valid16 s = true -> forallb is_unit s = true.
Proof.
  induction s as [|a|a b l IH1 IH2] using pair_ind; intros H; auto.
  - simpl in *. unfold is_unit. destruct (hi_sur a); lia.
  - change (valid16 (a :: b :: l)) with ((0 <=? a) && (a <=? 65535) && (if hi_sur a then lo_sur b && valid16 l else negb (lo_sur a) && valid16 (b :: l))) in H.
    cbn [forallb]. apply andb_true_iff in H as [Ha H]. apply andb_true_iff. split; [unfold is_unit; lia|].
    destruct (hi_sur a).
    + apply andb_true_iff in H as [Hb Hl]. rewrite (IH1 Hl), andb_true_r. unfold is_unit, lo_sur in *. lia.
    + apply andb_true_iff in H as [_ H]. exact (IH2 H).
Qed.

(* the scalars of any string of units are Unicode scalar values *)
Definition scalar_ok (c : Z) : Prop := 0 <= c < 1114112 /\ ~ (55296 <= c < 57344).
Lemma scalars_ok s : forallb is_unit s = true -> Forall scalar_ok (scalars s).
Proof.
  unfold scalar_ok. induction s as [|a|a b l IH1 IH2] using pair_ind; intros H; [constructor|..].
  - simpl in *. unfold is_unit in H. destruct (hi_sur a) eqn:E1; [repeat constructor; lia|].
    destruct (lo_sur a) eqn:E2; repeat constructor; unfold hi_sur, lo_sur in *; lia.
  - change (scalars (a :: b :: l)) with
      (if hi_sur a then (if lo_sur b then (65536 + (a - 55296) * 1024 + (b - 56320)) :: scalars l else 63 :: scalars (b :: l))
       else if lo_sur a then 63 :: scalars (b :: l) else a :: scalars (b :: l)).
    simpl in H. apply andb_true_iff in H as [Ha H]. pose proof H as Hb. apply andb_true_iff in Hb as [Hb Hl].
    specialize (IH1 Hl). specialize (IH2 H). unfold is_unit in *.
    destruct (hi_sur a) eqn:E1; [destruct (lo_sur b) eqn:E2|destruct (lo_sur a) eqn:E2]; constructor; auto; unfold hi_sur, lo_sur in *; lia.
Qed.
Lemma utf8_scalar_bytes c : scalar_ok c -> bytes_ok (utf8_scalar c).
Proof.
  intros [H _]. unfold utf8_scalar.
  destruct (Z.ltb_spec c 128); [|destruct (Z.ltb_spec c 2048); [|destruct (Z.ltb_spec c 65536)]]; repeat constructor; lia.
Qed.
Lemma utf8_bytes s : forallb is_unit s = true -> bytes_ok (utf8 s).
Proof.
  intros H. unfold utf8. pose proof (scalars_ok s H) as F. induction F; simpl; [constructor|].
  apply Forall_app. split; auto. apply utf8_scalar_bytes; auto.
Qed.


Theorem decode_scalar c t : scalar_ok c -> utf8_decode (utf8_scalar c ++ t) = units c ++ utf8_decode t.
Proof.
  intros [H1 H2]. unfold utf8_scalar, units. destruct (Z.ltb_spec c 128).
  { destruct (Z.ltb_spec c 65536); [|lia]. cbn [app utf8_decode]. destruct (Z.ltb_spec c 128); [reflexivity|lia]. }
  destruct (Z.ltb_spec c 2048).
  { destruct (Z.ltb_spec c 65536); [|lia]. cbn [app utf8_decode].
    destruct (Z.ltb_spec (192 + c / 64) 128); [lia|].
    replace ((194 <=? 192 + c / 64) && (192 + c / 64 <? 224)) with true by lia.
    rewrite is_cont_spec by lia. replace ((128 <=? 128 + c mod 64) && (128 + c mod 64 <? 192)) with true by lia.
    unfold cp2. rewrite land31, land63, lor_shl6 by lia. f_equal. lia. }
  destruct (Z.ltb_spec c 65536).
  { cbn [app utf8_decode].
    destruct (Z.ltb_spec (224 + c / 4096) 128); [lia|].
    replace ((194 <=? 224 + c / 4096) && (224 + c / 4096 <? 224)) with false by lia.
    replace ((224 <=? 224 + c / 4096) && (224 + c / 4096 <? 240)) with true by lia.
    unfold malformed3, malformed3_2. rewrite !is_cont_spec, land224_spec by lia.
    match goal with |- context [if ?x then (if _ then _ else _) else _] => replace x with false by lia end.
    unfold cp3. rewrite land15, !land63, lor_shl6, lor_shl12 by lia.
    match goal with |- context [is_surrogate ?x] => replace x with c by lia end.
    replace (is_surrogate c) with false by (unfold is_surrogate, is_high, is_low; lia). reflexivity. }
  cbn [app utf8_decode].
  destruct (Z.ltb_spec (240 + c / 262144) 128); [lia|].
  replace ((194 <=? 240 + c / 262144) && (240 + c / 262144 <? 224)) with false by lia.
  replace ((224 <=? 240 + c / 262144) && (240 + c / 262144 <? 240)) with false by lia.
  replace ((240 <=? 240 + c / 262144) && (240 + c / 262144 <? 248)) with true by lia.
  assert (E : cp4 (240 + c / 262144) (128 + (c / 4096) mod 64) (128 + (c / 64) mod 64) (128 + c mod 64) = c).
  { unfold cp4. rewrite land7, !land63, lor_shl6, lor_shl12, lor_shl18 by lia. lia. }
  rewrite E. unfold malformed4. rewrite !is_cont_spec by lia. unfold is_supplementary.
  match goal with |- context [if ?x then (if _ then _ else _) else _] => replace x with false by lia end.
  unfold high_of, low_of. rewrite shr10, land1023. f_equal; [lia|]. f_equal. lia.
Qed.

(* unpaired surrogates replaced by '?' *)
Definition scrub (s : list Z) : list Z := flat_map units (scalars s).
Lemma scrub_valid s : valid16 s = true -> scrub s = s.
Proof.
  unfold scrub. induction s as [|a|a b l IH1 IH2] using pair_ind; intros H; auto.
  - simpl in *. destruct (hi_sur a) eqn:E1; [lia|]. destruct (lo_sur a) eqn:E2; [lia|].
    simpl. unfold units. destruct (Z.ltb_spec a 65536); [reflexivity|lia].
  - change (scalars (a :: b :: l)) with
      (if hi_sur a then (if lo_sur b then (65536 + (a - 55296) * 1024 + (b - 56320)) :: scalars l else 63 :: scalars (b :: l))
       else if lo_sur a then 63 :: scalars (b :: l) else a :: scalars (b :: l)).
    change (valid16 (a :: b :: l)) with ((0 <=? a) && (a <=? 65535) && (if hi_sur a then lo_sur b && valid16 l else negb (lo_sur a) && valid16 (b :: l))) in H.
    apply andb_true_iff in H as [Ha H]. destruct (hi_sur a) eqn:E1.
    + apply andb_true_iff in H as [Hb Hl]. rewrite Hb. cbn [flat_map]. rewrite (IH1 Hl).
      unfold units. unfold hi_sur, lo_sur in *. destruct (Z.ltb_spec (65536 + (a - 55296) * 1024 + (b - 56320)) 65536); [lia|].
      cbn [app]. f_equal; [lia|]. f_equal. lia.
    + apply andb_true_iff in H as [Hn H]. destruct (lo_sur a); [discriminate|]. cbn [flat_map]. rewrite (IH2 H).
      unfold units. destruct (Z.ltb_spec a 65536); [reflexivity|lia].
Qed.

Theorem decode_utf8_app s t : forallb is_unit s = true -> utf8_decode (utf8 s ++ t) = scrub s ++ utf8_decode t.
Proof.
  intros H. unfold utf8, scrub. pose proof (scalars_ok s H) as F. induction F as [|c cs Hc _ IH]; auto.
  cbn [flat_map]. rewrite <- !app_assoc, decode_scalar by exact Hc. f_equal. exact IH.
Qed.
Corollary decode_utf8 s : forallb is_unit s = true -> utf8_decode (utf8 s) = scrub s.
Proof. intros. rewrite <- (app_nil_r (utf8 s)), decode_utf8_app by assumption. apply app_nil_r. Qed.
Corollary decode_utf8_valid_app s t : valid16 s = true -> utf8_decode (utf8 s ++ t) = s ++ utf8_decode t.
Proof. intros. rewrite decode_utf8_app, scrub_valid by auto using valid16_unit. reflexivity. Qed.
Corollary decode_utf8_valid s : valid16 s = true -> utf8_decode (utf8 s) = s.
Proof. intros. rewrite decode_utf8, scrub_valid by auto using valid16_unit. reflexivity. Qed.

(* strong induction over byte strings, following the decoder *)
Lemma length_ind (P : list Z -> Prop) : (forall l, (forall m, (length m < length l)%nat -> P m) -> P l) -> forall l, P l.
Proof.
  intros H l. assert (forall n m, (length m <= n)%nat -> P m) as A; [|exact (A _ _ (Nat.le_refl _))].
  induction n; intros m Hm; apply H; intros; [lia|]. apply IHn. lia.
Qed.

Ltac dec_cases :=
  repeat match goal with
  | |- context [match ?r with [] => _ | _ :: _ => _ end] => destruct r
  | |- context [if ?x then _ else _] => destruct x eqn:?
  end.

Theorem decode_length bs : (length (utf8_decode bs) <= length bs)%nat.
Proof.
  induction bs as [bs IH] using length_ind. destruct bs as [|b1 r]; [simpl; lia|].
  cbn [utf8_decode]. dec_cases; cbn [length];
    repeat match goal with |- context [utf8_decode ?m] =>
      let H := fresh in assert (H : (length (utf8_decode m) <= length m)%nat) by (apply IH; simpl; lia);
      generalize dependent (length (utf8_decode m)); intros end; simpl in *; lia.
Qed.

Theorem decode_nonempty bs : bs <> [] -> utf8_decode bs <> [].
Proof.
  destruct bs as [|b1 r]; [congruence|]. intros _. cbn [utf8_decode]. dec_cases; discriminate.
Qed.
