(* More on the decoder: its results are valid UTF-16; ASCII. *)
From Coq Require Import ZArith List Bool Lia ZifyBool.
From Verif.Model Require Import JavaPrim Utf8.
From Verif.Spec Require Import Bytes.
From Verif.Proofs Require Import BytesFacts BufFacts Utf8Facts.
Import ListNotations.
Open Scope Z_scope.
Ltac Zify.zify_post_hook ::= Z.div_mod_to_equations.

Lemma valid_cons c r : 0 <= c <= 65535 -> is_surrogate c = false -> valid16 r = true -> valid16 (c :: r) = true.
Proof.
  intros Hc Hs Hr. cbn [valid16]. unfold is_surrogate in Hs. rewrite is_high_spec, is_low_spec in Hs.
  destruct (hi_sur c); [discriminate|]. simpl in Hs. rewrite Hs, Hr. lia.
Qed.
Lemma valid_repl r : valid16 r = true -> valid16 (REPL :: r) = true.
Proof. intros. apply valid_cons; auto. unfold REPL; lia. Qed.
Lemma cp2_range b1 b2 : 194 <= b1 < 224 -> 0 <= cp2 b1 b2 < 2048.
Proof. intros. unfold cp2. rewrite land31, land63, lor_shl6 by lia. lia. Qed.
Lemma cp3_range b1 b2 b3 : 224 <= b1 < 240 -> 0 <= cp3 b1 b2 b3 < 65536.
Proof. intros. unfold cp3. rewrite land15, !land63, lor_shl6, lor_shl12 by lia. lia. Qed.

Lemma small_not_surrogate c : 0 <= c < 2048 -> is_surrogate c = false.
Proof. intros. unfold is_surrogate, is_high, is_low. lia. Qed.
Lemma valid_pair cp r : is_supplementary cp = true -> valid16 r = true -> valid16 (high_of cp :: low_of cp :: r) = true.
Proof.
  intros Hc Hr. unfold is_supplementary in Hc. unfold high_of, low_of. rewrite shr10, land1023.
  cbn [valid16]. replace (hi_sur ((cp - 65536) / 1024 + 55296)) with true by (unfold hi_sur; lia).
  rewrite Hr. unfold lo_sur. lia.
Qed.

Theorem decode_valid bs : bytes_ok bs -> valid16 (utf8_decode bs) = true.
Proof.
  induction bs as [bs IH] using length_ind. intros HB. destruct bs as [|b1 r]; auto.
  assert (HR : forall m, bytes_ok m -> (length m <= length r)%nat -> valid16 (utf8_decode m) = true).
  { intros m Hm Hl. apply IH; auto. simpl; lia. }
  clear IH. inversion HB as [|? ? H1 Hr]; subst. cbn [utf8_decode].
  destruct (Z.ltb_spec b1 128).
  { apply valid_cons; [lia|apply small_not_surrogate; lia|]. apply HR; auto; simpl; lia. }
  destruct ((194 <=? b1) && (b1 <? 224)) eqn:E2.
  { destruct r as [|b2 r2]; auto. destruct (is_cont b2).
    - pose proof (cp2_range b1 b2 ltac:(lia)). inversion Hr; subst.
      apply valid_cons; [lia|apply small_not_surrogate; lia|]. apply HR; auto; simpl; lia.
    - apply valid_repl, HR; auto; simpl; lia. }
  destruct ((224 <=? b1) && (b1 <? 240)) eqn:E3.
  { destruct r as [|b2 [|b3 r3]]; auto.
    - destruct (malformed3_2 b1 b2); auto. apply valid_repl, HR; auto; simpl; lia.
    - inversion Hr as [|? ? ? Hr2]; subst. inversion Hr2; subst. cbv zeta.
      destruct (malformed3 b1 b2 b3); [destruct (malformed3_2 b1 b2)|].
      + apply valid_repl, HR; auto; simpl; lia.
      + apply valid_repl, HR; auto; simpl; lia.
      + assert (T : valid16 (utf8_decode r3) = true) by (apply HR; [auto|simpl; lia]).
        destruct (is_surrogate (cp3 b1 b2 b3)) eqn:Es; [apply valid_repl; auto|].
        pose proof (cp3_range b1 b2 b3 ltac:(lia)). apply valid_cons; auto; lia. }
  destruct ((240 <=? b1) && (b1 <? 248)) eqn:E4.
  { destruct r as [|b2 [|b3 [|b4 r4]]].
    - destruct (244 <? b1); auto.
    - destruct ((244 <? b1) || malformed4_2 b1 b2); auto. apply valid_repl, HR; auto; simpl; lia.
    - inversion Hr as [|? ? ? Hr2]; subst.
      destruct ((244 <? b1) || malformed4_2 b1 b2); [apply valid_repl, HR; auto; simpl; lia|].
      destruct (negb (is_cont b3)); auto. apply valid_repl, HR; auto; simpl; lia.
    - inversion Hr as [|? ? ? Hr2]; subst. inversion Hr2 as [|? ? ? Hr3]; subst. inversion Hr3; subst. cbv zeta.
      destruct (malformed4 b2 b3 b4 || negb (is_supplementary (cp4 b1 b2 b3 b4))) eqn:Em.
      + destruct ((244 <? b1) || malformed4_2 b1 b2); [apply valid_repl, HR; auto; simpl; lia|].
        destruct (negb (is_cont b3)); apply valid_repl, HR; auto; simpl; lia.
      + apply orb_false_iff in Em as [_ Em]. apply negb_false_iff in Em.
        apply valid_pair; auto. apply HR; auto; simpl; lia. }
  apply valid_repl, HR; auto; simpl; lia.
Qed.

Lemma decode_units bs : bytes_ok bs -> forallb is_unit (utf8_decode bs) = true.
Proof. intros. apply valid16_unit, decode_valid; assumption. Qed.

(* ASCII *)
Lemma ascii_cons c s : ascii (c :: s) = true -> 0 <= c <= 127 /\ ascii s = true.
Proof. unfold ascii. cbn [forallb]. rewrite andb_true_iff. intros [? ?]. split; auto. lia. Qed.
Lemma ascii_valid s : ascii s = true -> valid16 s = true.
Proof.
  induction s as [|c s IH]; intros H; auto. apply ascii_cons in H as [Hc Hs].
  apply valid_cons; [lia|apply small_not_surrogate; lia|auto].
Qed.
Lemma ascii_utf8 s : ascii s = true -> utf8 s = s.
Proof.
  unfold utf8. induction s as [|c s IH]; intros H; auto. apply ascii_cons in H as [Hc Hs].
  cbn [scalars]. replace (hi_sur c) with false by (unfold hi_sur; lia). replace (lo_sur c) with false by (unfold lo_sur; lia).
  cbn [flat_map]. rewrite (IH Hs). unfold utf8_scalar. destruct (Z.ltb_spec c 128); [reflexivity|lia].
Qed.
Lemma ascii_decode s : ascii s = true -> utf8_decode s = s.
Proof. intros. rewrite <- (ascii_utf8 s) at 1 by assumption. apply decode_utf8_valid, ascii_valid; assumption. Qed.
Lemma ascii_decode_app s t : ascii s = true -> utf8_decode (s ++ t) = s ++ utf8_decode t.
Proof. intros. rewrite <- (ascii_utf8 s) at 1 by assumption. apply decode_utf8_valid_app, ascii_valid; assumption. Qed.
Lemma ascii_app s t : ascii (s ++ t) = ascii s && ascii t.
Proof. apply forallb_app. Qed.
Lemma ascii_repeat c n : 0 <= c <= 127 -> ascii (repeat c n) = true.
Proof. intros. unfold ascii in *. induction n; cbn [repeat forallb]; auto. rewrite IHn. lia. Qed.
Lemma ascii_firstn n s : ascii s = true -> ascii (firstn n s) = true.
Proof.
  revert n; induction s; intros [|n] H; auto. apply ascii_cons in H as [Ha Hs]. cbn [firstn].
  unfold ascii in *. cbn [forallb]. rewrite IHs by assumption. lia.
Qed.
