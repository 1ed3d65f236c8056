(* Encoding what was decoded. *)
From Coq Require Import ZArith List Bool String Lia ZifyBool.
From Verif.Model Require Import JavaPrim ByteBuf Utf8 Codec Ast Interp.
From Verif.Spec Require Import Bytes Buffers Wire Reading Resend.
From Verif.Proofs Require Import BytesFacts BufFacts Utf8Facts Utf8More CodecFacts CodecMore ValInd Conform TableFacts EncodeFacts FillFacts DecodeFacts RoundTrip Messages DecodeRel DecodeInv.
Import ListNotations.
Open Scope Z_scope.
Ltac Zify.zify_post_hook ::= Z.div_mod_to_equations.

(* ---- strings ---- *)
Lemma scalars_units c r : scalar_ok c -> scalars (units c ++ r) = c :: scalars r.
Proof.
  intros [H1 H2]. unfold units. destruct (Z.ltb_spec c 65536); cbn [app scalars].
  - replace (hi_sur c) with false by (unfold hi_sur; lia). replace (lo_sur c) with false by (unfold lo_sur; lia). reflexivity.
  - replace (hi_sur (55296 + (c - 65536) / 1024)) with true by (unfold hi_sur; lia).
    replace (lo_sur (56320 + (c - 65536) mod 1024)) with true by (unfold lo_sur; lia). f_equal. lia.
Qed.
Lemma utf8_scrub s : forallb is_unit s = true -> utf8 (scrub s) = utf8 s.
Proof.
  intros H. unfold utf8, scrub. f_equal. pose proof (scalars_ok s H) as F. induction F as [|c cs Hc _ IH]; auto.
  cbn [flat_map]. rewrite scalars_units by exact Hc. rewrite IH. reflexivity.
Qed.
Lemma scalars_ascii r : ascii r = true -> scalars r = r.
Proof.
  induction r as [|c r IH]; auto. intros H. apply ascii_cons in H as [Hc H]. cbn [scalars].
  replace (hi_sur c) with false by (unfold hi_sur; lia). replace (lo_sur c) with false by (unfold lo_sur; lia). f_equal. auto.
Qed.
Lemma scalars_app a r : ascii r = true -> scalars (a ++ r) = scalars a ++ r.
Proof.
  intros H. pose proof (scalars_ascii r H) as R. induction a as [|x|x y l IH1 IH2] using pair_ind; auto.
  - cbn [app scalars]. destruct (hi_sur x); [|destruct (lo_sur x); rewrite R; reflexivity].
    destruct r as [|c r]; auto. apply ascii_cons in H as [Hc H]. replace (lo_sur c) with false by (unfold lo_sur; lia). rewrite R. reflexivity.
  - change (scalars ((x :: y :: l) ++ r)) with
      (if hi_sur x then (if lo_sur y then (65536 + (x - 55296) * 1024 + (y - 56320)) :: scalars (l ++ r) else 63 :: scalars ((y :: l) ++ r))
       else if lo_sur x then 63 :: scalars ((y :: l) ++ r) else x :: scalars ((y :: l) ++ r)).
    change (scalars (x :: y :: l)) with
      (if hi_sur x then (if lo_sur y then (65536 + (x - 55296) * 1024 + (y - 56320)) :: scalars l else 63 :: scalars (y :: l))
       else if lo_sur x then 63 :: scalars (y :: l) else x :: scalars (y :: l)).
    rewrite IH1, IH2. destruct (hi_sur x), (lo_sur y), (lo_sur x); reflexivity.
Qed.
Lemma flat_ascii r : ascii r = true -> flat_map utf8_scalar r = r.
Proof. intros H. rewrite <- (scalars_ascii r H) at 1. apply (ascii_utf8 r H). Qed.
Lemma utf8_app_ascii a r : ascii r = true -> utf8 (a ++ r) = utf8 a ++ r.
Proof. intros H. unfold utf8. rewrite scalars_app by exact H. rewrite flat_map_app, (flat_ascii r H). reflexivity. Qed.
Lemma utf8_ascii_app a r : ascii r = true -> utf8 (r ++ a) = r ++ utf8 a.
Proof.
  intros H. induction r as [|c r IH]; auto. apply ascii_cons in H as [Hc H]. unfold utf8 in *. cbn [app scalars].
  replace (hi_sur c) with false by (unfold hi_sur; lia). replace (lo_sur c) with false by (unfold lo_sur; lia). cbn [flat_map].
  rewrite (IH H). unfold utf8_scalar. replace (c <? 128) with true by lia. reflexivity.
Qed.
Lemma firstn_units k s : forallb is_unit s = true -> forallb is_unit (firstn k s) = true.
Proof. rewrite !forallb_forall. intros H x Hx. apply H. rewrite <- (firstn_skipn k s). apply in_app_iff. auto. Qed.

Lemma bytes_eqb_eq a b : bytes_eqb a b = true <-> a = b.
Proof. unfold bytes_eqb. destruct (list_eq_dec Z.eq_dec a b); split; auto; discriminate. Qed.
Lemma repeat_add {A} (x : A) n m : repeat x n ++ repeat x m = repeat x (n + m).
Proof. symmetry. apply repeat_app. Qed.

Lemma fixed_reread len pad (lft : bool) s : forallb is_unit s = true -> 0 <= pad < 128 -> resendable len pad lft s = true ->
  fixed len pad lft (strip pad lft (utf8_decode (fixed len pad lft s))) = fixed len pad lft s.
Proof.
  intros Hu Hp H. unfold resendable in H. apply andb_true_iff in H as [H1 H2].
  apply existsb_exists in H1 as (k & _ & Hk). apply bytes_eqb_eq in Hk.
  set (T := firstn len (utf8 s)) in *. assert (HT : (List.length T <= len)%nat) by (unfold T; rewrite firstn_length; lia).
  set (t := scrub (firstn k s)). assert (Et : utf8 t = T) by (unfold t; rewrite utf8_scrub; auto using firstn_units).
  assert (Dec : forall r, utf8_decode (T ++ r) = t ++ utf8_decode r) by (intros r; rewrite <- Hk; apply decode_utf8_app; auto using firstn_units).
  assert (Dec0 : utf8_decode T = t) by (rewrite <- (app_nil_r T), Dec; apply app_nil_r).
  assert (As : forall n, ascii (repeat pad n) = true) by (intros; apply ascii_repeat; lia).
  destruct (strip_split pad lft t) as (j & Ej & Hj). set (t' := strip pad lft t) in *.
  destruct lft.
  - cbn [negb orb] in H2. assert (s <> []) by (intros ->; unfold T in H2; unfold some_text in H2; destruct len; discriminate).
    assert (F : fixed len pad true s = repeat pad (len - List.length T) ++ T).
    { unfold fixed. fold T. rewrite Z.mod_small by lia. destruct s; [congruence|reflexivity]. }
    assert (UT : T = repeat pad j ++ utf8 t') by (rewrite <- Et, Ej; apply utf8_ascii_app; auto).
    rewrite F, ascii_decode_app, Dec0 by auto. unfold strip at 1. rewrite drop_run_repeat. change (drop_run pad t) with t'.
    assert (Ne : t' <> []).
    { intros Z0. rewrite Z0 in UT. change (utf8 []) with (@nil Z) in UT. rewrite app_nil_r in UT. unfold some_text in H2. fold T in H2. rewrite UT in H2.
      apply existsb_exists in H2 as (x & Hx & H2). apply repeat_spec in Hx. lia. }
    unfold fixed. rewrite firstn_all2 by (rewrite UT, app_length, repeat_length in HT; lia). rewrite Z.mod_small by lia.
    replace (match t' with [] => [] | _ :: _ => repeat pad (len - List.length (utf8 t')) ++ utf8 t' end) with (repeat pad (len - List.length (utf8 t')) ++ utf8 t') by (destruct t'; [congruence|reflexivity]).
    rewrite UT at 2. rewrite app_assoc, repeat_add. f_equal. f_equal. rewrite UT, app_length, repeat_length in HT |- *. lia.
  - assert (F : fixed len pad false s = T ++ repeat pad (len - List.length T)) by (unfold fixed; fold T; rewrite Z.mod_small by lia; reflexivity).
    assert (UT : T = utf8 t' ++ repeat pad j) by (rewrite <- Et, Ej; apply utf8_app_ascii; auto).
    rewrite F, Dec, ascii_decode by auto. 
    replace (strip pad false (t ++ repeat pad (len - List.length T))) with t'
      by (unfold strip; rewrite rev_app_distr, rev_repeat, drop_run_repeat; reflexivity).
    unfold fixed. rewrite firstn_all2 by (rewrite UT, app_length, repeat_length in HT; lia). rewrite Z.mod_small by lia.
    rewrite UT at 1. rewrite <- app_assoc, repeat_add. f_equal. f_equal. rewrite UT, app_length, repeat_length in HT |- *. lia.
Qed.

(* ---- messages ---- *)
Lemma all2_impl {A B} (p q : A -> B -> bool) l m : (forall a b, p a b = true -> q a b = true) -> all2 p l m = true -> all2 q l m = true.
Proof.
  intros H. revert m. induction l as [|a l IH]; intros [|b m]; auto. cbn [all2]. intros Q. apply andb_true_iff in Q as [Q1 Q2]. apply andb_true_iff. auto.
Qed.
Section Resend.
  Variable C : list (string * class_def).
  Variable Y : layouts.
  Hypothesis HC : conforms C Y.
  Variable E : env.
  Notation ser := (ser Y).
  Notation absorb := (absorb Y).
  Notation par := (parsable Y (factory E)).
  Notation fill := (fill_in Y (checksum E)).
  Notation fill_fields := (fill_fields Y E).
  Notation fill_list := (fill_list Y E).
  Notation typed0 := (typed0 C).
  Notation fine := (all_strings resendable (fun _ => true) Y).

  Lemma fine_fix x len pad lft : fine x (WFix len pad lft) = resendable (Z.to_nat len) pad lft (text x).
  Proof. destruct x; reflexivity. Qed.
  Lemma str_wire x w : typed0 x w -> (exists n o, w = WDyn n o) \/ (exists len pad lft, w = WFix len pad lft) -> typed C x TStr = true.
  Proof. intros [->|H] [(n & o & ->)|(len & pad & lft & ->)]; auto. Qed.

  Definition again (a x : val) (w : wire) : Prop :=
    typed0 a w /\ (a = VNull -> typed C x (wire_type w) = true -> typed C VNull (wire_type w) = true) /\ complete Y a w = true /\ (nesting a <= nesting x)%nat /\ forall pre, ser (fill pre a w) w = ser (fill pre x w) w.
  Lemma again_same x w : typed0 x w -> complete Y x w = true -> again x x w.
  Proof. intros. split; auto. split; [intros ->; auto|]. repeat split; auto. Qed.

  Lemma again_fix old x len pad lft : (0 <? len) && ok_pad pad = true -> typed0 x (WFix len pad lft) ->
    fine x (WFix len pad lft) = true -> again (absorb old x (WFix len pad lft)) x (WFix len pad lft).
  Proof.
    intros Hok Ht Hf. apply str_wire in Ht; [|right; eauto]. rewrite absorb_fix. rewrite fine_fix in Hf. unfold again.
    apply andb_true_iff in Hok as [_ Hok]. unfold ok_pad in Hok. apply andb_true_iff in Hok as [P1 P2]. apply Z.leb_le in P1. apply Z.ltb_lt in P2.
    pose proof (text_units C x Ht) as Hu.
    assert (U : forallb is_unit (reread len pad lft (text x)) = true).
    { unfold reread. apply strip_units. apply decode_units. apply fixed_bytes. exact Hu. }
    split; [right; exact U|]. split; [discriminate|]. split; [reflexivity|]. split; [cbn [nesting]; lia|]. intros pre.
    transitivity (ser x (WFix len pad lft)); [|destruct (typed_str C x Ht) as [->|(s & -> & _)]; reflexivity].
    rewrite (ser_fix' C Y x len pad lft Ht). cbn [fill_in Wire.ser]. apply fixed_reread; auto.
  Qed.
  Lemma again_dyn old x n o : typed0 x (WDyn n o) -> old = VNull -> again (absorb old x (WDyn n o)) x (WDyn n o) \/ text x = [].
  Proof.
    intros Ht ->. apply str_wire in Ht; [|left; eauto]. rewrite absorb_dyn. destruct (text x) as [|c s] eqn:Ex; [right; auto|left].
    destruct (typed_str C x Ht) as [->|(s' & -> & Hu)]; [discriminate Ex|]. cbn [text] in Ex. subst s'. set (s' := c :: s) in *.
    rewrite (decode_utf8 s' Hu). split.
    - right. change (forallb is_unit (scrub s') = true). rewrite <- (decode_utf8 s' Hu). apply decode_units. apply utf8_bytes. exact Hu.
    - split; [discriminate|]. split; [reflexivity|]. split; [cbn [nesting]; lia|]. intros pre. cbn [fill_in Wire.ser]. rewrite utf8_scrub by exact Hu. reflexivity.
  Qed.

  Lemma again_fields fs : forall seen L,
    Forall (fun fv => forall old w, ok_field Y w = true -> typed0 (snd fv) w -> fresh old w -> par (snd fv) w = true ->
              fine (snd fv) w = true -> again (absorb old (snd fv) w) (snd fv) w) fs ->
    ok_fields Y seen L = true -> fields_ok C fs L = true ->
    all2 (fun fv fw => par (snd fv) (snd fw)) fs L = true ->
    all2 (fun fv fw => fine (snd fv) (snd fw)) fs L = true ->
    let r := absorb_fields Y fs L (blank L) in
    fields_ok C r L = true /\ all2 (fun fv fw => complete Y (snd fv) (snd fw)) r L = true
    /\ (max_of (fun fv => nesting (snd fv)) r <= max_of (fun fv => nesting (snd fv)) fs)%nat
    /\ forall pre, ser_fields Y (fill_fields pre r L) L = ser_fields Y (fill_fields pre fs L) L.
  Proof.
    induction fs as [fs IHfs] using length_ind2. intros seen L IH Hok Hfs Hp Hf.
    destruct fs as [|[f x] fs]; [destruct L; [|discriminate]; cbn; repeat split; auto|].
    destruct L as [|[g w] L]; [discriminate|]. apply fields_ok_cons in Hfs as (-> & Hx & Hfs).
    inversion IH as [|? ? IHx IH']; subst. cbn [all2 snd] in Hp, Hf, IHx. apply andb_true_iff in Hp as [Hpx Hp]. apply andb_true_iff in Hf as [Hfx Hf].
    pose proof (ok_field_of Y _ _ _ _ Hok) as (_ & Hw & Hok' & _).
    destruct (IHx (blank_val w) w Hw (or_intror Hx) (fresh_blank w) Hpx Hfx) as (A1 & A2 & A3 & A4 & A5).
    set (a := absorb (blank_val w) x w) in *.
    assert (Ta : typed C a (wire_type w) = true) by (destruct A1 as [A1|A1]; auto; rewrite A1 in *; exact (A2 eq_refl Hx)).
    destruct (IHfs fs ltac:(simpl; lia) _ L IH' Hok' Hfs Hp Hf) as (R1 & R2 & R3 & R4).
    cbn [blank map absorb_fields fst snd]. fold a. fold (blank L). set (r := absorb_fields Y fs L (blank L)) in *. cbv zeta.
    split; [unfold fields_ok in *; cbn [forall2b fst snd]; rewrite String.eqb_refl, Ta; exact R1|].
    split; [cbn [all2 snd]; rewrite A3; exact R2|]. split; [cbn [max_of snd]; lia|]. intros pre.
    destruct (simple_wire w) eqn:Hs.
    - rewrite !fill_simple by exact Hs. unfold ser_fields in *. cbn [concat2 snd]. rewrite A5, R4. reflexivity.
    - destruct w; try discriminate Hs.
      + apply (ok_len_body Y) in Hok as (-> & h & k & L' & -> & Hok). destruct fs as [|[h' y] fs]; [discriminate|].
        apply fields_ok_cons in Hfs as (-> & Hyt & Hfs). inversion IH' as [|? ? Hy IH'']; subst. cbn [snd] in Hy.
        cbn [all2 snd] in Hp, Hf. apply andb_true_iff in Hp as [Hpy Hp]. apply andb_true_iff in Hf as [Hfy Hf].
        destruct (Hy VNull (WBody k) eq_refl (or_intror Hyt) I Hpy Hfy) as (_ & _ & _ & _ & B5).
        destruct (IHfs fs ltac:(simpl; lia) _ L' IH'' Hok Hfs Hp Hf) as (_ & _ & _ & R4').
        unfold r. cbn [blank map absorb_fields fst snd blank_val]. fold (blank L'). cbn [EncodeFacts.fill_fields]. unfold ser_fields in *. cbn [concat2 snd].
        rewrite B5, R4'. reflexivity.
      + cbn [EncodeFacts.fill_fields]. unfold ser_fields in *. cbn [concat2 snd]. assert (Q : a = x) by (unfold a; destruct x; reflexivity). rewrite Q, R4. reflexivity.
  Qed.

  Lemma again_all x : forall old w, ok_field Y w = true -> typed0 x w -> fresh old w -> par x w = true -> fine x w = true -> again (absorb old x w) x w.
  Proof.
    induction x as [|z|z|s|l IH|c fs IH] using val_ind2; intros old w Hok Ht Hf Hp Hr.
    - destruct w; try discriminate Hp; try (apply again_same; auto; fail); try (apply again_fix; auto; fail).
      + cbn in Hf. subst old. apply again_same; auto.
      + cbn in Hf. subst old. apply again_same; auto.
    - pose proof Ht as Ht'. destruct Ht' as [Ht'|Ht']; [discriminate|]. destruct w; try discriminate Ht'; apply again_same; auto.
    - pose proof Ht as Ht'. destruct Ht' as [Ht'|Ht']; [discriminate|]. destruct w; try discriminate Ht'; apply again_same; auto.
    - pose proof Ht as Ht'. destruct Ht' as [Ht'|Ht']; [discriminate|]. destruct w; try discriminate Ht'; try (apply again_same; auto; fail); try (apply again_fix; auto; fail).
      cbn in Hf. subst old. destruct (again_dyn VNull (VStr s) n o Ht eq_refl) as [A|A]; auto. cbn in A. subst s. cbn.
      split; [left; auto|]. split; [auto|]. split; [auto|]. split; [auto|]. intros pre. cbn [fill_in Wire.ser]. symmetry. apply app_nil_r.
    - destruct (list_wire C l w Ht) as (n & o & w' & ->). rewrite absorb_list. destruct l as [|x0 l0].
      { cbn in Hf. subst old. split; [left; auto|]. split; [auto|]. split; [auto|]. split; [cbn; lia|]. intros pre. cbn [fill_in Wire.ser]. symmetry. apply app_nil_r. }
      set (l := x0 :: l0) in *. clearbody l. apply typed0_list in Ht.
      cbn [ok_field] in Hok. apply andb_true_iff in Hok as [_ Hok].
      cbn [parsable] in Hp. apply andb_true_iff in Hp as [_ Hp]. cbn [all_strings] in Hr.
      assert (A : forallb (fun x => is_null x || typed C x (wire_type w')) (flat_map (kept Y w') l) = true
                  /\ forallb (fun x => complete Y x w') (flat_map (kept Y w') l) = true
                  /\ (max_of nesting (flat_map (kept Y w') l) <= max_of nesting l)%nat
                  /\ List.length (flat_map (kept Y w') l) = List.length l
                  /\ forall pre, flat_map (fun x => ser x w') (fill_list w' pre (flat_map (kept Y w') l)) = flat_map (fun x => ser x w') (fill_list w' pre l)).
      { revert Ht Hp Hr. clear -HC IH Hok. induction IH as [|x l Hx Hl IHl]; intros Ht Hp Hc; [repeat split; auto|].
        inversion Ht; subst. cbn [forallb] in Hp, Hc. apply andb_true_iff in Hp as [Hpx Hp]. apply andb_true_iff in Hc as [Hcx Hc].
        apply andb_true_iff in Hcx as [Hcx Hne]. destruct (IHl ltac:(assumption) Hp Hc) as (A1 & A2 & A3 & A4 & A5).
        assert (K : kept Y w' x = [absorb VNull x w']).
        { unfold DecodeFacts.kept. destruct w'; auto. destruct (text x); auto. discriminate. }
        destruct (Hx VNull w' (ok_elem_field Y w' Hok) ltac:(assumption) (fresh_null w') Hpx Hcx) as (B1 & _ & B3 & B4 & B5).
        cbn [flat_map]. rewrite K. cbn [app forallb max_of List.length EncodeFacts.fill_list flat_map]. rewrite A1, A2, A4, B3. repeat split; auto; try lia.
        - destruct B1 as [->|B1]; [reflexivity|rewrite B1, orb_true_r; reflexivity].
        - intros pre. rewrite B5, A5. reflexivity. }
      destruct A as (A1 & A2 & A3 & A4 & A5). split; [right; exact A1|]. split; [discriminate|]. split; [exact A2|]. split; [exact A3|].
      intros pre. rewrite !fill_list_eq. cbn [Wire.ser]. rewrite !fill_list_length, A4, A5. reflexivity.
    - destruct (typed0_obj C Y HC _ _ _ Ht) as (L & HL & Hfs).
      assert (Ha : absorb old (VObj c fs) w = VObj c (absorb_fields Y fs L (blank L))).
      { destruct (obj_wire C c fs w Ht) as [(c' & ->)|(k & ->)].
        - rewrite (absorb_obj_eq Y _ _ _ _ _ HL). cbn in Hf. subst old. reflexivity.
        - rewrite (absorb_body_eq Y _ _ _ _ _ HL). reflexivity. }
      rewrite Ha.
      assert (Hp' : par (VObj c fs) (WObj c) = true) by (destruct (obj_wire C c fs w Ht) as [(c' & ->)|(k & ->)]; exact Hp).
      assert (Hr' : fine (VObj c fs) (WObj c) = true) by (destruct (obj_wire C c fs w Ht) as [(c' & ->)|(k & ->)]; exact Hr).
      assert (Hw : is_obj_wire w = true) by (destruct (obj_wire C c fs w Ht) as [(c' & ->)|(k & ->)]; reflexivity).
      cbn [parsable all_strings] in Hp', Hr'. rewrite HL in Hp', Hr'.
      assert (Hp2 : all2 (fun fv fw => par (snd fv) (snd fw)) fs L = true).
      { revert Hp'. apply all2_impl. intros [f x] [g u] H. cbn [snd] in *. apply andb_true_iff in H as [H _]. exact H. }
      destruct (again_fields fs [] L IH (conforms_ok C Y c L HC HL) Hfs Hp2 Hr') as (R1 & R2 & R3 & R4). set (r := absorb_fields Y fs L (blank L)) in *.
      destruct (typed_intro' C Y HC c c r L HL R1) as [T1 T2].
      split; [right; destruct (obj_wire C c fs w Ht) as [(c' & ->)|(k & ->)]; [|exact T2]|].
      { destruct Ht as [Ht|Ht]; [discriminate|]. cbn [wire_type typed] in Ht. apply andb_true_iff in Ht as [Ht _]. apply String.eqb_eq in Ht. subst c'. exact T1. }
      split; [discriminate|]. split; [cbn [complete]; rewrite HL; exact R2|]. split; [cbn [nesting]; lia|].
      intros pre. rewrite !(fill_obj_eq _ _ _ _ _ _ _ HL), !(ser_obj_eq _ _ _ _ _ Hw HL). apply R4.
  Qed.
End Resend.

Lemma forget_strings pf pd Y v : forall w, all_strings pf pd Y (forget Y v w) w = all_strings pf pd Y v w.
Proof.
  induction v as [|z|z|s|l IH|c fs IH] using val_ind2; intros w; try reflexivity.
  - destruct w; try reflexivity. cbn [forget all_strings]. induction IH as [|x l Hx Hl IHl]; auto. cbn [map forallb]. rewrite Hx, IHl.
    f_equal. f_equal. destruct w; auto. destruct x; auto. cbn. destruct (find c Y); reflexivity.
  - destruct (find c Y) as [L|] eqn:HL; [|cbn [forget]; rewrite HL; reflexivity].
    rewrite (forget_obj_eq Y _ _ _ _ HL).
    assert (A : all2 (fun fv fw => all_strings pf pd Y (snd fv) (snd fw)) (forget_fields Y fs L) L = all2 (fun fv fw => all_strings pf pd Y (snd fv) (snd fw)) fs L).
    { clear HL. revert L. induction IH as [|[f x] fs Hx Hfs IHfs]; intros [|[g w'] L]; auto. cbn [forget_fields all2 snd] in *. rewrite IHfs. f_equal.
      destruct w'; cbn [forget_field]; auto; destruct x; reflexivity. }
    destruct w; cbn [all_strings text]; rewrite ?HL; auto.
Qed.
Lemma fill_strings pf pd Y E pre v w : all_strings pf pd Y (fill_in Y (checksum E) pre v w) w = all_strings pf pd Y v w.
Proof. rewrite <- forget_strings, fill_forget, forget_strings. reflexivity. Qed.

Lemma strings_impl pf pd qf qd Y v : (forall len pad lft s, pf len pad lft s = true -> qf len pad lft s = true) -> (forall s, pd s = true -> qd s = true) ->
  forall w, all_strings pf pd Y v w = true -> all_strings qf qd Y v w = true.
Proof.
  intros Hf Hd. induction v as [|z|z|s|l IH|c fs IH] using val_ind2; intros w; try (destruct w; cbn [all_strings]; auto; fail).
  - destruct w; cbn [all_strings]; auto. induction IH as [|x l Hx Hl IHl]; auto. cbn [forallb]. intros H. apply andb_true_iff in H as [H1 H2]. apply andb_true_iff in H1 as [H1 H3].
    rewrite (Hx w H1), H3. cbn [andb]. exact (IHl H2).
  - assert (A : forall L : layout, all2 (fun fv fw => all_strings pf pd Y (snd fv) (snd fw)) fs L = true -> all2 (fun fv fw => all_strings qf qd Y (snd fv) (snd fw)) fs L = true).
    { induction IH as [|[f x] fs Hx Hfs IHfs]; intros [|[g w'] L]; auto. cbn [all2 snd] in *. intros H. apply andb_true_iff in H as [H1 H2]. rewrite (Hx w' H1). exact (IHfs L H2). }
    destruct w; cbn [all_strings text]; auto; destruct (find c Y); auto.
Qed.
Lemma ascii_resendable len pad lft s : ascii_some len pad lft s = true -> resendable len pad lft s = true.
Proof.
  unfold ascii_some, resendable. intros H. apply andb_true_iff in H as [H1 H2]. apply andb_true_iff. split.
  - apply existsb_exists. exists (Nat.min len (List.length s)). split; [apply in_seq; lia|]. apply bytes_eqb_eq. rewrite !ascii_utf8 by auto using ascii_firstn.
    destruct (Nat.le_ge_cases len (List.length s)); [rewrite Nat.min_l by lia; reflexivity|rewrite Nat.min_r, !firstn_all2 by lia; reflexivity].
  - destruct lft; auto. unfold some_text. rewrite ascii_utf8 by exact H1. exact H2.
Qed.

Theorem reencode C Y (HC : conforms C Y) E (HE : classes E = C) d d2 c v b v1 b1 bs b2 rest :
  object_of E c v = true -> buf_wf b = true -> encode E d v b = (None, v1, b1) ->
  parsable Y (factory E) v (WObj c) = true -> all_strings resendable (fun _ => true) Y v (WObj c) = true -> (nesting v <= d2)%nat ->
  appended b bs b1 -> buf_wf b2 = true -> readable b2 = bs ++ rest ->
  exists v2 b3, decode E d2 (new_obj E c) b2 = (None, v2, b3) /\
    forall d3 b4, (nesting v <= d3)%nat -> buf_wf b4 = true -> readable b4 = readable b -> fits b4 (List.length bs) ->
    exists v3 b5, encode E d3 v2 b4 = (None, v3, b5) /\ appended b4 bs b5.
Proof.
  intros Hv Hb He Hp Hf Hn A Hb2 Hr.
  destruct (encoded_facts C Y HC E HE d c v b v1 b1 Hv Hb He) as (Hv1 & _ & Hn1 & _ & A1 & W & E1).
  assert (bs = ser Y v1 (WObj c)) as -> by (pose proof (app_content _ _ _ A) as Q; rewrite (app_content _ _ _ A1) in Q; apply app_inv_head in Q; auto).
  assert (Hp1 : parsable Y (factory E) v1 (WObj c) = true) by (rewrite E1, fill_parsable; exact Hp).
  assert (Hf1 : all_strings resendable (fun _ => true) Y v1 (WObj c) = true) by (rewrite E1, fill_strings; exact Hf).
  destruct (decode_bytes C Y HC E HE d2 c v1 (new_obj E c) b2 rest Hv1 (new_object C Y HC E HE c v1 Hv1) Hp1 ltac:(lia) Hb2 Hr) as (b3 & D & _).
  exists (absorb Y (new_obj E c) v1 (WObj c)), b3. split; [exact D|]. intros d3 b4 Hn3 Hb4 Hr4 Hfit.
  rewrite (absorb_new C Y HC E HE c v1 Hv1) in *.
  destruct (object_shape C E HE c v1 Hv1) as (fs1 & Ev1 & Ht1).
  destruct (again_all C Y HC E v1 VNull (WObj c) (known_class C Y HC E HE c v1 Hv1) (or_intror Ht1) eq_refl Hp1 Hf1) as (T & _ & Cm & Ne & Se).
  set (v2 := absorb Y VNull v1 (WObj c)) in *.
  assert (Ho2 : object_of E c v2 = true).
  { destruct T as [T|T]; [rewrite T in Cm; discriminate Cm|]. cbn [wire_type] in T. destruct (typed_tobj C v2 c T) as [Q|(fs & Q)]; [rewrite Q in Cm; discriminate Cm|].
    rewrite Q in *. apply (object_intro C E HE). exact T. }
  assert (S2 : ser Y (fill_in Y (checksum E) (readable b4) v2 (WObj c)) (WObj c) = ser Y v1 (WObj c)) by (rewrite Se, Hr4, E1, fill_idem; reflexivity).
  destruct (proj2 (encode_returns_iff C Y HC E HE d3 c v2 b4 Ho2 Hb4)) as (v3 & b5 & He3).
  { split; [exact Cm|]. split; [lia|]. rewrite S2. exact Hfit. }
  exists v3, b5. split; [exact He3|]. destruct (encoded_facts C Y HC E HE d3 c v2 b4 v3 b5 Ho2 Hb4 He3) as (_ & _ & _ & _ & A3 & _ & E3).
  rewrite E3, S2 in A3. exact A3.
Qed.
