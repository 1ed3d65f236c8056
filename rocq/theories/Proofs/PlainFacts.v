(* Reading a message back from its text. *)
From Coq Require Import ZArith List Bool String Ascii Lia.
From Verif.Model Require Import JavaPrim ByteBuf Utf8 Ast Interp Show.
From Verif.Spec Require Import Bytes Buffers Wire Reading Layouts Equality Text Plain.
From Verif.Proofs Require Import ValInd BufFacts Conform TableFacts DecodeFacts Messages EqualFacts Decimals TextFacts.
Import ListNotations.
Open Scope Z_scope.

Definition unmarked (s : list Z) : Prop := existsb mark s = false.
Definition stop (s : list Z) : Prop := match s with [] => True | c :: _ => mark c = true end.
Lemma munch a : forall b r s, unmarked a -> unmarked b -> stop r -> stop s -> a ++ r = b ++ s -> a = b /\ r = s.
Proof.
  unfold unmarked. induction a as [|x a IH]; intros [|y b] r s Ha Hb Hr Hs H; cbn [app existsb] in *; auto.
  - subst r. cbn [stop] in Hr. rewrite Hr in Hb. discriminate.
  - subst s. cbn [stop] in Hs. rewrite Hs in Ha. discriminate.
  - injection H as -> H. apply orb_false_iff in Ha as [_ Ha]. apply orb_false_iff in Hb as [_ Hb]. destruct (IH b r s Ha Hb Hr Hs H) as [-> ->]. auto.
Qed.
Lemma letters_inj s : forall t, letters s = letters t -> s = t.
Proof.
  unfold letters. induction s as [|a s IH]; intros [|b t] H; try discriminate; auto. cbn in H. injection H as H1 H2. f_equal; [|apply IH; exact H2].
  apply N2Z.inj in H1. rewrite <- (ascii_N_embedding a), <- (ascii_N_embedding b), H1. reflexivity.
Qed.
Lemma digits_unmarked l : Forall digit l -> unmarked l.
Proof.
  unfold unmarked. induction 1 as [|c l Hc _ IH]; [reflexivity|]. cbn [existsb]. rewrite IH, orb_false_r. unfold digit in Hc. unfold mark.
  rewrite !(proj2 (Z.eqb_neq _ _)) by lia. reflexivity.
Qed.
Lemma decimal_cases z : - 2 ^ 63 <= z < 2 ^ 63 -> exists l, canonical l /\ (decimal z = l /\ value l = z \/ decimal z = 45 :: l /\ value l = - z).
Proof.
  intros H. rewrite <- show_int_decimal by exact H. unfold show_int. assert (B : 2 ^ 63 < 10 ^ Z.of_nat 64) by (vm_compute; reflexivity). destruct (Z.ltb_spec z 0).
  - destruct (show_digits_ok 64 (- z) []) as (l & -> & Hc & Hv); [lia|lia|]. rewrite app_nil_r. eauto.
  - destruct (show_digits_ok 64 z []) as (l & -> & Hc & Hv); [lia|lia|]. rewrite app_nil_r. eauto.
Qed.
Lemma canonical_head l : canonical l -> exists c r, l = c :: r /\ digit c.
Proof. intros [Hd [->|(c & r & -> & _)]]; [exists 48, []; split; [reflexivity|unfold digit; lia]|]. inversion Hd; eauto. Qed.
Lemma decimal_unmarked z : - 2 ^ 63 <= z < 2 ^ 63 -> unmarked (decimal z) /\ exists c r, decimal z = c :: r /\ c < 58.
Proof.
  intros H. destruct (decimal_cases z H) as (l & Hc & [[-> _]|[-> _]]).
  - split; [apply digits_unmarked, Hc|]. destruct (canonical_head l Hc) as (c & r & -> & D). exists c, r. split; auto. unfold digit in D. lia.
  - split; [change (unmarked (45 :: l)) with (unmarked l); apply digits_unmarked, Hc|]. exists 45, l. split; auto. lia.
Qed.
Lemma decimal_inj z y : - 2 ^ 63 <= z < 2 ^ 63 -> - 2 ^ 63 <= y < 2 ^ 63 -> decimal z = decimal y -> z = y.
Proof.
  intros Hz Hy H. destruct (decimal_cases z Hz) as (l & Hl & [[E1 V1]|[E1 V1]]), (decimal_cases y Hy) as (m & Hm & [[E2 V2]|[E2 V2]]); rewrite E1, E2 in H.
  - subst m. lia.
  - exfalso. destruct (canonical_head l Hl) as (c & r & -> & D). injection H as -> _. unfold digit in D. lia.
  - exfalso. destruct (canonical_head m Hm) as (c & r & -> & D). injection H as <- _. unfold digit in D. lia.
  - injection H as ->. lia.
Qed.

(* what printing a float or a double does: no comma and no bracket, never empty, never "null", and the number (up to NaN) can be told from the text *)
Record faithful (P : printers) : Prop := {
  f_shape : forall z, unmarked (show_float P z) /\ show_float P z <> [] /\ show_float P z <> letters "null";
  d_shape : forall z, unmarked (show_double P z) /\ show_double P z <> [] /\ show_double P z <> letters "null";
  f_inj : forall y z, 0 <= y < 2 ^ 32 -> 0 <= z < 2 ^ 32 -> show_float P y = show_float P z -> y = z \/ nan_float y = true /\ nan_float z = true;
  d_inj : forall y z, 0 <= y < 2 ^ 64 -> 0 <= z < 2 ^ 64 -> show_double P y = show_double P z -> y = z \/ nan_double y = true /\ nan_double z = true
}.

Section Plain.
  Variable C : list (string * class_def).
  Variable Y : layouts.
  Hypothesis HC : conforms C Y.
  Variable P : printers.
  Hypothesis HP : faithful P.
  Variable M : string -> bool.
  Hypothesis HM : forall c, M c = true -> unmarked (letters (simple_name c)).
  Hypothesis HU : forall c c', M c = true -> M c' = true -> simple_name c = simple_name c' -> c = c'.
  Notation txt := (text Y (show_float P) (show_double P)).

  Definition head_ok (v : val) (w : wire) : Prop := forall r s, txt v w ++ r <> 93 :: s.
  Definition reads (v : val) : Prop := forall w u il r s, ok_field Y w = true -> (il = true -> ok_elem Y w = true) ->
    v = VNull \/ typed C v (wire_type w) = true -> u = VNull \/ typed C u (wire_type w) = true ->
    plain M il v = true -> plain M il u = true -> stop r -> stop s -> txt v w ++ r = txt u w ++ s -> one_nan Y v w = one_nan Y u w /\ r = s.

  Lemma obj_text c fs w L : find c Y = Some L -> M c = true -> exists a t, txt (VObj c fs) w = (a ++ [32]) ++ 91 :: t /\ a = letters (simple_name c) /\ unmarked (a ++ [32])
    /\ t = join (letters ", ") (text_fields Y P fs L) ++ letters "]".
  Proof.
    intros HL Hm. exists (letters (simple_name c)). eexists. rewrite (text_obj_eq Y P c fs w L HL). split; [|split; [reflexivity|split]]; [|  |reflexivity].
    - rewrite <- app_assoc. reflexivity.
    - unfold unmarked. rewrite existsb_app. rewrite (HM c Hm). reflexivity.
  Qed.
  Lemma phrase_unmarked s : phrase s = true -> unmarked s /\ s <> letters "null".
  Proof.
    destruct s as [|c s]; [split; [reflexivity|discriminate]|]. unfold phrase, word. cbn [andb]. intros H. apply andb_true_iff in H as [H1 H2]. split.
    - unfold unmarked. destruct (existsb mark (c :: s)); [discriminate|reflexivity].
    - intros Q. destruct (list_eq_dec Z.eq_dec (c :: s) (letters "null")); [discriminate|contradiction].
  Qed.
  Lemma word_phrase s : word s = true -> phrase s = true.
  Proof. destruct s; auto. Qed.
  (* nothing that can be null reads "null" *)
  Lemma null_only w u il r s : ok_field Y w = true -> u = VNull \/ typed C u (wire_type w) = true -> plain M il u = true -> stop r -> stop s ->
    letters "null" ++ r = txt u w ++ s -> u = VNull /\ r = s.
  Proof.
    intros Hok Hu Hp Hr Hs H. destruct Hu as [->|Hu]; [split; [reflexivity|]; cbn [text] in H; eapply app_inv_head; exact H|].
    assert (N : unmarked (letters "null")) by reflexivity.
    destruct u as [|z|z|t|l|c fs].
    - split; [reflexivity|]. cbn [text] in H. eapply app_inv_head; exact H.
    - exfalso. cbn [text] in H. assert (R : - 2 ^ 63 <= z < 2 ^ 63).
      { destruct w; cbn [ok_field] in Hok; try (cbn in Hu; discriminate).
        - destruct (typed_int C _ n o Hok Hu) as (z' & [= <-] & Hz). eapply width_range; eauto.
        - exfalso. cbn in Hu. destruct n as [|[|[|[|[|n]]]]]; discriminate.
        - apply Nat.eqb_eq in Hok. subst n. destruct (typed_int C _ 4 o eq_refl Hu) as (z' & [= <-] & Hz). eapply (width_range 4); eauto.
        - apply Nat.eqb_eq in Hok. subst n. destruct (typed_int C _ 4 o eq_refl Hu) as (z' & [= <-] & Hz). eapply (width_range 4); eauto. }
      destruct (decimal_unmarked z R) as (_ & c & q & E & Hc). rewrite E in H. injection H as <- _. lia.
    - exfalso. cbn [text] in H. assert (D : (exists n o, w = WFlt n o /\ n = 4%nat) \/ txt (VFlt z) w = show_double P z).
      { cbn [text]. destruct w; auto. destruct n as [|[|[|[|[|n]]]]]; auto. left. eauto. }
      destruct D as [(n & o & -> & ->)|D]; [|cbn [text] in D; rewrite D in H].
      + destruct (f_shape P HP z) as (U & _ & Q). destruct (munch _ _ _ _ N U Hr Hs H) as [Q' _]. congruence.
      + destruct (d_shape P HP z) as (U & _ & Q). destruct (munch _ _ _ _ N U Hr Hs H) as [Q' _]. congruence.
    - exfalso. cbn [text] in H. assert (Q : phrase t = true) by (cbn [plain] in Hp; destruct il; auto using word_phrase).
      destruct (phrase_unmarked t Q) as [U D]. destruct (munch _ _ _ _ N U Hr Hs H) as [Q' _]. congruence.
    - exfalso. cbn [text] in H. destruct w; try (cbn in Hu; destruct n as [|[|[|[|[|n]]]]]; discriminate); try (cbn in Hu; discriminate).
    - exfalso. destruct (typed_obj_known C Y c fs _ HC Hu) as [L HL]. cbn [plain] in Hp. apply andb_true_iff in Hp as [Hm _].
      destruct (obj_text c fs w L HL Hm) as (a & t & E & _ & U & _). rewrite E, <- app_assoc in H.
      destruct (munch _ _ r ((91 :: t) ++ s) N U Hr eq_refl H) as [Q _]. assert (Q' : rev (letters "null") = rev (a ++ [32])) by (rewrite Q; reflexivity).
      rewrite rev_app_distr in Q'. cbn in Q'. discriminate.
  Qed.
  Lemma typed_kind v t : typed C v t = true ->
    match v, t with
    | VNull, (TStr | TList _ | TObj _ | TCodec) | VInt _, (TByte | TShort | TInt | TLong) | VFlt _, (TFloat | TDouble) | VStr _, TStr | VList _, TList _ | VObj _ _, (TObj _ | TCodec) => True
    | _, _ => False
    end.
  Proof. destruct v, t; cbn [typed]; intros H; try discriminate; exact I. Qed.
  Lemma int_wire w z : ok_field Y w = true -> typed C (VInt z) (wire_type w) = true -> - 2 ^ 63 <= z < 2 ^ 63.
  Proof.
    intros Hok Hu. destruct w; cbn [ok_field ok_elem] in Hok; try (cbn in Hu; discriminate).
    - destruct (typed_int C _ n o Hok Hu) as (z' & [= <-] & Hz). eapply width_range; eauto.
    - exfalso. cbn in Hu. destruct n as [|[|[|[|[|n]]]]]; discriminate.
    - apply Nat.eqb_eq in Hok. subst n. destruct (typed_int C _ 4 o eq_refl Hu) as (z' & [= <-] & Hz). eapply (width_range 4); eauto.
    - apply Nat.eqb_eq in Hok. subst n. destruct (typed_int C _ 4 o eq_refl Hu) as (z' & [= <-] & Hz). eapply (width_range 4); eauto.
  Qed.
  Lemma obj_parts fs gs L r s : Forall (fun fv => reads (snd fv)) fs -> fields_ok C fs L = true -> fields_ok C gs L = true ->
    forallb (fun fw => ok_field Y (snd fw)) L = true -> forallb (fun fv => plain M false (snd fv)) fs = true -> forallb (fun fv => plain M false (snd fv)) gs = true ->
    join (letters ", ") (text_fields Y P fs L) ++ 93 :: r = join (letters ", ") (text_fields Y P gs L) ++ 93 :: s ->
    one_fields Y fs L = one_fields Y gs L /\ r = s.
  Proof.
    intros F. revert gs L. induction F as [|[f x] fs Hx _ IH]; intros gs L Hf Hg Hok Pf Pg H.
    - destruct L; [|discriminate]. destruct gs; [|discriminate]. cbn in H. injection H as ->. auto.
    - destruct L as [|[k w] L]; [discriminate|]. destruct gs as [|[g y] gs]; [discriminate|].
      apply fields_ok_cons in Hf as (-> & Tx & Hf). apply fields_ok_cons in Hg as (-> & Ty & Hg).
      cbn [forallb snd] in Hok, Pf, Pg. apply andb_true_iff in Hok as [Hw Hok]. apply andb_true_iff in Pf as [Px Pf]. apply andb_true_iff in Pg as [Py Pg].
      cbn [one_fields text_fields snd] in *.
      assert (S : exists q, stop q /\ join (letters ", ") ((letters k ++ letters "=" ++ txt x w) :: text_fields Y P fs L) ++ 93 :: r = letters k ++ letters "=" ++ txt x w ++ q
                  /\ q = match fs with [] => 93 :: r | _ => letters ", " ++ join (letters ", ") (text_fields Y P fs L) ++ 93 :: r end).
      { destruct fs as [|[f1 x1] fs], L as [|[k1 w1] L]; try discriminate Hf; cbn [text_fields join]; eexists; (split; [|split; [|reflexivity]]); [reflexivity| |reflexivity|]; rewrite <- !app_assoc; reflexivity. }
      assert (S' : exists q, stop q /\ join (letters ", ") ((letters k ++ letters "=" ++ txt y w) :: text_fields Y P gs L) ++ 93 :: s = letters k ++ letters "=" ++ txt y w ++ q
                  /\ q = match gs with [] => 93 :: s | _ => letters ", " ++ join (letters ", ") (text_fields Y P gs L) ++ 93 :: s end).
      { destruct gs as [|[f1 x1] gs], L as [|[k1 w1] L]; try discriminate Hg; cbn [text_fields join]; eexists; (split; [|split; [|reflexivity]]); [reflexivity| |reflexivity|]; rewrite <- !app_assoc; reflexivity. }
      destruct S as (q & Hq & E1 & Q1), S' as (q' & Hq' & E2 & Q2). rewrite E1, E2 in H. apply app_inv_head in H. apply app_inv_head in H.
      destruct (Hx w y false q q' Hw ltac:(discriminate) (or_intror Tx) (or_intror Ty) Px Py Hq Hq' H) as [E ->]. rewrite E.
      destruct fs as [|p fs], gs as [|p' gs].
      + destruct L; [|discriminate]. cbn [one_fields]. subst q'. split; [reflexivity|congruence].
      + destruct L; discriminate.
      + destruct L; discriminate.
      + rewrite Q1 in Q2. apply app_inv_head in Q2. destruct (IH (p' :: gs) L Hf Hg Hok Pf Pg Q2) as [-> ->]. auto.
  Qed.
  Lemma elem_head w x r : ok_elem Y w = true -> x = VNull \/ typed C x (wire_type w) = true -> plain M true x = true -> exists c t, txt x w ++ r = c :: t /\ mark c = false.
  Proof.
    intros Hok Hx Hp. assert (A : forall a b, unmarked a -> a <> [] -> exists c t, (a ++ b) ++ r = c :: t /\ mark c = false).
    { intros [|c a] b U N; [congruence|]. exists c, ((a ++ b) ++ r). split; [reflexivity|]. unfold unmarked in U. cbn [existsb] in U. apply orb_false_iff in U. tauto. }
    assert (A0 : forall a, unmarked a -> a <> [] -> exists c t, a ++ r = c :: t /\ mark c = false).
    { intros a U N. rewrite <- (app_nil_r a). apply A; auto. }
    destruct Hx as [->|Hx]; [apply A0; [reflexivity|discriminate]|]. destruct x as [|z|z|t|l|c fs].
    - apply A0; [reflexivity|discriminate].
    - cbn [text]. assert (F : ok_field Y w = true) by (destruct w; auto; discriminate). pose proof (int_wire w z F Hx) as R.
      destruct (decimal_unmarked z R) as (U & c & q & E & _). apply A0; auto. rewrite E. discriminate.
    - cbn [text]. destruct w; try (apply A0; apply (d_shape P HP z)). destruct n as [|[|[|[|[|n]]]]]; apply A0; try apply (d_shape P HP z); apply (f_shape P HP z).
    - cbn [text plain] in *. apply A0; [apply phrase_unmarked, word_phrase, Hp|]. destruct t; discriminate.
    - exfalso. pose proof (typed_kind _ _ Hx) as K. destruct w; try discriminate Hok; cbn in K; try contradiction; destruct n as [|[|[|[|[|n]]]]]; contradiction.
    - destruct (typed_obj_known C Y c fs _ HC Hx) as [L HL]. cbn [plain] in Hp. apply andb_true_iff in Hp as [Hm _].
      destruct (obj_text c fs w L HL Hm) as (a & t & -> & _ & U & _). apply A; auto. destruct a; discriminate.
  Qed.
  Lemma list_parts w l : Forall reads l -> forall m r s, ok_elem Y w = true -> forallb (fun x => is_null x || typed C x (wire_type w)) l = true ->
    forallb (fun x => is_null x || typed C x (wire_type w)) m = true -> forallb (plain M true) l = true -> forallb (plain M true) m = true ->
    join (letters ", ") (map (fun x => txt x w) l) ++ 93 :: r = join (letters ", ") (map (fun x => txt x w) m) ++ 93 :: s ->
    map (fun x => one_nan Y x w) l = map (fun x => one_nan Y x w) m /\ r = s.
  Proof.
    assert (N : forall z, is_null z || typed C z (wire_type w) = true -> z = VNull \/ typed C z (wire_type w) = true) by (intros z Hz; destruct z; auto).
    assert (S : forall x l r, exists q, stop q /\ join (letters ", ") (map (fun x => txt x w) (x :: l)) ++ 93 :: r = txt x w ++ q
                  /\ q = match l with [] => 93 :: r | _ => letters ", " ++ join (letters ", ") (map (fun x => txt x w) l) ++ 93 :: r end).
    { intros x [|y l'] r; cbn [map join]; eexists; (split; [|split; [|reflexivity]]); [reflexivity|reflexivity|reflexivity|]. rewrite <- !app_assoc. reflexivity. }
    intros F. induction F as [|x l Hx _ IH]; intros [|y m] r s Hok Tl Tm Pl Pm H.
    - cbn in H. injection H as ->. auto.
    - exfalso. cbn [forallb] in Tm, Pm. apply andb_true_iff in Tm as [Ty _]. apply andb_true_iff in Pm as [Py _]. destruct (S y m s) as (q & _ & E & _). rewrite E in H. cbn [map join app] in H.
      destruct (elem_head w y q Hok (N y Ty) Py) as (c & t & E' & K). rewrite E' in H. injection H as <- _. discriminate K.
    - exfalso. cbn [forallb] in Tl, Pl. apply andb_true_iff in Tl as [Tx _]. apply andb_true_iff in Pl as [Px _]. destruct (S x l r) as (q & _ & E & _). rewrite E in H. cbn [map join app] in H.
      destruct (elem_head w x q Hok (N x Tx) Px) as (c & t & E' & K). rewrite E' in H. injection H as -> _. discriminate K.
    - cbn [forallb] in Tl, Pl, Tm, Pm. apply andb_true_iff in Tm as [Ty Tm]. apply andb_true_iff in Pm as [Py Pm]. apply andb_true_iff in Tl as [Tx Tl]. apply andb_true_iff in Pl as [Px Pl].
      destruct (S y m s) as (q' & Hq' & E' & Q'), (S x l r) as (q & Hq & E & Q). rewrite E, E' in H.
      destruct (Hx w y true q q' ltac:(destruct w; auto; discriminate) (fun _ => Hok) (N x Tx) (N y Ty) Px Py Hq Hq' H) as [Exy ->]. cbn [map]. rewrite Exy.
      destruct l as [|x1 l], m as [|y1 m].
      + subst q'. split; [reflexivity|congruence].
      + rewrite Q in Q'. discriminate.
      + rewrite Q in Q'. discriminate.
      + rewrite Q in Q'. apply app_inv_head in Q'. destruct (IH (y1 :: m) r s Hok Tl Tm Pl Pm Q') as [-> ->]. auto.
  Qed.

  Lemma ok_fields_all : forall L seen, ok_fields Y seen L = true -> forallb (fun fw => ok_field Y (snd fw)) L = true.
  Proof. induction L as [|[f w] L IH]; intros seen H; [reflexivity|]. apply ok_field_of in H as (_ & Hw & H & _). cbn [forallb snd]. rewrite Hw. eapply IH. exact H. Qed.

  Theorem reads_all : forall v, reads v.
  Proof.
    induction v as [|z|z|t|l IH|c fs IH] using val_ind2; intros w u il r s Hok Hel Tv Tu Pv Pu Hr Hs H.
    - destruct (null_only w u il r s Hok Tu Pu Hr Hs H) as [-> ->]. auto.
    - destruct Tv as [E|Tv]; [discriminate|]. destruct Tu as [->|Tu].
      { destruct (null_only w (VInt z) il s r Hok (or_intror Tv) Pv Hs Hr (eq_sym H)); discriminate. }
      pose proof (typed_kind _ _ Tv) as K1. pose proof (typed_kind _ _ Tu) as K2. destruct u; destruct (wire_type w) eqn:W; try contradiction; rewrite <- W in *;
        pose proof (int_wire w _ Hok Tv) as R1; pose proof (int_wire w _ Hok Tu) as R2; cbn [text one_nan] in *;
        destruct (munch _ _ _ _ (proj1 (decimal_unmarked _ R1)) (proj1 (decimal_unmarked _ R2)) Hr Hs H) as [E ->]; rewrite (decimal_inj _ _ R1 R2 E); auto.
    - destruct Tv as [E|Tv]; [discriminate|]. destruct Tu as [->|Tu].
      { destruct (null_only w (VFlt z) il s r Hok (or_intror Tv) Pv Hs Hr (eq_sym H)); discriminate. }
      pose proof (typed_kind _ _ Tv) as K1. destruct w; cbn in K1; try contradiction; try (destruct n as [|[|[|[|[|n]]]]]; contradiction). cbn [ok_field ok_elem] in Hok.
      destruct (typed_flt C _ n o Hok Tv) as (x & [= <-] & Hx). destruct (typed_flt C _ n o Hok Tu) as (y & -> & Hy).
      assert (N : n = 4%nat \/ n = 8%nat) by (destruct n as [|[|[|[|[|[|[|[|[|n]]]]]]]]]; try discriminate Hok; auto).
      destruct N as [-> | ->]; cbn [text one_nan] in *.
      + destruct (munch _ _ _ _ (proj1 (f_shape P HP z)) (proj1 (f_shape P HP y)) Hr Hs H) as [E ->]. split; auto.
        destruct (f_inj P HP z y Hx Hy E) as [->|[-> ->]]; reflexivity.
      + destruct (munch _ _ _ _ (proj1 (d_shape P HP z)) (proj1 (d_shape P HP y)) Hr Hs H) as [E ->]. split; auto.
        destruct (d_inj P HP z y Hx Hy E) as [->|[-> ->]]; reflexivity.
    - destruct Tv as [E|Tv]; [discriminate|]. destruct Tu as [->|Tu].
      { destruct (null_only w (VStr t) il s r Hok (or_intror Tv) Pv Hs Hr (eq_sym H)); discriminate. }
      pose proof (typed_kind _ _ Tv) as K1. pose proof (typed_kind _ _ Tu) as K2. destruct u as [| | |t' | | ]; destruct (wire_type w) eqn:W; try contradiction; rewrite <- W in *.
      { destruct (null_only w (VStr t) il s r Hok (or_intror Tv) Pv Hs Hr (eq_sym H)); discriminate. }
      cbn [text one_nan plain] in *.
      assert (Q : phrase t = true /\ phrase t' = true) by (destruct il; auto using word_phrase). destruct Q as [Q Q'].
      destruct (munch _ _ _ _ (proj1 (phrase_unmarked t Q)) (proj1 (phrase_unmarked t' Q')) Hr Hs H) as [-> ->]. auto.
    - destruct Tv as [E|Tv]; [discriminate|]. destruct Tu as [->|Tu].
      { destruct (null_only w (VList l) il s r Hok (or_intror Tv) Pv Hs Hr (eq_sym H)); discriminate. }
      pose proof (typed_kind _ _ Tv) as K1. pose proof (typed_kind _ _ Tu) as K2. destruct w; cbn in K1; try contradiction; try (destruct n as [|[|[|[|[|n]]]]]; contradiction).
      change (wire_type (WList n o w)) with (TList (wire_type w)) in *.
      destruct (typed_list C _ _ Tv) as [?|(l' & [= <-] & Tl)]; [discriminate|]. destruct (typed_list C _ _ Tu) as [->|(m & -> & Tm)].
      { destruct (null_only (WList n o w) (VList l) il s r Hok (or_intror Tv) Pv Hs Hr (eq_sym H)); discriminate. }
      cbn [ok_field] in Hok. apply andb_true_iff in Hok as [_ Hok]. cbn [text plain one_nan] in *. rewrite <- !app_assoc in H. apply app_inv_head in H.
      destruct (list_parts w l IH m r s Hok Tl Tm Pv Pu H) as [-> ->]. auto.
    - destruct Tv as [E|Tv]; [discriminate|]. destruct Tu as [->|Tu].
      { destruct (null_only w (VObj c fs) il s r Hok (or_intror Tv) Pv Hs Hr (eq_sym H)); discriminate. }
      pose proof (typed_kind _ _ Tv) as K1. pose proof (typed_kind _ _ Tu) as K2.
      assert (D : u = VNull \/ exists c' gs, u = VObj c' gs) by (destruct u; destruct (wire_type w); try contradiction; eauto).
      destruct D as [->|(c' & gs & ->)].
      { destruct (null_only w (VObj c fs) il s r Hok (or_intror Tv) Pv Hs Hr (eq_sym H)); discriminate. }
      destruct (typed_obj_known C Y c fs _ HC Tv) as [L HL]. destruct (typed_obj_known C Y c' gs _ HC Tu) as [L' HL'].
      cbn [plain] in Pv, Pu. apply andb_true_iff in Pv as [Mc Pv]. apply andb_true_iff in Pu as [Mc' Pu].
      destruct (obj_text c fs w L HL Mc) as (a & t & E1 & A1 & U1 & T1). destruct (obj_text c' gs w L' HL' Mc') as (a' & t' & E2 & A2 & U2 & T2).
      rewrite E1, E2, <- !app_assoc in H. rewrite !(app_assoc _ [32]) in H.
      destruct (munch _ _ ((91 :: t) ++ r) ((91 :: t') ++ s) U1 U2 eq_refl eq_refl H) as [Q1 Q2]. apply app_inv_tail in Q1. subst a a'. apply letters_inj in Q1. apply (HU c c' Mc Mc') in Q1. subst c'.
      rewrite HL in HL'. injection HL' as <-. cbn [app] in Q2. injection Q2 as Q2. subst t t'. rewrite <- !app_assoc in Q2.
      destruct (obj_parts fs gs L r s IH (typed_obj C Y c fs _ L HC HL Tv) (typed_obj C Y c gs _ L HC HL Tu) (ok_fields_all L [] (conforms_ok C Y c L HC HL)) Pv Pu Q2) as [Q ->].
      rewrite !(one_obj_eq Y _ _ w L HL), Q. auto.
  Qed.
End Plain.

(* printing does not tell one NaN from another *)
Section Nan.
  Variable Y : layouts.
  Variable P : printers.
  Hypothesis HF : forall z, nan_float z = true -> show_float P z = show_float P 2143289344.
  Hypothesis HD : forall z, nan_double z = true -> show_double P z = show_double P 9221120237041090560.
  Notation txt := (text Y (show_float P) (show_double P)).
  Lemma text_one_nan : forall v w, txt (one_nan Y v w) w = txt v w.
  Proof.
    induction v as [|z|z|s|l IH|c fs IH] using val_ind2; intros w; try reflexivity.
    - cbn [one_nan]. destruct w; try reflexivity. destruct n as [|[|[|[|[|n]]]]]; destruct (nan_double z) eqn:QD; destruct (nan_float z) eqn:QF; cbn [text];
        try reflexivity; try (symmetry; apply HD; exact QD); symmetry; apply HF; exact QF.
    - cbn [one_nan]. destruct w; try reflexivity. cbn [text]. do 3 f_equal. rewrite map_map. induction IH as [|x l Hx _ IHl]; [reflexivity|]. cbn [map]. rewrite Hx, IHl. reflexivity.
    - destruct (find c Y) as [L|] eqn:HL; [|cbn [one_nan]; rewrite HL; reflexivity]. rewrite (one_obj_eq Y c fs w L HL), !(text_obj_eq Y P c _ w L HL). do 4 f_equal.
      clear HL. revert L. induction IH as [|[f x] fs Hx _ IHfs]; intros [|[g u] L]; auto. cbn [one_fields text_fields snd] in *. rewrite Hx, IHfs. reflexivity.
  Qed.
End Nan.
