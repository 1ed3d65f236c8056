(* toString gives the text of Spec/Text.v. *)
From Coq Require Import ZArith List Bool String Lia.
From Verif.Model Require Import JavaPrim ByteBuf Ast Interp Show.
From Verif.Spec Require Import Bytes Buffers Wire Reading Layouts Equality Text.
From Verif.Proofs Require Import ValInd BufFacts Conform TableFacts DecodeFacts Messages EqualFacts Decimals.
Import ListNotations.
Open Scope Z_scope.

(* toString mentions the simple name of the class and every field once, in declaration order, by its name *)
Definition text_ok (cd : class_def) : Prop :=
  c_tag cd = simple_name (c_name cd) /\ c_str cd = map (fun ft => (fst ft, fst ft)) (c_fields cd).

Section Text.
  Variable C : list (string * class_def).
  Variable Y : layouts.
  Hypothesis HC : conforms C Y.
  Variable E : env.
  Hypothesis HE : classes E = C.
  Hypothesis HT : forall c cd, assoc c C = Some cd -> text_ok cd.
  Variable P : printers.
  Notation txt := (text Y (show_float P) (show_double P)).

  Fixpoint text_fields (fs : list (string * val)) (L : layout) : list (list Z) :=
    match fs, L with
    | (f, x) :: fs', (_, w) :: L' => (letters f ++ letters "=" ++ txt x w) :: text_fields fs' L'
    | _, _ => []
    end.
  Lemma text_obj_eq c fs w L : find c Y = Some L ->
    txt (VObj c fs) w = letters (simple_name c) ++ letters " [" ++ join (letters ", ") (text_fields fs L) ++ letters "]".
  Proof. intros H. cbn [text]. rewrite H. reflexivity. Qed.

  Definition told (r : option (list Z)) (n d : nat) (t : list Z) : Prop := r = if Nat.leb n d then Some t else None.
  Definition okt (showo : val -> option (list Z)) (d : nat) : Prop := forall c fs w,
    typed C (VObj c fs) TCodec = true -> told (showo (VObj c fs)) (nesting (VObj c fs)) d (txt (VObj c fs) w).

  Lemma width_range n z : ok_width n = true -> in_signed (8 * Z.of_nat n) z = true -> - 2 ^ 63 <= z < 2 ^ 63.
  Proof.
    intros Hn Hz. unfold in_signed in Hz. apply andb_true_iff in Hz as [H1 H2]. apply Z.leb_le in H1. apply Z.ltb_lt in H2.
    destruct n as [|[|[|[|[|[|[|[|[|n]]]]]]]]]; try discriminate Hn; change (8 * Z.of_nat _ - 1) with 7 in * || change (8 * Z.of_nat _ - 1) with 15 in *
      || change (8 * Z.of_nat _ - 1) with 31 in * || change (8 * Z.of_nat _ - 1) with 63 in *; lia.
  Qed.
  Lemma show_leaf showo d w a : okt showo d -> (forall n o w', w <> WList n o w') -> ok_field Y w = true ->
    a = VNull \/ typed C a (wire_type w) = true -> told (show_val P showo (wire_type w) a) (nesting a) d (txt a w).
  Proof.
    intros IH Hw Hok [->|Ha]; [unfold told; cbn [show_val nesting Nat.leb text]; rewrite chars_letters; reflexivity|].
    assert (Hint : forall n o, ok_width n = true -> typed C a (wire_type (WInt n o)) = true -> told (show_val P showo (wire_type w) a) (nesting a) d (txt a w)).
    { intros n o Hn H. destruct (typed_int C a n o Hn H) as (z & -> & Hz). unfold told. cbn [show_val nesting Nat.leb text]. rewrite show_int_decimal by (eapply width_range; eauto). reflexivity. }
    assert (Hstr : typed C a TStr = true -> told (show_val P showo (wire_type w) a) (nesting a) d (txt a w)).
    { intros H. destruct (typed_str C a H) as [->|(s & -> & _)]; unfold told; cbn [show_val nesting Nat.leb text]; rewrite ?chars_letters; reflexivity. }
    assert (Hobj : typed C a TCodec = true -> told (show_val P showo (wire_type w) a) (nesting a) d (txt a w)).
    { intros H. destruct (typed_codec C a H) as [->|(c1 & fs & ->)]; [unfold told; cbn [show_val nesting Nat.leb text]; rewrite chars_letters; reflexivity|]. apply IH. exact H. }
    destruct w; cbn [ok_field ok_elem] in Hok.
    - eapply Hint; eauto.
    - destruct (typed_flt C a n o Hok Ha) as (x & -> & Hx).
      assert (N : n = 4%nat \/ n = 8%nat) by (destruct n as [|[|[|[|[|[|[|[|[|n]]]]]]]]]; try discriminate Hok; auto).
      destruct N as [-> | ->]; reflexivity.
    - auto.
    - auto.
    - apply Hobj. destruct (typed_tobj C a c Ha) as [->|(? & ->)]; auto. eapply typed_obj_codec; eauto.
    - auto.
    - exfalso. eapply Hw. reflexivity.
    - eapply (Hint 4%nat o); auto; apply Nat.eqb_eq in Hok; subst n; auto.
    - eapply (Hint 4%nat o); auto; apply Nat.eqb_eq in Hok; subst n; auto.
  Qed.

  Fixpoint show_list (showo : val -> option (list Z)) (t : ftype) (l : list val) : option (list Z) :=
    match l with
    | [] => Some []
    | x :: r => match show_val P showo t x, show_list showo t r with
                | Some a, Some b => Some (match r with [] => a | _ => a ++ chars ", " ++ b end)
                | _, _ => None
                end
    end.
  Lemma show_val_list showo t l : show_val P showo (TList t) (VList l) =
    match show_list showo t l with Some a => Some (chars "[" ++ a ++ chars "]") | None => None end.
  Proof.
    cbn [show_val]. match goal with |- match ?f l with _ => _ end = _ => assert (Q : forall l, f l = show_list showo t l) end.
    { clear l. induction l as [|x l IH]; [reflexivity|]. cbn [show_list]. rewrite <- IH. reflexivity. }
    rewrite Q. reflexivity.
  Qed.
  Lemma leb_max a b d : Nat.leb (Nat.max a b) d = Nat.leb a d && Nat.leb b d.
  Proof. destruct (Nat.leb_spec a d), (Nat.leb_spec b d), (Nat.leb_spec (Nat.max a b) d); auto; lia. Qed.

  Lemma show_any showo d w a : okt showo d -> ok_field Y w = true -> typed C a (wire_type w) = true -> told (show_val P showo (wire_type w) a) (nesting a) d (txt a w).
  Proof.
    intros IH Hok Ha. assert (D : (exists n o w', w = WList n o w') \/ forall n o w', w <> WList n o w') by (destruct w; eauto; right; discriminate).
    destruct D as [(n & o & w' & ->)|D]; [|eapply show_leaf; eauto].
    cbn [ok_field] in Hok. apply andb_true_iff in Hok as [_ Hok]. change (wire_type (WList n o w')) with (TList (wire_type w')) in *.
    destruct (typed_list C a _ Ha) as [->|(l & -> & Hl)]; [unfold told; cbn [show_val nesting Nat.leb text]; rewrite chars_letters; reflexivity|].
    rewrite show_val_list. cbn [text nesting]. unfold told.
    assert (Q : show_list showo (wire_type w') l = if Nat.leb (max_of nesting l) d then Some (join (letters ", ") (map (fun x => txt x w') l)) else None).
    { clear Ha. induction l as [|x l IHl]; [reflexivity|]. cbn [forallb] in Hl. apply andb_true_iff in Hl as [Hx Hl]. cbn [show_list max_of map].
      pose proof (show_leaf showo d w' x IH) as Q. unfold told in Q. rewrite Q; clear Q.
      2: { intros n' o' w'' ->. discriminate Hok. } 2: { destruct w'; auto; discriminate. } 2: { destruct x; auto. }
      rewrite (IHl Hl), leb_max. destruct (Nat.leb (nesting x) d), (Nat.leb (max_of nesting l) d); cbn [andb]; auto.
      destruct l as [|y l]; [reflexivity|]. cbn [map join]. rewrite chars_letters. reflexivity. }
    rewrite Q. destruct (Nat.leb _ d); [|reflexivity]. rewrite !chars_letters. reflexivity.
  Qed.

  Lemma show_all_fields showo d : okt showo d -> forall L seen fd fs first, ok_fields Y seen L = true -> map fst fd = map fst seen -> fields_ok C fs L = true ->
    show_fields P showo (types_of (seen ++ L)) first (map (fun fw => (fst fw, fst fw)) L) (fd ++ fs)
    = if Nat.leb (max_of (fun fv => nesting (snd fv)) fs) d
      then Some ((if first then [] else match L with [] => [] | _ => letters ", " end) ++ join (letters ", ") (text_fields fs L)) else None.
  Proof.
    intros IHd. induction L as [|[f w] L IH]; intros seen fd fs first Hok Nf Hf.
    - destruct fs; [|discriminate]. cbn. destruct first; reflexivity.
    - destruct fs as [|[f1 x] fs]; [discriminate|]. apply fields_ok_cons in Hf as (-> & Hx & Hf). apply ok_field_of in Hok as (Hs & Hw & Hok & _).
      cbn [map fst show_fields max_of snd]. rewrite get_mid, (type_mid f w seen L Hs) by (rewrite (existsb_names f _ seen); auto).
      pose proof (show_any showo d w x IHd Hw Hx) as Q. unfold told in Q. rewrite Q; clear Q. rewrite leb_max.
      replace (fd ++ (f, x) :: fs) with ((fd ++ [(f, x)]) ++ fs) by (rewrite <- app_assoc; reflexivity).
      replace (seen ++ (f, w) :: L) with ((seen ++ [(f, w)]) ++ L) by (rewrite <- app_assoc; reflexivity).
      rewrite (IH (seen ++ [(f, w)]) (fd ++ [(f, x)]) fs false Hok); auto.
      2: { rewrite !map_app, Nf. reflexivity. }
      destruct (Nat.leb (nesting x) d), (Nat.leb (max_of _ fs) d); cbn [andb]; auto. f_equal. rewrite !chars_letters. f_equal.
      cbn [text_fields]. destruct L as [|[g u] L].
      + destruct fs; [|discriminate]. cbn [text_fields join]. rewrite !app_nil_r. reflexivity.
      + destruct fs as [|[h y] fs]; [discriminate|]. cbn [text_fields join]. rewrite <- !app_assoc. reflexivity.
  Qed.

  Theorem show_all d : okt (jstring_of E P d) d.
  Proof.
    induction d as [|d IH]; intros c fs w Hf; unfold told.
    { cbn [nesting Nat.leb jstring_of]. reflexivity. }
    destruct (typed_obj_known C Y c fs _ HC Hf) as [L HL]. pose proof (conforms_find C Y c HC) as F. rewrite HL in F. destruct F as (cd & E1 & E0 & E2 & _).
    destruct (HT c cd E1) as [Et Es]. cbn [jstring_of]. unfold find_class. rewrite HE, E1, E2, Es, E2, Et, E0.
    replace (map (fun ft => (fst ft, fst ft)) (types_of L)) with (map (fun fw : string * wire => (fst fw, fst fw)) L) by (unfold types_of; rewrite map_map; reflexivity).
    rewrite (text_obj_eq c fs w L HL). cbn [nesting Nat.leb].
    pose proof (show_all_fields (jstring_of E P d) d IH L [] [] fs true (conforms_ok C Y c L HC HL) eq_refl (typed_obj C Y c fs _ L HC HL Hf)) as Q. cbn [app] in Q. rewrite Q; clear Q.
    destruct (Nat.leb _ d); [|reflexivity]. rewrite !chars_letters. reflexivity.
  Qed.
End Text.
