(* Frames: integer fields, a length field, the body it measures, perhaps a checksum. *)
From Coq Require Import ZArith List Bool String Lia.
From Verif.Model Require Import JavaPrim ByteBuf Utf8 Codec Ast Interp.
From Verif.Spec Require Import Bytes Buffers Wire Reading.
From Verif.Proofs Require Import BytesFacts BufFacts Utf8Facts CodecFacts Conform TableFacts EncodeFacts FillFacts DecodeFacts Messages.
Import ListNotations.
Open Scope Z_scope.

Definition int_field (fw : string * wire) : bool := match snd fw with WInt n _ => ok_width n | _ => false end.
Definition int_width (w : wire) : nat := match w with WInt n _ => n | _ => O end.
Fixpoint widths (L : layout) : nat := match L with [] => O | (_, w) :: L' => (int_width w + widths L')%nat end.
(* what may follow the body *)
Definition trailer_ok (tl : layout) : bool :=
  match tl with [] => true | [(_, WSum 4 _ _)] => true | _ => false end.

Lemma name_new Y L1 : forall f w L2 seen, ok_fields Y seen (L1 ++ (f, w) :: L2) = true -> existsb (fun fw => String.eqb f (fst fw)) (seen ++ L1) = false.
Proof.
  induction L1 as [|[g u] L1 IH]; intros f w L2 seen H.
  - apply ok_field_of in H as (H & _). rewrite app_nil_r. exact H.
  - cbn [app] in H. apply ok_field_of in H as (_ & _ & H & _). specialize (IH _ _ _ _ H). rewrite <- app_assoc in IH. exact IH.
Qed.
Lemma get_skip f (a b : list (string * val)) : existsb (fun fv => String.eqb f (fst fv)) a = false -> get f (a ++ b) = get f b.
Proof.
  induction a as [|[g y] a IH]; intros H; auto. cbn [existsb fst app get] in *. apply orb_false_iff in H as [-> H]. auto.
Qed.

Section Frames.
  Variable C : list (string * class_def).
  Variable Y : layouts.
  Hypothesis HC : conforms C Y.
  Variable E : env.
  Hypothesis HE : classes E = C.
  Notation sums := (checksum E).
  Notation ser := (ser Y).

  Lemma ser_fields_app a b (A B : layout) : List.length a = List.length A ->
    ser_fields Y (a ++ b) (A ++ B) = ser_fields Y a A ++ ser_fields Y b B.
  Proof.
    revert A; induction a as [|x a IH]; intros [|y A] H; try discriminate; auto.
    unfold ser_fields in *. cbn [app concat2]. rewrite <- app_assoc. f_equal. apply IH. simpl in H; lia.
  Qed.
  Lemma fields_ok_split fs (A B : layout) : fields_ok C fs (A ++ B) = true ->
    exists a b, fs = a ++ b /\ fields_ok C a A = true /\ fields_ok C b B = true.
  Proof.
    revert fs; induction A as [|[g w] A IH]; intros fs H.
    - exists [], fs. auto.
    - destruct fs as [|[f x] fs]; [discriminate|]. apply fields_ok_cons in H as (-> & Hx & H).
      destruct (IH _ H) as (a & b & -> & Ha & Hb). exists ((g, x) :: a), b. split; auto. split; auto.
      unfold fields_ok in *. cbn [forall2b fst snd]. rewrite String.eqb_refl, Hx, Ha. reflexivity.
  Qed.
  Lemma fields_ok_length fs (L : layout) : fields_ok C fs L = true -> List.length fs = List.length L.
  Proof. apply forall2b_length. Qed.

  Lemma fill_ints hdr : forallb int_field hdr = true -> forall hfs pre r R, fields_ok C hfs hdr = true ->
    fill_fields Y E pre (hfs ++ r) (hdr ++ R) = hfs ++ fill_fields Y E (pre ++ ser_fields Y hfs hdr) r R
    /\ List.length (ser_fields Y hfs hdr) = widths hdr.
  Proof.
    induction hdr as [|[g w] hdr IH]; intros Hi hfs pre r R Hf.
    - destruct hfs; [|discriminate]. unfold ser_fields. cbn [concat2 app widths]. rewrite app_nil_r. auto.
    - destruct hfs as [|[f x] hfs]; [discriminate|]. apply fields_ok_cons in Hf as (-> & Hx & Hf).
      cbn [forallb] in Hi. apply andb_true_iff in Hi as [Hw Hi]. unfold int_field in Hw. cbn [snd] in Hw. destruct w; try discriminate Hw.
      destruct (typed_int C x n o Hw Hx) as (z & -> & Hz).
      destruct (IH Hi hfs (pre ++ number o n z) r R Hf) as [IH1 IH2].
      split.
      + cbn [app fill_fields fill_in Wire.ser]. rewrite IH1. unfold ser_fields. cbn [concat2 snd Wire.ser]. rewrite <- app_assoc. reflexivity.
      + unfold ser_fields in *. cbn [concat2 snd Wire.ser widths int_width]. rewrite app_length, number_length, IH2. reflexivity.
  Qed.

  Definition field_of (f : string) (v : val) : val := match v with VObj _ fs => get f fs | _ => VNull end.

  Theorem frame_encoded d c v b v1 b1 hdr lf o bf k tl :
    find c Y = Some (hdr ++ (lf, WLen 4 o) :: (bf, WBody k) :: tl) -> forallb int_field hdr = true -> trailer_ok tl = true ->
    object_of E c v = true -> buf_wf b = true -> encode E d v b = (None, v1, b1) ->
    exists head body tail,
      appended b (head ++ number o 4 (Z.of_nat (List.length body)) ++ body ++ tail) b1
      /\ List.length head = widths hdr /\ List.length tail = (4 * List.length tl)%nat
      /\ field_of lf v1 = VInt (Z.of_nat (List.length body))
      /\ body = ser (field_of bf v1) (WBody k)
      /\ (field_of bf v1 = VNull <-> field_of bf v = VNull)
      /\ (forall sf so alg, tl = [(sf, WSum 4 so alg)] ->
          exists z, tail = number so 4 z /\ field_of sf v1 = VInt z
            /\ match sums alg with
               | Some cs => z = wrap 32 (cs (readable b ++ head ++ number o 4 (Z.of_nat (List.length body)) ++ body))
               | None => field_of sf v = VInt z
               end).
  Proof.
    intros HL Hh Ht Hv Hb He. destruct (encoded_facts C Y HC E HE d c v b v1 b1 Hv Hb He) as (Hv1 & _ & _ & _ & A & _ & E1).
    destruct (object_shape C E HE c v Hv) as (fs & -> & Hty).
    pose proof (typed_obj C Y c fs _ _ HC HL Hty) as Hf.
    destruct (fields_ok_split _ _ _ Hf) as (hfs & r & -> & Hf1 & Hf2).
    destruct r as [|[g x] r]; [discriminate|]. apply fields_ok_cons in Hf2 as (-> & Hx & Hf2).
    destruct r as [|[g y] r]; [discriminate|]. apply fields_ok_cons in Hf2 as (-> & Hy & Hf3).
    pose proof (conforms_ok C Y c _ HC HL) as Hok.
    assert (N1 : existsb (fun fv : string * val => String.eqb lf (fst fv)) hfs = false).
    { rewrite (existsb_names lf hfs hdr) by (apply (fields_ok_names C); auto). apply (name_new Y _ _ _ _ [] Hok). }
    assert (N2 : existsb (fun fv : string * val => String.eqb bf (fst fv)) (hfs ++ [(lf, VNull)]) = false).
    { rewrite (existsb_names bf _ (hdr ++ [(lf, WLen 4 o)])) by (rewrite !map_app, (fields_ok_names C hfs hdr Hf1); reflexivity).
      apply (name_new Y (hdr ++ [(lf, WLen 4 o)]) bf (WBody k) tl []). rewrite <- app_assoc. exact Hok. }
    assert (Gl : forall z r', get lf (hfs ++ (lf, z) :: r') = z) by (intros; apply get_mid; auto).
    assert (Gb : forall z y' r', get bf (hfs ++ (lf, z) :: (bf, y') :: r') = y').
    { intros z y' r'. rewrite existsb_app in N2. apply orb_false_iff in N2 as [M1 M2]. rewrite get_skip by exact M1. cbn [existsb fst] in M2. rewrite orb_false_r in M2.
      cbn [get]. rewrite M2, String.eqb_refl. reflexivity. }
    rewrite (fill_obj_eq Y E _ _ _ _ _ HL) in E1.
    destruct (fill_ints hdr Hh hfs (readable b) ((lf, x) :: (bf, y) :: r) ((lf, WLen 4 o) :: (bf, WBody k) :: tl) Hf1) as [F1 F2].
    rewrite F1 in E1. cbn [fill_fields] in E1.
    set (head := ser_fields Y hfs hdr) in *.
    set (y' := fill_in Y sums ((readable b ++ head) ++ repeat 0 4) y (WBody k)) in *.
    set (body := ser y' (WBody k)) in *.
    set (len := Z.of_nat (List.length body)) in *.
    set (r' := fill_fields Y E _ r tl) in E1.
    exists head, body, (ser_fields Y r' tl).
    assert (Hn : y' = VNull <-> y = VNull).
    { unfold y'. destruct y; cbn [fill_in]; try (split; congruence). destruct (find c0 Y); split; discriminate. }
    assert (Lr : List.length r = List.length tl) by (apply fields_ok_length; auto).
    subst v1. cbn [field_of]. rewrite Gl, !Gb. split; [|split; [exact F2|split; [|split; [reflexivity|split; [reflexivity|split; [exact Hn|]]]]]].
    - rewrite (ser_obj_eq Y _ _ (WObj c) _ eq_refl HL) in A. rewrite ser_fields_app in A by (apply fields_ok_length; auto).
      unfold ser_fields at 2 in A. cbn [concat2 snd] in A. fold body in A. cbn [Wire.ser] in A. fold head in A. rewrite <- ?app_assoc in A. rewrite <- ?app_assoc. exact A.
    - unfold r'. clear A F1 He Hv1 Hf Hty. destruct tl as [|[sf w] tl'].
      + destruct r; [|discriminate Lr]. reflexivity.
      + destruct w; try discriminate Ht. destruct n as [|[|[|[|[|]]]]]; try discriminate Ht. destruct tl'; [|discriminate Ht]. destruct r as [|[g q] [|]]; try discriminate Lr.
        apply fields_ok_cons in Hf3 as (-> & Hq & _). destruct (typed_int C q 4 o0 eq_refl Hq) as (z & -> & Hz).
        cbn [fill_fields]. unfold ser_fields. cbn [concat2 snd]. destruct (sums alg); cbn [Wire.ser]; rewrite app_nil_r, number_length; reflexivity.
    - intros sf so alg ->. destruct r as [|[g q] [|]]; try discriminate Lr.
      apply fields_ok_cons in Hf3 as (-> & Hq & _). destruct (typed_int C q 4 so eq_refl Hq) as (z & -> & Hz).
      assert (N3 : existsb (fun fv : string * val => String.eqb sf (fst fv)) (hfs ++ [(lf, VNull); (bf, VNull)]) = false).
      { rewrite (existsb_names sf _ (hdr ++ [(lf, WLen 4 o); (bf, WBody k)])) by (rewrite !map_app, (fields_ok_names C hfs hdr Hf1); reflexivity).
        apply (name_new Y (hdr ++ [(lf, WLen 4 o); (bf, WBody k)]) sf (WSum 4 so alg) [] []). rewrite <- app_assoc. exact Hok. }
      assert (Gs : forall z1 z2 z3 r2, get sf (hfs ++ (lf, z1) :: (bf, z2) :: (sf, z3) :: r2) = z3).
      { intros. rewrite existsb_app in N3. apply orb_false_iff in N3 as [M1 M2]. rewrite get_skip by exact M1. cbn [existsb fst] in M2. rewrite orb_false_r in M2.
        apply orb_false_iff in M2 as [M2 M3]. cbn [get]. rewrite M2, M3, String.eqb_refl. reflexivity. }
      unfold r'. cbn [fill_fields]. unfold ser_fields. cbn [concat2 snd]. rewrite app_nil_r, !Gs.
      destruct (sums alg) as [cs|]; cbn [Wire.ser]; eexists; (split; [reflexivity|]); (split; [reflexivity|]).
      + rewrite <- !app_assoc. reflexivity.
      + reflexivity.
  Qed.
End Frames.
