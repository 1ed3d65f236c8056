(* encode and decode of whole messages, put together. *)
From Coq Require Import ZArith List Bool String Lia.
From Verif.Model Require Import JavaPrim ByteBuf Utf8 Codec Ast Interp.
From Verif.Spec Require Import Bytes Buffers Wire Reading Streams.
From Verif.Proofs Require Import BytesFacts BufFacts Utf8Facts Utf8More CodecFacts ValInd Conform TableFacts EncodeFacts FillFacts DecodeFacts RoundTrip.
Import ListNotations.
Open Scope Z_scope.

Section Messages.
  Variable C : list (string * class_def).
  Variable Y : layouts.
  Hypothesis HC : conforms C Y.
  Variable E : env.
  Hypothesis HE : classes E = C.
  Notation sums := (checksum E).

  Lemma object_shape c v : object_of E c v = true -> exists fs, v = VObj c fs /\ typed C v (TObj c) = true.
  Proof.
    unfold object_of. rewrite HE. intros H. apply andb_true_iff in H as [H1 H2].
    destruct (typed_tobj C v c H2) as [->|(fs & ->)]; [discriminate|]. eauto.
  Qed.
  Lemma object_intro c fs : typed C (VObj c fs) (TObj c) = true -> object_of E c (VObj c fs) = true.
  Proof. intros H. unfold object_of. rewrite HE, H. reflexivity. Qed.

  (* total description of encode *)
  Theorem encode_total d c v b : object_of E c v = true -> buf_wf b = true ->
    let v1 := fill_in Y sums (readable b) v (WObj c) in
    match encode E d v b with
    | (None, v', b1) =>
        v' = v1 /\ appended b (ser Y v1 (WObj c)) b1 /\ buf_wf b1 = true
        /\ complete Y v (WObj c) = true /\ (nesting v <= d)%nat /\ fits b (List.length (ser Y v1 (WObj c)))
    | (Some e, _, b1) =>
        (exists bs, appended b bs b1) /\ buf_wf b1 = true
        /\ (e = NPE /\ complete Y v (WObj c) = false
            \/ e = IOOBE /\ ~ fits b (List.length (ser Y v1 (WObj c)))
            \/ e = SOE /\ (d < nesting v)%nat)
    end.
  Proof.
    intros Hv Hb. destruct (object_shape c v Hv) as (fs & -> & Ht). apply buf_wf_iff in Hb. cbv zeta.
    pose proof (enc_all C Y HC E HE d (VObj c fs) b (WObj c) eq_refl ltac:(discriminate) (typed_obj_codec _ _ _ _ Ht) Hb) as P.
    destruct (encode E d (VObj c fs) b) as [[[e|] v'] b1]; cbn [post] in P.
    - destruct P as [[W X] R]. split; auto. split; [apply buf_wf_iff; auto|exact R].
    - destruct P as (-> & A & W & Hc & Hn). split; auto. split; auto. split; [apply buf_wf_iff; auto|]. split; auto. split; auto.
      apply (wrote_fits b _ b1 Hb). split; auto.
  Qed.

  Theorem encode_returns_iff d c v b : object_of E c v = true -> buf_wf b = true ->
    (exists v1 b1, encode E d v b = (None, v1, b1)) <->
    (complete Y v (WObj c) = true /\ (nesting v <= d)%nat
     /\ fits b (List.length (ser Y (fill_in Y sums (readable b) v (WObj c)) (WObj c)))).
  Proof.
    intros Hv Hb. pose proof (encode_total d c v b Hv Hb) as P. cbv zeta in P.
    destruct (encode E d v b) as [[[e|] v'] b1].
    - split; [intros (? & ? & ?); discriminate|]. intros (H1 & H2 & H3). destruct P as (_ & _ & [[_ R]|[[_ R]|[_ R]]]); [congruence|contradiction|lia].
    - split; [|intros; eauto]. intros _. destruct P as (_ & _ & _ & ? & ? & ?). auto.
  Qed.

  (* the object encode leaves *)
  Lemma encoded_facts d c v b v1 b1 : object_of E c v = true -> buf_wf b = true -> encode E d v b = (None, v1, b1) ->
    object_of E c v1 = true /\ forget Y v1 (WObj c) = forget Y v (WObj c) /\ nesting v1 = nesting v
    /\ complete Y v1 (WObj c) = true /\ appended b (ser Y v1 (WObj c)) b1 /\ buf_wf b1 = true
    /\ v1 = fill_in Y sums (readable b) v (WObj c).
  Proof.
    intros Hv Hb He. pose proof (encode_total d c v b Hv Hb) as P. cbv zeta in P. rewrite He in P.
    destruct P as (-> & A & W & Hc & Hn & Hf).
    destruct (object_shape c v Hv) as (fs & -> & Ht).
    set (v1 := fill_in Y sums (readable b) (VObj c fs) (WObj c)) in *.
    assert (T0 : typed0 C (VObj c fs) (WObj c)) by (right; exact Ht).
    assert (T1 : typed0 C v1 (WObj c)).
    { apply (fill_typed C Y HC E); auto. fold v1. unfold fits in Hf. apply buf_wf_iff in Hb. pose proof (wf_max _ Hb). lia. }
    assert (exists fs1, v1 = VObj c fs1) as [fs1 E1].
    { unfold v1. cbn [fill_in]. destruct (find c Y); eauto. }
    split; [|split; [|split; [|split; [|auto]]]].
    - rewrite E1 in *. destruct T1 as [T1|T1]; [discriminate|]. apply object_intro. exact T1.
    - apply (fill_forget Y E).
    - apply (fill_nesting C Y HC E); auto.
    - transitivity (complete Y (VObj c fs) (WObj c)); auto. apply (fill_complete C Y HC E); auto.
  Qed.

  (* decoding the bytes of an object *)
  Theorem decode_bytes d c v old b rest : object_of E c v = true -> object_of E c old = true ->
    parsable Y (factory E) v (WObj c) = true -> (nesting v <= d)%nat ->
    buf_wf b = true -> readable b = ser Y v (WObj c) ++ rest ->
    exists b1, decode E d old b = (None, absorb Y old v (WObj c), b1) /\ advanced b (List.length (ser Y v (WObj c))) b1.
  Proof.
    intros Hv Ho Hp Hn Hb Hr. apply buf_wf_iff in Hb.
    destruct (object_shape c v Hv) as (fs & -> & Ht). destruct (object_shape c old Ho) as (os & -> & Hto).
    pose proof (dec_all C Y HC E HE d c fs (VObj c os) b rest Ht Hto ltac:(discriminate) Hp Hn Hb Hr) as P.
    eexists. split; [exact P|reflexivity].
  Qed.

  Lemma new_object c v : object_of E c v = true -> object_of E c (new_obj E c) = true.
  Proof.
    intros Hv. destruct (object_shape c v Hv) as (fs & -> & Ht). destruct (typed_obj_known C Y c fs _ HC Ht) as [L HL].
    rewrite (new_blank C Y HC E HE). unfold blank_obj. rewrite HL. apply object_intro. apply (typed_blank C Y HC); auto.
  Qed.
  Lemma absorb_new c v : object_of E c v = true -> absorb Y (new_obj E c) v (WObj c) = absorb Y VNull v (WObj c).
  Proof.
    intros Hv. destruct (object_shape c v Hv) as (fs & -> & Ht). destruct (typed_obj_known C Y c fs _ HC Ht) as [L HL].
    rewrite (new_blank C Y HC E HE). unfold blank_obj. rewrite HL. rewrite !(absorb_obj_eq Y _ _ _ _ _ HL). reflexivity.
  Qed.
  Lemma known_class c v : object_of E c v = true -> ok_field Y (WObj c) = true.
  Proof.
    intros Hv. destruct (object_shape c v Hv) as (fs & -> & Ht). destruct (typed_obj_known C Y c fs _ HC Ht) as [L HL].
    cbn. unfold known. rewrite HL. reflexivity.
  Qed.

  (* reading a canonical object into a new one *)
  Theorem decode_canonical d c v b rest : object_of E c v = true ->
    parsable Y (factory E) v (WObj c) = true -> canonical Y v (WObj c) = true -> (nesting v <= d)%nat ->
    buf_wf b = true -> readable b = ser Y v (WObj c) ++ rest ->
    exists v2 b1, decode E d (new_obj E c) b = (None, v2, b1) /\ equivalent v2 v
      /\ (exact_form Y v (WObj c) = true -> v2 = v) /\ advanced b (List.length (ser Y v (WObj c))) b1.
  Proof.
    intros Hv Hp Hc Hn Hb Hr.
    destruct (decode_bytes d c v (new_obj E c) b rest Hv (new_object c v Hv) Hp Hn Hb Hr) as (b1 & Hd & Ha).
    exists (absorb Y VNull v (WObj c)), b1. rewrite <- (absorb_new c v Hv) at 1. split; auto.
    destruct (object_shape c v Hv) as (fs & Ev & Ht).
    split; [|split; auto].
    - apply (absorb_normal C Y HC (factory E)); auto; [eapply known_class; eauto|right; auto|reflexivity].
    - intros He. apply (absorb_exact C Y HC (factory E)); auto; [eapply known_class; eauto|right; auto|reflexivity].
  Qed.

  Theorem round_trip d d2 c v b v1 b1 : object_of E c v = true -> buf_wf b = true ->
    encode E d v b = (None, v1, b1) ->
    parsable Y (factory E) v (WObj c) = true -> canonical Y v (WObj c) = true -> (nesting v <= d2)%nat ->
    exists bs, appended b bs b1 /\
      forall b2 rest, buf_wf b2 = true -> readable b2 = bs ++ rest ->
      exists v2 b3, decode E d2 (new_obj E c) b2 = (None, v2, b3) /\ equivalent v2 v1
        /\ (exact_form Y v (WObj c) = true -> v2 = v1) /\ advanced b2 (List.length bs) b3.
  Proof.
    intros Hv Hb He Hp Hc Hn. destruct (encoded_facts d c v b v1 b1 Hv Hb He) as (Hv1 & Hf & Hn1 & Hc1 & A & W & E1).
    exists (ser Y v1 (WObj c)). split; auto. intros b2 rest Hb2 Hr.
    destruct (decode_canonical d2 c v1 b2 rest Hv1) as (v2 & b3 & D & Eq & Ex & Ad); auto.
    - rewrite E1, fill_parsable. exact Hp.
    - rewrite E1, fill_canonical. exact Hc.
    - lia.
    - exists v2, b3. split; auto. split; auto. split; auto. intros Hx. apply Ex. rewrite E1, fill_exact. exact Hx.
  Qed.

  (* injectivity *)
  Lemma buffer_of bs : bytes_ok bs -> Z.of_nat (List.length bs) < 2 ^ 31 -> exists b, buf_wf b = true /\ readable b = bs.
  Proof.
    intros Hb Hl. exists {| arr := bs; ridx := 0; widx := List.length bs; maxcap := Z.of_nat (List.length bs); cs_slack := false; policy := {| extra := fun _ => O; fill := fun _ => 0 |} |}.
    split.
    - apply buf_wf_iff. constructor; simpl; auto; lia.
    - unfold readable, content. simpl. rewrite firstn_all. reflexivity.
  Qed.
  Lemma appended_bytes b bs b1 : wf b1 -> appended b bs b1 -> bytes_ok bs.
  Proof.
    intros W A. pose proof (content_bytes _ W) as B. rewrite (app_content _ _ _ A) in B. apply Forall_app in B. tauto.
  Qed.
  Lemma appended_small b bs b1 : wf b1 -> appended b bs b1 -> Z.of_nat (List.length bs) < 2 ^ 31.
  Proof.
    intros W A. pose proof (f_equal (@List.length Z) (app_content _ _ _ A)) as Q. rewrite app_length, content_length in Q by apply W.
    pose proof (wf_max _ W). pose proof (wf_cap _ W). pose proof (wf_widx _ W). lia.
  Qed.

  Theorem injective d d' c v u b b' v1 b1 u1 b1' ext bs :
    object_of E c v = true -> object_of E c u = true -> buf_wf b = true -> buf_wf b' = true ->
    encode E d v b = (None, v1, b1) -> encode E d' u b' = (None, u1, b1') ->
    parsable Y (factory E) v (WObj c) = true -> canonical Y v (WObj c) = true ->
    parsable Y (factory E) u (WObj c) = true -> canonical Y u (WObj c) = true ->
    appended b bs b1 -> appended b' (bs ++ ext) b1' -> ext = [] /\ equivalent v1 u1.
  Proof.
    intros Hv Hu Hb Hb' Ev Eu Pv Cv Pu Cu A A'.
    set (dd := Nat.max (nesting v) (nesting u)).
    destruct (round_trip d dd c v b v1 b1 Hv Hb Ev Pv Cv ltac:(unfold dd; lia)) as (bs1 & A1 & D1).
    destruct (round_trip d' dd c u b' u1 b1' Hu Hb' Eu Pu Cu ltac:(unfold dd; lia)) as (bs2 & A2 & D2).
    assert (bs1 = bs) as -> by (pose proof (app_content _ _ _ A) as Q; rewrite (app_content _ _ _ A1) in Q; apply app_inv_head in Q; auto).
    assert (bs2 = bs ++ ext) as -> by (pose proof (app_content _ _ _ A') as Q; rewrite (app_content _ _ _ A2) in Q; apply app_inv_head in Q; auto).
    destruct (encoded_facts d' c u b' u1 b1' Hu Hb' Eu) as (_ & _ & _ & _ & _ & W & _). apply buf_wf_iff in W.
    destruct (buffer_of (bs ++ ext) (appended_bytes _ _ _ W A') (appended_small _ _ _ W A')) as (b0 & W0 & R0).
    destruct (D1 b0 ext W0 R0) as (x & b3 & X1 & X2 & _ & X4).
    destruct (D2 b0 [] W0 ltac:(rewrite app_nil_r; exact R0)) as (y & b4 & Y1 & Y2 & _ & Y4).
    rewrite X1 in Y1. injection Y1 as -> ->. unfold advanced in *. rewrite X4 in Y4. apply (f_equal ridx) in Y4. cbn in Y4. rewrite app_length in Y4.
    split; [destruct ext; auto; simpl in Y4; lia|]. unfold equivalent in *. congruence.
  Qed.

  (* encoding again *)
  Theorem encode_again d c v b v1 b1 : object_of E c v = true -> buf_wf b = true -> encode E d v b = (None, v1, b1) ->
    forall b', buf_wf b' = true -> readable b' = readable b -> fits b' (List.length (ser Y v1 (WObj c))) ->
    exists b1', encode E d v1 b' = (None, v1, b1') /\ appended b' (ser Y v1 (WObj c)) b1'.
  Proof.
    intros Hv Hb He b' Hb' Hr Hf. pose proof (encode_total d c v b Hv Hb) as P. cbv zeta in P. rewrite He in P. destruct P as (_ & _ & _ & _ & Hn & _).
    destruct (encoded_facts d c v b v1 b1 Hv Hb He) as (Hv1 & _ & Hn1 & Hc1 & A & W & E1).
    assert (Ei : fill_in Y sums (readable b') v1 (WObj c) = v1) by (rewrite E1, Hr; apply (fill_idem Y E)).
    pose proof (encode_total d c v1 b' Hv1 Hb') as P. cbv zeta in P. rewrite Ei in P.
    destruct (encode E d v1 b') as [[[e|] v'] b1'].
    - destruct P as (_ & _ & [[_ R]|[[_ R]|[_ R]]]); [congruence|contradiction|lia].
    - destruct P as (-> & A' & _). eauto.
  Qed.

  Theorem null_parts d c v b : object_of E c v = true -> buf_wf b = true ->
    (nesting v <= d)%nat -> fits b (List.length (ser Y (fill_in Y sums (readable b) v (WObj c)) (WObj c))) ->
    ((exists v1 b1, encode E d v b = (Some NPE, v1, b1)) <-> complete Y v (WObj c) = false)
    /\ ((exists v1 b1, encode E d v b = (None, v1, b1)) <-> complete Y v (WObj c) = true).
  Proof.
    intros Hv Hb Hn Hf. pose proof (encode_total d c v b Hv Hb) as P. cbv zeta in P.
    destruct (encode E d v b) as [[[e|] v'] b1].
    - destruct P as (_ & _ & [[-> R]|[[_ R]|[_ R]]]); [|contradiction|lia]. rewrite R. split; split; eauto; try congruence; intros (? & ? & ?); discriminate.
    - destruct P as (_ & _ & _ & R & _). rewrite R. split; split; eauto; try congruence; intros (? & ? & ?); discriminate.
  Qed.
  Theorem keeps_content d c v b e v1 b1 : object_of E c v = true -> buf_wf b = true -> encode E d v b = (e, v1, b1) ->
    buf_wf b1 = true /\ exists bs, appended b bs b1.
  Proof.
    intros Hv Hb He. pose proof (encode_total d c v b Hv Hb) as P. cbv zeta in P. rewrite He in P. destruct e.
    - destruct P as (A & W & _). auto.
    - destruct P as (_ & A & W & _). eauto.
  Qed.
  Theorem room d c v b : object_of E c v = true -> buf_wf b = true -> complete Y v (WObj c) = true -> (nesting v <= d)%nat ->
    let n := List.length (ser Y (fill_in Y sums (readable b) v (WObj c)) (WObj c)) in
    (fits b n -> exists v1 b1, encode E d v b = (None, v1, b1))
    /\ (~ fits b n -> exists v1 b1, encode E d v b = (Some IOOBE, v1, b1)).
  Proof.
    intros Hv Hb Hc Hn. cbv zeta. pose proof (encode_total d c v b Hv Hb) as P. cbv zeta in P.
    destruct (encode E d v b) as [[[e|] v'] b1].
    - destruct P as (_ & _ & [[-> R]|[[-> R]|[_ R]]]); [congruence| |lia]. split; [contradiction|eauto].
    - destruct P as (_ & _ & _ & _ & _ & R). split; [eauto|contradiction].
  Qed.
  Theorem encode_twice d c v b v1 b1 : object_of E c v = true -> buf_wf b = true -> encode E d v b = (None, v1, b1) ->
    forall b' bs, appended b bs b1 -> buf_wf b' = true -> readable b' = readable b -> fits b' (List.length bs) ->
    exists b1', encode E d v1 b' = (None, v1, b1') /\ appended b' bs b1'.
  Proof.
    intros Hv Hb He b' bs A Hb' Hr Hf. destruct (encoded_facts d c v b v1 b1 Hv Hb He) as (_ & _ & _ & _ & A1 & _ & _).
    assert (bs = ser Y v1 (WObj c)) as -> by (pose proof (app_content _ _ _ A) as Q; rewrite (app_content _ _ _ A1) in Q; apply app_inv_head in Q; auto).
    exact (encode_again d c v b v1 b1 Hv Hb He b' Hb' Hr Hf).
  Qed.
  Lemma forget_plain c fs L : find c Y = Some L ->
    forallb (fun fw => match snd fw with WInt _ _ | WFlt _ _ | WFix _ _ _ | WDyn _ _ => true | _ => false end) L = true ->
    fields_ok C fs L = true -> forget Y (VObj c fs) (WObj c) = VObj c fs.
  Proof.
    intros HL. rewrite (forget_obj_eq Y c fs (WObj c) L HL). intros HP HF. f_equal. revert L HL HP HF.
    assert (forall L, forallb (fun fw => match snd fw with WInt _ _ | WFlt _ _ | WFix _ _ _ | WDyn _ _ => true | _ => false end) L = true ->
      fields_ok C fs L = true -> forget_fields Y fs L = fs) as A; [|intros; auto].
    induction fs as [|[f x] fs IH]; intros [|[g w] L] HP HF; auto. cbn [forallb snd] in HP. apply andb_true_iff in HP as [P1 P2].
    apply fields_ok_cons in HF as (-> & T & HF).
    transitivity ((g, forget_field Y x w) :: forget_fields Y fs L); [reflexivity|]. rewrite (IH L P2 HF). do 2 f_equal.
    unfold forget_field. destruct w; try discriminate P1; destruct x; auto; cbn in T; try discriminate T;
      repeat (match type of T with context[match ?n with _ => _ end] => is_var n; destruct n end; try discriminate T).
  Qed.
  Theorem plain_unchanged d c v b v1 b1 L : object_of E c v = true -> buf_wf b = true -> encode E d v b = (None, v1, b1) -> find c Y = Some L ->
    forallb (fun fw => match snd fw with WInt _ _ | WFlt _ _ | WFix _ _ _ | WDyn _ _ => true | _ => false end) L = true -> v1 = v.
  Proof.
    intros Hv Hb He HL HP. destruct (encoded_facts d c v b v1 b1 Hv Hb He) as (Hv1 & Hf & _).
    destruct (object_shape c v Hv) as (fs & -> & Ht). destruct (object_shape c v1 Hv1) as (fs1 & -> & Ht1).
    rewrite !(forget_plain _ _ L HL HP) in Hf; auto; eapply typed_obj; eauto.
  Qed.
End Messages.

Lemma null_allowed (Y : layouts) c fs f w (L : layout) : find c Y = Some L ->
  (match w with WFix _ _ _ | WDyn _ _ | WList _ _ _ | WBody _ => True | _ => False end) ->
  find f L = Some w -> map fst fs = map fst L -> complete Y (VObj c fs) (WObj c) = true ->
  complete Y (VObj c (set f VNull fs)) (WObj c) = true.
Proof.
  intros HL Hw Hf Hn Hc. cbn [complete] in Hc |- *. rewrite HL in Hc |- *. clear HL. revert L Hf Hn Hc. induction fs as [|[g x] fs IH]; intros [|[h u] L] Hf Hn Hc; auto; try discriminate.
  cbn [map fst] in Hn. injection Hn as -> Hn. cbn [set find all2 fst snd] in *. apply andb_true_iff in Hc as [H1 H2]. destruct (String.eqb f h).
  - injection Hf as ->. cbn [all2 snd]. rewrite H2, andb_true_r. destruct w; auto; contradiction.
  - cbn [all2 snd]. rewrite H1. apply IH; auto.
Qed.

(* a sender and a receiver with registrations of their own *)
Section Between.
  Variable C : list (string * class_def).
  Variable Y : layouts.
  Hypothesis HC : conforms C Y.
  Variables E E2 : env.
  Hypothesis HE : classes E = C.
  Hypothesis HE2 : classes E2 = C.
  Lemma object_there c v : object_of E c v = true -> object_of E2 c v = true.
  Proof. unfold object_of. rewrite HE, HE2. auto. Qed.
  Theorem round_trip_between d d2 c v b v1 b1 : object_of E c v = true -> buf_wf b = true ->
    encode E d v b = (None, v1, b1) ->
    parsable Y (factory E2) v (WObj c) = true -> canonical Y v (WObj c) = true -> (nesting v <= d2)%nat ->
    exists bs, appended b bs b1 /\
      forall b2 rest, buf_wf b2 = true -> readable b2 = bs ++ rest ->
      exists v2 b3, decode E2 d2 (new_obj E2 c) b2 = (None, v2, b3) /\ equivalent v2 v1
        /\ (exact_form Y v (WObj c) = true -> v2 = v1) /\ advanced b2 (List.length bs) b3.
  Proof.
    intros Hv Hb He Hp Hc Hn. destruct (encoded_facts C Y HC E HE d c v b v1 b1 Hv Hb He) as (Hv1 & Hf & Hn1 & Hc1 & A & W & E1).
    exists (ser Y v1 (WObj c)). split; auto. intros b2 rest Hb2 Hr.
    destruct (decode_canonical C Y HC E2 HE2 d2 c v1 b2 rest (object_there c v1 Hv1)) as (v2 & b3 & D & Eq & Ex & Ad); auto.
    - rewrite E1, fill_parsable. exact Hp.
    - rewrite E1, fill_canonical. exact Hc.
    - lia.
    - exists v2, b3. split; auto. split; auto. split; auto. intros Hx. apply Ex. rewrite E1, fill_exact. exact Hx.
  Qed.
  Theorem consumes_between d d2 c v b v1 b1 : object_of E c v = true -> buf_wf b = true -> encode E d v b = (None, v1, b1) ->
    parsable Y (factory E2) v (WObj c) = true -> (nesting v <= d2)%nat ->
    forall bs, appended b bs b1 -> forall b2 rest, buf_wf b2 = true -> readable b2 = bs ++ rest ->
    exists v2 b3, decode E2 d2 (new_obj E2 c) b2 = (None, v2, b3) /\ advanced b2 (List.length bs) b3 /\ readable b3 = rest.
  Proof.
    intros Hv Hb He Hp Hn bs A b2 rest Hb2 Hr. destruct (encoded_facts C Y HC E HE d c v b v1 b1 Hv Hb He) as (Hv1 & _ & Hn1 & _ & A1 & _ & E1).
    assert (bs = ser Y v1 (WObj c)) as -> by (pose proof (app_content _ _ _ A) as Q; rewrite (app_content _ _ _ A1) in Q; apply app_inv_head in Q; auto).
    pose proof (object_there c v1 Hv1) as Hv2.
    destruct (decode_bytes C Y HC E2 HE2 d2 c v1 (new_obj E2 c) b2 rest Hv2 (new_object C Y HC E2 HE2 c v1 Hv2)) as (b3 & D & Ad); auto.
    - rewrite E1, fill_parsable. exact Hp.
    - lia.
    - eexists _, b3. split; [exact D|]. split; auto. unfold advanced in Ad. subst b3. apply buf_wf_iff in Hb2. apply (adv_ok b2 _ _ Hb2 Hr).
  Qed.
  Theorem stream_between d d2 cs vs b v1s b1 :
    Forall2 (fun c v => object_of E c v = true /\ parsable Y (factory E2) v (WObj c) = true /\ canonical Y v (WObj c) = true) cs vs -> buf_wf b = true ->
    encode_seq E d vs b = (None, v1s, b1) -> (forall v, In v vs -> (nesting v <= d2)%nat) ->
    exists bs, appended b bs b1 /\ buf_wf b1 = true /\
      forall b2 rest, buf_wf b2 = true -> readable b2 = bs ++ rest ->
      exists v2s b3, decode_seq E2 d2 cs b2 = (None, v2s, b3) /\ Forall2 equivalent v2s v1s
        /\ advanced b2 (List.length bs) b3 /\ readable b3 = rest.
  Proof.
    intros HF. revert b v1s b1. induction HF as [|c v cs vs (Hv & Hp & Hc) HF IH]; intros b v1s b1 Hb He Hn.
    - cbn in He. injection He as <- <-. exists []. split; [apply appended_nil|]. split; auto. intros b2 rest W R. exists [], b2.
      split; auto. split; auto. split; [unfold advanced; symmetry; apply (adv_0 b2)|exact R].
    - cbn [encode_seq] in He. destruct (encode E d v b) as [[[e|] v1] bm] eqn:Ev; [discriminate|].
      destruct (encode_seq E d vs bm) as [[e r1] be] eqn:Er. injection He as -> <- <-.
      destruct (encoded_facts C Y HC E HE d c v b v1 bm Hv Hb Ev) as (_ & _ & _ & _ & _ & Wm & _).
      destruct (round_trip_between d d2 c v b v1 bm Hv Hb Ev Hp Hc (Hn v (or_introl eq_refl))) as (bs & A & D).
      destruct (IH bm r1 be Wm Er (fun x Hx => Hn x (or_intror Hx))) as (bs' & A' & We & D').
      exists (bs ++ bs'). split; [eapply appended_trans; eauto|]. split; auto. intros b2 rest W R. rewrite <- app_assoc in R.
      destruct (D b2 _ W R) as (v2 & b3 & X1 & X2 & _ & X4). unfold advanced in X4. change (b3 = adv b2 (List.length bs)) in X4. subst b3.
      apply buf_wf_iff in W. destruct (adv_ok b2 _ _ W R) as [W1 R1]. apply buf_wf_iff in W1.
      destruct (D' _ _ W1 R1) as (v2s & b4 & Y1 & Y2 & Y3 & Y4).
      exists (v2 :: v2s), b4. cbn [decode_seq]. rewrite X1, Y1. split; auto. split; auto. split; auto.
      change (b4 = adv (adv b2 (List.length bs)) (List.length bs')) in Y3. rewrite adv_adv in Y3. rewrite app_length. exact Y3.
  Qed.
End Between.
