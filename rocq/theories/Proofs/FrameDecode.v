(* decode of frames looks at neither the length nor the checksum. *)
From Coq Require Import ZArith List Bool String Lia.
From Verif.Model Require Import JavaPrim ByteBuf Utf8 Codec Ast Interp.
From Verif.Spec Require Import Bytes Buffers Wire Reading.
From Verif.Proofs Require Import BytesFacts BufFacts Utf8Facts CodecFacts Conform TableFacts EncodeFacts FillFacts DecodeFacts Messages Lockstep FrameFacts.
Import ListNotations.
Open Scope Z_scope.

Definition put_field (f : string) (x : val) (v : val) : val := match v with VObj c fs => VObj c (set f x fs) | _ => v end.

Section Frames.
  Variable C : list (string * class_def).
  Variable Y : layouts.
  Hypothesis HC : conforms C Y.
  Variable E : env.
  Hypothesis HE : classes E = C.

  Lemma fields_ok_app a b (A B : layout) : fields_ok C a A = true -> fields_ok C b B = true -> fields_ok C (a ++ b) (A ++ B) = true.
  Proof.
    revert A; induction a as [|[f x] a IH]; intros [|[g w] A] Ha Hb; try discriminate; auto.
    unfold fields_ok in *. cbn [app forall2b] in *. apply andb_true_iff in Ha as [-> Ha]. cbn [andb]. apply IH; auto.
  Qed.
  Lemma typed_intro c fs L : find c Y = Some L -> fields_ok C fs L = true -> typed C (VObj c fs) (TObj c) = true.
  Proof.
    intros H Hf. cbn [typed]. rewrite String.eqb_refl. pose proof (conforms_find C Y c HC) as F. rewrite H in F.
    destruct F as (cd & -> & _ & -> & _). cbn [andb]. unfold types_of. rewrite forall2b_map_r. exact Hf.
  Qed.
  Lemma par_fs_app c all Lall a b A B : List.length a = List.length A ->
    par_fs Y E c all Lall (a ++ b) (A ++ B) = par_fs Y E c all Lall a A && par_fs Y E c all Lall b B.
  Proof.
    revert A; induction a as [|x a IH]; intros [|y A] H; try discriminate; auto. unfold par_fs in *. cbn [app all2]. rewrite IH by (simpl in H; lia). apply andb_assoc.
  Qed.
  Lemma absorb_fields_app a b A B os ps : List.length a = List.length A -> List.length os = List.length A ->
    absorb_fields Y (a ++ b) (A ++ B) (os ++ ps) = absorb_fields Y a A os ++ absorb_fields Y b B ps.
  Proof.
    revert A os; induction a as [|[f x] a IH]; intros [|[g w] A] [|[h o] os] H H'; try discriminate; auto. cbn [app absorb_fields]. rewrite IH; auto.
  Qed.
  Lemma absorb_fields_names a A os : List.length a = List.length A -> List.length os = List.length A -> map fst (absorb_fields Y a A os) = map fst a.
  Proof.
    revert A os; induction a as [|[f x] a IH]; intros [|[g w] A] [|[h o] os] H H'; try discriminate; auto. cbn [absorb_fields map fst]. rewrite IH; auto.
  Qed.

  (* a frame with its length and checksum replaced *)
  Lemma int4_typed z o : in_signed 32 z = true -> typed C (VInt z) (wire_type (WInt 4 o)) = true.
  Proof. intros H. exact H. Qed.

  Lemma frame_swap hdr lf o bf k tl c hfs x y tfs x' tfs' :
    find c Y = Some (hdr ++ (lf, WLen 4 o) :: (bf, WBody k) :: tl) -> forallb int_field hdr = true -> trailer_ok tl = true ->
    fields_ok C hfs hdr = true -> List.length tfs = List.length tl -> List.length tfs' = List.length tl ->
    parsable Y (factory E) (VObj c (hfs ++ (lf, x) :: (bf, y) :: tfs)) (WObj c) = true ->
    parsable Y (factory E) (VObj c (hfs ++ (lf, x') :: (bf, y) :: tfs')) (WObj c) = true.
  Proof.
    intros HL Hh Ht Hf L1 L2 Hp. rewrite (par_obj_eq Y E c _ _ _ HL) in Hp. rewrite (par_obj_eq Y E c _ _ _ HL).
    pose proof (conforms_ok C Y c _ HC HL) as Hok.
    assert (Hlen : List.length hfs = List.length hdr) by (apply (fields_ok_length C); auto).
    assert (Ht' : forall r, tag k (hfs ++ r) (hdr ++ (lf, WLen 4 o) :: (bf, WBody k) :: tl) = tag k hfs hdr).
    { intros r. apply (tag_app k); [apply (fields_ok_names C); auto|].
      assert (A : forall H0 seen, ok_fields Y seen (H0 ++ (lf, WLen 4 o) :: (bf, WBody k) :: tl) = true ->
        match find k ((seen ++ H0) ++ [(lf, WLen 4 o)]) with Some (WInt _ _) | Some (WFix _ _ _) => True | _ => False end).
      { clear. induction H0 as [|[g w] H0 IH]; intros seen H.
        - cbn [app] in H. apply ok_field_of in H as (_ & _ & H & _). apply ok_field_of in H as (_ & _ & _ & H). rewrite app_nil_r. exact H.
        - cbn [app] in H. apply ok_field_of in H as (_ & _ & H & _). specialize (IH _ H). replace (seen ++ (g, w) :: H0) with ((seen ++ [(g, w)]) ++ H0) by (rewrite <- app_assoc; reflexivity). exact IH. }
      specialize (A hdr [] Hok). cbn [app] in A. rewrite find_app in A. destruct (find k hdr) as [w|] eqn:Ek; [eapply find_in; eauto|].
      cbn [find] in A. destruct (String.eqb k lf); contradiction. }
    assert (Hints : forall all Lall all' Lall' H0 h0, forallb int_field H0 = true -> par_fs Y E c all Lall h0 H0 = par_fs Y E c all' Lall' h0 H0).
    { clear. intros all Lall all' Lall'. induction H0 as [|[g w] H0 IH]; intros [|[f v] h0] H; auto. unfold par_fs in *. cbn [all2 snd].
      cbn [forallb] in H. apply andb_true_iff in H as [Hw H]. unfold int_field in Hw. cbn [snd] in Hw. destruct w; try discriminate. rewrite (IH h0 H). reflexivity. }
    assert (Htl : forall all Lall h0, List.length h0 = List.length tl -> par_fs Y E c all Lall h0 tl = true).
    { intros all Lall h0 H. destruct tl as [|[sf w] tl']; [destruct h0; [reflexivity|discriminate]|].
      destruct w; try discriminate Ht. destruct n as [|[|[|[|[|]]]]]; try discriminate Ht. destruct tl'; [|discriminate Ht].
      destruct h0 as [|[g q] [|]]; try discriminate H. unfold par_fs. cbn [all2 snd]. destruct q; reflexivity. }
    rewrite par_fs_app in Hp by exact Hlen. rewrite par_fs_app by exact Hlen. apply andb_true_iff in Hp as [Hp1 Hp2].
    rewrite (Hints _ _ (hfs ++ (lf, x) :: (bf, y) :: tfs) (hdr ++ (lf, WLen 4 o) :: (bf, WBody k) :: tl)) by exact Hh. rewrite Hp1. cbn [andb].
    unfold par_fs in Hp2 |- *. cbn [all2 snd] in Hp2 |- *. apply andb_true_iff in Hp2 as [_ Hp2]. apply andb_true_iff in Hp2 as [Hp2 _].
    rewrite Ht' in Hp2. rewrite Ht', Hp2. specialize (Htl (hfs ++ (lf, x') :: (bf, y) :: tfs') (hdr ++ (lf, WLen 4 o) :: (bf, WBody k) :: tl) tfs' L2). unfold par_fs in Htl. rewrite Htl.
    destruct x'; reflexivity.
  Qed.

  (* what a frame's bytes look like and what decoding them gives, whatever the length and checksum fields hold *)
  Theorem frame_decoded d c hdr lf o bf k tl hfs y old b rest xs ts :
    find c Y = Some (hdr ++ (lf, WLen 4 o) :: (bf, WBody k) :: tl) -> forallb int_field hdr = true -> trailer_ok tl = true ->
    object_of E c (VObj c (hfs ++ (lf, VInt 0) :: (bf, y) :: map (fun fw => (fst fw, VInt 0)) tl)) = true ->
    parsable Y (factory E) (VObj c (hfs ++ (lf, VInt 0) :: (bf, y) :: map (fun fw => (fst fw, VInt 0)) tl)) (WObj c) = true ->
    object_of E c old = true -> fields_ok C hfs hdr = true -> (S (nesting y) <= d)%nat ->
    in_signed 32 xs = true -> in_signed 32 ts = true ->
    buf_wf b = true -> readable b = (ser_fields Y hfs hdr ++ number o 4 xs ++ ser Y y (WBody k)
      ++ match tl with [(_, WSum _ so _)] => number so 4 ts | _ => [] end) ++ rest ->
    exists hn yn, decode E d old b
      = (None, VObj c (hn ++ (lf, VInt xs) :: (bf, yn) :: map (fun fw => (fst fw, VInt ts)) tl),
         adv b (widths hdr + 4 + List.length (ser Y y (WBody k)) + 4 * List.length tl))
      /\ map fst hn = map fst hdr
      /\ hn = absorb_fields Y hfs hdr (firstn (List.length hdr) (match old with VObj _ os => os | _ => [] end)) /\ yn = absorb Y VNull y (WBody k).
  Proof.
    intros HL Hh Ht Hv Hp Ho Hf Hn Hxs Hts Hb Hr.
    destruct (object_shape C E HE c _ Hv) as (fs0 & E0 & Hty). injection E0 as <-.
    pose proof (typed_obj C Y c _ _ _ HC HL Hty) as Hall.
    set (u := VObj c (hfs ++ (lf, VInt xs) :: (bf, y) :: map (fun fw => (fst fw, VInt ts)) tl)).
    assert (Hlen : List.length hfs = List.length hdr) by (apply (fields_ok_length C); auto).
    assert (Hy : typed C y TCodec = true /\ fields_ok C (map (fun fw => (fst fw, VInt ts)) tl) tl = true).
    { destruct (fields_ok_split C _ _ _ Hall) as (a & r & Ea & H1 & H2).
      assert (a = hfs /\ r = (lf, VInt 0) :: (bf, y) :: map (fun fw => (fst fw, VInt 0)) tl) as [-> ->].
      { apply (fields_ok_length C) in H1. rewrite <- Hlen in H1. clear - Ea H1. revert hfs H1 Ea. induction a as [|q a IH]; intros [|p hfs] H1 Ea; try discriminate; auto.
        injection Ea as -> Ea. destruct (IH hfs) as [-> ->]; auto. }
      apply fields_ok_cons in H2 as (_ & _ & H2). apply fields_ok_cons in H2 as (_ & Hy & _). split; auto.
      destruct tl as [|[sf w] tl']; auto. destruct w; try discriminate Ht. destruct n as [|[|[|[|[|]]]]]; try discriminate Ht. destruct tl'; [|discriminate Ht].
      unfold fields_ok. cbn [map forall2b fst snd]. rewrite String.eqb_refl. exact (f_equal (fun q => q && true) Hts). }
    destruct Hy as [Hy Htl].
    assert (Hu : object_of E c u = true).
    { apply (object_intro C E HE). apply (typed_intro c _ _ HL). apply fields_ok_app; auto. unfold fields_ok in *. cbn [forall2b fst snd]. rewrite !String.eqb_refl. cbn [andb].
      apply andb_true_iff. split; [exact Hxs|]. apply andb_true_iff. split; [exact Hy|exact Htl]. }
    assert (Hpu : parsable Y (factory E) u (WObj c) = true).
    { eapply frame_swap; [exact HL|exact Hh|exact Ht|exact Hf| | |exact Hp]; rewrite map_length; reflexivity. }
    assert (Eser : ser Y u (WObj c) = ser_fields Y hfs hdr ++ number o 4 xs ++ ser Y y (WBody k)
      ++ match tl with [(_, WSum _ so _)] => number so 4 ts | _ => [] end).
    { unfold u. rewrite (ser_obj_eq Y _ _ (WObj c) _ eq_refl HL). rewrite ser_fields_app by exact Hlen. f_equal. unfold ser_fields. cbn [concat2 snd]. cbn [ser]. f_equal. f_equal.
      destruct tl as [|[sf w] tl']; auto. destruct w; try discriminate Ht. destruct n as [|[|[|[|[|]]]]]; try discriminate Ht. destruct tl'; [|discriminate Ht].
      cbn [map concat2 snd fst ser]. apply app_nil_r. }
    rewrite <- Eser in Hr.
    assert (Hnu : (nesting u <= d)%nat).
    { unfold u. cbn [nesting].
      assert (A : forall h H0, forallb int_field H0 = true -> fields_ok C h H0 = true -> forall r, max_of (fun fv : string * val => nesting (snd fv)) (h ++ r) = max_of (fun fv => nesting (snd fv)) r).
      { clear. induction h as [|[f v] h IH]; intros [|[g w] H0] Hi Hf r; try discriminate; auto.
        cbn [forallb] in Hi. apply andb_true_iff in Hi as [Hw Hi]. unfold int_field in Hw. cbn [snd] in Hw. destruct w; try discriminate.
        apply fields_ok_cons in Hf as (-> & Hv & Hf). destruct (typed_int C v n o Hw Hv) as (z & -> & _).
        cbn [app max_of snd nesting]. rewrite (IH H0); auto. }
      rewrite (A hfs hdr Hh Hf). cbn [max_of snd nesting].
      assert (B : max_of (fun fv : string * val => nesting (snd fv)) (map (fun fw : string * wire => (fst fw, VInt ts)) tl) = O).
      { clear. induction tl as [|q tl IH]; auto. }
      rewrite B. lia. }
    destruct (decode_bytes C Y HC E HE d c u old b rest Hu Ho Hpu Hnu Hb Hr) as (b1 & D & Ad).
    destruct (object_shape C E HE c old Ho) as (os & -> & Hto). pose proof (typed_obj C Y c os _ _ HC HL Hto) as Hos.
    destruct (fields_ok_split C _ _ _ Hos) as (oh & r & -> & O1 & O2).
    destruct r as [|[g1 o1] r]; [discriminate|]. apply fields_ok_cons in O2 as (-> & _ & O2).
    destruct r as [|[g2 o2] r]; [discriminate|]. apply fields_ok_cons in O2 as (-> & _ & O3).
    assert (Lo : List.length oh = List.length hdr) by (apply (fields_ok_length C); auto).
    exists (absorb_fields Y hfs hdr oh), (absorb Y VNull y (WBody k)).
    split; [|split; [|split; [|reflexivity]]].
    - rewrite D. f_equal; [f_equal|].
      + unfold u. rewrite (absorb_obj_eq Y _ _ _ _ _ HL). cbn [olds]. rewrite absorb_fields_app by assumption. f_equal. f_equal.
        cbn [absorb_fields]. f_equal. f_equal.
        * destruct y; reflexivity.
        * destruct tl as [|[sf w] tl']; [destruct r; [reflexivity|discriminate]|]. destruct w; try discriminate Ht. destruct n as [|[|[|[|[|]]]]]; try discriminate Ht. destruct tl'; [|discriminate Ht].
          destruct r as [|[g3 o3] r]; [discriminate|]. apply fields_ok_cons in O3 as (-> & _ & O3). destruct r; [|discriminate]. reflexivity.
      + unfold advanced in Ad. rewrite Ad. unfold adv. f_equal. f_equal. rewrite Eser, !app_length, number_length.
        rewrite (proj2 (fill_ints C Y E hdr Hh hfs [] [] [] Hf)).
        assert (List.length (match tl with [(_, WSum _ so _)] => number so 4 ts | _ => [] end) = 4 * List.length tl)%nat as ->.
        { destruct tl as [|[sf w] tl']; auto. destruct w; try discriminate Ht. destruct n as [|[|[|[|[|]]]]]; try discriminate Ht. destruct tl'; [|discriminate Ht]. rewrite number_length. reflexivity. }
        lia.
    - rewrite absorb_fields_names by assumption. apply (fields_ok_names C); auto.
    - rewrite firstn_app, <- Lo, firstn_all, Nat.sub_diag. cbn [firstn]. rewrite app_nil_r. reflexivity.
  Qed.

  Lemma set_absent f x (fs : list (string * val)) : existsb (fun fv => String.eqb f (fst fv)) fs = false -> set f x fs = fs.
  Proof.
    induction fs as [|[g y] fs IH]; intros H; auto. cbn [existsb fst set] in *. apply orb_false_iff in H as [-> H]. rewrite IH; auto.
  Qed.

  Theorem frame_ignores d c hdr lf o bf k tl sf v :
    find c Y = Some (hdr ++ (lf, WLen 4 o) :: (bf, WBody k) :: tl) -> forallb int_field hdr = true ->
    (tl = [] /\ existsb (fun fw => String.eqb sf (fst fw)) (hdr ++ [(lf, WLen 4 o); (bf, WBody k)]) = false \/ exists alg, tl = [(sf, WSum 4 o alg)]) ->
    object_of E c v = true -> parsable Y (factory E) v (WObj c) = true -> (nesting v <= d)%nat ->
    exists head len body tail, ser Y v (WObj c) = head ++ len ++ body ++ tail
      /\ List.length head = widths hdr /\ List.length len = 4%nat /\ List.length tail = (4 * List.length tl)%nat
      /\ forall old, object_of E c old = true -> exists w0, forall len' tail' b rest,
           List.length len' = 4%nat -> List.length tail' = List.length tail -> bytes_ok len' -> bytes_ok tail' ->
           buf_wf b = true -> readable b = (head ++ len' ++ body ++ tail') ++ rest ->
           decode E d old b = (None, put_field lf (VInt (get_int o len')) (put_field sf (VInt (get_int o tail')) w0), adv b (List.length (ser Y v (WObj c)))).
  Proof.
    intros HL Hh Hs Hv Hp Hn.
    assert (Ht : trailer_ok tl = true) by (destruct Hs as [[-> _]|[alg ->]]; reflexivity).
    destruct (object_shape C E HE c v Hv) as (fs & -> & Hty). pose proof (typed_obj C Y c _ _ _ HC HL Hty) as Hall.
    destruct (fields_ok_split C _ _ _ Hall) as (hfs & r & -> & H1 & H2).
    destruct r as [|[g1 x] r]; [discriminate|]. apply fields_ok_cons in H2 as (-> & Hx & H2).
    destruct r as [|[g2 y] tfs]; [discriminate|]. apply fields_ok_cons in H2 as (-> & Hy & H3).
    destruct (typed_int C x 4 o eq_refl Hx) as (zx & -> & Hzx).
    assert (Hlen : List.length hfs = List.length hdr) by (apply (fields_ok_length C); auto).
    assert (Ltl : List.length tfs = List.length tl) by (apply (fields_ok_length C); auto).
    set (v0 := VObj c (hfs ++ (lf, VInt 0) :: (bf, y) :: map (fun fw => (fst fw, VInt 0)) tl)).
    assert (Hv0 : object_of E c v0 = true).
    { apply (object_intro C E HE). apply (typed_intro c _ _ HL). apply fields_ok_app; auto. unfold fields_ok in *. cbn [forall2b fst snd]. rewrite !String.eqb_refl. cbn [andb].
      apply andb_true_iff. split; [reflexivity|]. apply andb_true_iff. split; [exact Hy|].
      destruct Hs as [[-> _]|[alg ->]]; [reflexivity|]. cbn [map forall2b fst snd]. rewrite String.eqb_refl. reflexivity. }
    assert (Hp0 : parsable Y (factory E) v0 (WObj c) = true).
    { eapply frame_swap; [exact HL|exact Hh|exact Ht|exact H1|exact Ltl| |exact Hp]; rewrite map_length; reflexivity. }
    assert (Hny : (S (nesting y) <= d)%nat).
    { cbn [nesting] in Hn. assert (A : forall h r, (max_of (fun fv : string * val => nesting (snd fv)) r <= max_of (fun fv => nesting (snd fv)) (h ++ r))%nat).
      { clear. induction h as [|q h IH]; intros r; auto. cbn [app max_of]. specialize (IH r). lia. }
      specialize (A hfs ((lf, VInt zx) :: (bf, y) :: tfs)). cbn [max_of snd] in A. lia. }
    exists (ser_fields Y hfs hdr), (number o 4 zx), (ser Y y (WBody k)), (ser_fields Y tfs tl).
    assert (Eser : ser Y (VObj c (hfs ++ (lf, VInt zx) :: (bf, y) :: tfs)) (WObj c) = ser_fields Y hfs hdr ++ number o 4 zx ++ ser Y y (WBody k) ++ ser_fields Y tfs tl).
    { rewrite (ser_obj_eq Y _ _ (WObj c) _ eq_refl HL). rewrite ser_fields_app by exact Hlen. f_equal. }
    assert (Lt : List.length (ser_fields Y tfs tl) = (4 * List.length tl)%nat).
    { destruct Hs as [[-> _]|[alg ->]]; [destruct tfs; [reflexivity|discriminate]|]. destruct tfs as [|[g3 q] [|]]; try discriminate.
      apply fields_ok_cons in H3 as (-> & Hq & _). destruct (typed_int C q 4 o eq_refl Hq) as (z & -> & _). unfold ser_fields. cbn [concat2 snd ser]. rewrite app_nil_r, number_length. reflexivity. }
    split; [exact Eser|]. split; [apply (fill_ints C Y E hdr Hh hfs [] [] [] H1)|]. split; [apply number_length|]. split; [exact Lt|].
    intros old Ho.
    set (hn := absorb_fields Y hfs hdr (firstn (List.length hdr) (match old with VObj _ os => os | _ => [] end))).
    set (yn := absorb Y VNull y (WBody k)).
    exists (VObj c (hn ++ (lf, VInt 0) :: (bf, yn) :: map (fun fw => (fst fw, VInt 0)) tl)).
    intros len' tail' b rest L1 L2 B1 B2 Hb Hr.
    assert (N4 : number o 4 (get_int o len') = len').
    { rewrite <- L1. apply number_get_int; auto. destruct len'; [discriminate L1|discriminate]. }
    assert (R4 : in_signed 32 (get_int o len') = true).
    { pose proof (get_int_range o len' ltac:(destruct len'; [discriminate L1|discriminate])) as R. rewrite L1 in R. exact R. }
    assert (T4 : in_signed 32 (get_int o tail') = true /\ match tl with [(_, WSum _ so _)] => number so 4 (get_int o tail') | _ => [] end = tail').
    { rewrite Lt in L2. destruct Hs as [[-> _]|[alg ->]].
      - destruct tail'; [|discriminate L2]. split; [destruct o; reflexivity|reflexivity].
      - cbn in L2. split.
        + pose proof (get_int_range o tail' ltac:(destruct tail'; [discriminate L2|discriminate])) as R. rewrite L2 in R. exact R.
        + rewrite <- L2. apply number_get_int; auto. destruct tail'; [discriminate L2|discriminate]. }
    destruct T4 as [T4 T5].
    destruct (frame_decoded d c hdr lf o bf k tl hfs y old b rest (get_int o len') (get_int o tail') HL Hh Ht Hv0 Hp0 Ho H1 Hny R4 T4 Hb) as (hn' & yn' & D & Nn & Eh & Ey).
    { rewrite N4, T5. exact Hr. }
    change hn' with hn' in Eh. fold hn in Eh. fold yn in Ey. subst hn' yn'. rewrite D. f_equal.
    - f_equal. cbn [put_field]. f_equal.
      pose proof (conforms_ok C Y c _ HC HL) as Hok.
      assert (N1 : existsb (fun fv : string * val => String.eqb lf (fst fv)) hn = false).
      { rewrite (existsb_names lf hn hdr) by exact Nn. apply (name_new Y _ _ _ _ [] Hok). }
      destruct Hs as [[-> Hs]|[alg ->]].
      + rewrite (set_absent sf).
        * symmetry. apply set_mid. exact N1.
        * rewrite (existsb_names sf _ (hdr ++ [(lf, WLen 4 o); (bf, WBody k)])) by (rewrite !map_app, Nn; reflexivity). exact Hs.
      + cbn [map fst].
        assert (N3 : existsb (fun fv : string * val => String.eqb sf (fst fv)) (hn ++ [(lf, VInt 0); (bf, yn)]) = false).
        { rewrite (existsb_names sf _ (hdr ++ [(lf, WLen 4 o); (bf, WBody k)])) by (rewrite !map_app, Nn; reflexivity).
          apply (name_new Y (hdr ++ [(lf, WLen 4 o); (bf, WBody k)]) sf (WSum 4 o alg) [] []). rewrite <- app_assoc. exact Hok. }
        replace (hn ++ [(lf, VInt 0); (bf, yn); (sf, VInt 0)]) with ((hn ++ [(lf, VInt 0); (bf, yn)]) ++ [(sf, VInt 0)]) by (rewrite <- app_assoc; reflexivity).
        rewrite set_mid by exact N3. rewrite <- app_assoc. cbn [app]. rewrite set_mid by exact N1. reflexivity.
    - f_equal. rewrite Eser, !app_length, number_length, Lt. rewrite (proj2 (fill_ints C Y E hdr Hh hfs [] [] [] H1)). lia.
  Qed.
End Frames.
