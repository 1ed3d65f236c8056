(* What encode changes in the object. *)
From Coq Require Import ZArith List Bool String Lia.
From Verif.Model Require Import JavaPrim ByteBuf Utf8 Codec Ast Interp.
From Verif.Spec Require Import Bytes Buffers Wire Reading.
From Verif.Proofs Require Import BytesFacts BufFacts ValInd Conform TableFacts EncodeFacts.
Import ListNotations.
Open Scope Z_scope.

Section Fill.
  Variable Y : layouts.
  Variable E : env.
  Notation sums := (checksum E).
  Notation ser := (ser Y).
  Notation fill := (fill_in Y sums).
  Notation fill_fields := (fill_fields Y E).
  Notation fill_list := (fill_list Y E).

  Definition forget_field (x : val) (w : wire) : val :=
    match w with WLen _ _ | WSum _ _ _ => VInt 0 | _ => forget Y x w end.
  Fixpoint forget_fields (fs : list (string * val)) (L : layout) : list (string * val) :=
    match fs, L with
    | (f, x) :: fs', (_, w) :: L' => (f, forget_field x w) :: forget_fields fs' L'
    | _, _ => fs
    end.
  Lemma forget_obj_eq c fs w L : find c Y = Some L -> forget Y (VObj c fs) w = VObj c (forget_fields fs L).
  Proof. intros H. cbn [forget]. rewrite H. reflexivity. Qed.

  Lemma length_ind2 {A} (P : list A -> Prop) : (forall l, (forall m, (List.length m < List.length l)%nat -> P m) -> P l) -> forall l, P l.
  Proof.
    intros H l. assert (forall n m, (List.length m < n)%nat -> P m) as A0.
    { induction n; intros m Hm; [lia|]. apply H. intros m' Hm'. apply IHn. lia. }
    apply (A0 (S (List.length l))). lia.
  Qed.

  (* induction over the fields in the pattern of fill_fields *)
  Lemma fill_forget v : forall pre w, forget Y (fill pre v w) w = forget Y v w.
  Proof.
    induction v as [|z|z|s|l IH|c fs IH] using val_ind2; intros pre w; try reflexivity.
    - destruct w; try reflexivity. rewrite fill_list_eq. cbn [forget]. f_equal.
      generalize (pre ++ number o n (Z.of_nat (List.length l))). clear pre.
      induction IH as [|x l Hx Hl IHl]; intros pre; auto. cbn [EncodeFacts.fill_list map]. f_equal; auto.
    - destruct (find c Y) as [L|] eqn:HL; [|cbn [fill_in]; rewrite HL; reflexivity].
      rewrite (fill_obj_eq _ _ _ _ _ _ _ HL), !(forget_obj_eq _ _ _ _ HL). f_equal. clear HL.
      revert pre L IH. induction fs as [fs IHfs] using length_ind2. intros pre L IH.
      destruct fs as [|[f x] fs]; auto. destruct L as [|[g w'] L]; auto.
      inversion IH as [|? ? Hx IH']; subst. cbn [snd] in Hx.
      assert (R : forall pre L, forget_fields (fill_fields pre fs L) L = forget_fields fs L) by (intros; apply IHfs; auto; simpl; lia).
      destruct w'; cbn [EncodeFacts.fill_fields forget_fields forget_field]; rewrite ?Hx, ?R; auto.
      destruct fs as [|[h y] fs]; auto. destruct L as [|[k w2] L]; auto.
      cbn [forget_fields]. f_equal. inversion IH' as [|? ? Hy IH'']; subst. cbn [snd] in Hy. f_equal.
      + unfold forget_field. rewrite Hy. destruct w2; auto.
      + apply IHfs; auto. simpl; lia.
  Qed.

  (* properties that do not look at length and checksum fields *)
  Lemma forget_canonical v : forall w, canonical Y (forget Y v w) w = canonical Y v w.
  Proof.
    induction v as [|z|z|s|l IH|c fs IH] using val_ind2; intros w; try reflexivity.
    - destruct w; try reflexivity. cbn [forget canonical]. induction IH as [|x l Hx Hl IHl]; auto. cbn [map forallb]. rewrite Hx, IHl.
      f_equal. f_equal. destruct w; auto. destruct x; auto. cbn. destruct (find c Y); reflexivity.
    - destruct (find c Y) as [L|] eqn:HL; [|cbn [forget]; rewrite HL; reflexivity].
      rewrite (forget_obj_eq _ _ _ _ HL).
      assert (A : all2 (fun fv fw => canonical Y (snd fv) (snd fw)) (forget_fields fs L) L = all2 (fun fv fw => canonical Y (snd fv) (snd fw)) fs L).
      { clear HL. revert L. induction IH as [|[f x] fs Hx Hfs IHfs]; intros [|[g w'] L]; auto. cbn [forget_fields all2 snd] in *. rewrite IHfs. f_equal.
        destruct w'; cbn [forget_field]; auto; destruct x; reflexivity. }
      destruct w; cbn [canonical text]; rewrite ?HL; auto.
  Qed.
  Lemma forget_text v w : text (forget Y v w) = text v.
  Proof. destruct v; auto; cbn. destruct w; auto. destruct (find c Y); reflexivity. Qed.

  Lemma forget_exact v : forall w, exact_form Y (forget Y v w) w = exact_form Y v w.
  Proof.
    induction v as [|z|z|s|l IH|c fs IH] using val_ind2; intros w; try reflexivity.
    - destruct w; try reflexivity. cbn [forget exact_form]. destruct l as [|x0 l0]; auto. cbn [map]. 
      change (forallb (fun x => exact_form Y x w) (map (fun x => forget Y x w) (x0 :: l0)) = forallb (fun x => exact_form Y x w) (x0 :: l0)).
      induction IH as [|x l Hx Hl IHl]; auto. cbn [map forallb]. rewrite Hx, IHl. reflexivity.
    - destruct (find c Y) as [L|] eqn:HL; [|cbn [forget]; rewrite HL; reflexivity].
      rewrite (forget_obj_eq _ _ _ _ HL).
      assert (A : all2 (fun fv fw => exact_form Y (snd fv) (snd fw)) (forget_fields fs L) L = all2 (fun fv fw => exact_form Y (snd fv) (snd fw)) fs L).
      { clear HL. revert L. induction IH as [|[f x] fs Hx Hfs IHfs]; intros [|[g w'] L]; auto. cbn [forget_fields all2 snd] in *. rewrite IHfs. f_equal.
        destruct w'; cbn [forget_field]; auto; destruct x; reflexivity. }
      destruct w; cbn [exact_form]; rewrite ?HL; auto.
  Qed.

  Lemma forget_tag k fs L : tag k (forget_fields fs L) L = tag k fs L.
  Proof.
    revert L; induction fs as [|[f x] fs IH]; intros [|[g w] L]; auto. cbn [forget_fields tag]. destruct (String.eqb k f); auto.
    destruct w; auto; cbn [forget_field tag_of]; rewrite ?forget_text; auto.
    destruct x; auto. cbn. destruct (find c Y); reflexivity.
  Qed.
  Lemma forget_parsable F v : forall w, parsable Y F (forget Y v w) w = parsable Y F v w.
  Proof.
    induction v as [|z|z|s|l IH|c fs IH] using val_ind2; intros w; try reflexivity.
    - destruct w; try reflexivity. cbn [forget parsable]. f_equal.
      + unfold short_enough. rewrite map_length. reflexivity.
      + induction IH as [|x l Hx Hl IHl]; auto. cbn [map forallb]. rewrite Hx, IHl. reflexivity.
    - destruct (find c Y) as [L|] eqn:HL; [|cbn [forget]; rewrite HL; reflexivity].
      rewrite (forget_obj_eq _ _ _ _ HL).
      assert (A : forall full full', (forall k, tag k full L = tag k full' L) -> forall L0,
         all2 (fun fv fw => parsable Y F (snd fv) (snd fw) && match snd fw, snd fv with WBody k, VObj c' _ => match tag k full L with Some t => match F c t with Some c'' => String.eqb c' c'' | None => false end | None => false end | _, _ => true end) (forget_fields fs L0) L0
       = all2 (fun fv fw => parsable Y F (snd fv) (snd fw) && match snd fw, snd fv with WBody k, VObj c' _ => match tag k full' L with Some t => match F c t with Some c'' => String.eqb c' c'' | None => false end | None => false end | _, _ => true end) fs L0).
      { intros full full' Ht. clear HL. induction IH as [|[f x] fs Hx Hfs IHfs]; intros [|[g w'] L0]; auto. cbn [forget_fields all2 snd] in *. rewrite IHfs. f_equal.
        destruct w'; cbn [forget_field]; rewrite ?Hx; auto; try (destruct x; reflexivity).
        rewrite <- Ht. f_equal. destruct x; auto. cbn [forget]. destruct (find c0 Y); reflexivity. }
      destruct w; cbn [parsable text]; rewrite ?HL; auto; apply A; intros k; apply forget_tag.
  Qed.

  Lemma fill_canonical pre v w : canonical Y (fill pre v w) w = canonical Y v w.
  Proof. rewrite <- forget_canonical, fill_forget, forget_canonical. reflexivity. Qed.
  Lemma fill_exact pre v w : exact_form Y (fill pre v w) w = exact_form Y v w.
  Proof. rewrite <- forget_exact, fill_forget, forget_exact. reflexivity. Qed.
  Lemma fill_parsable F pre v w : parsable Y F (fill pre v w) w = parsable Y F v w.
  Proof. rewrite <- forget_parsable, fill_forget, forget_parsable. reflexivity. Qed.

  (* filling in twice *)
  Lemma fill_idem v : forall pre w, fill pre (fill pre v w) w = fill pre v w.
  Proof.
    induction v as [|z|z|s|l IH|c fs IH] using val_ind2; intros pre w; try reflexivity.
    - destruct w; try reflexivity. rewrite !fill_list_eq, fill_list_length. f_equal.
      generalize (pre ++ number o n (Z.of_nat (List.length l))). clear pre.
      induction IH as [|x l Hx Hl IHl]; intros pre; auto. cbn [EncodeFacts.fill_list]. rewrite Hx. f_equal. auto.
    - destruct (find c Y) as [L|] eqn:HL; [|cbn [fill_in]; rewrite HL; cbn [fill_in]; rewrite HL; reflexivity].
      rewrite !(fill_obj_eq _ _ _ _ _ _ _ HL). f_equal. clear HL.
      revert pre L IH. induction fs as [fs IHfs] using length_ind2. intros pre L IH.
      destruct fs as [|[f x] fs]; auto. destruct L as [|[g w'] L]; auto.
      inversion IH as [|? ? Hx IH']; subst. cbn [snd] in Hx.
      assert (R : forall pre, fill_fields pre (fill_fields pre fs L) L = fill_fields pre fs L) by (intros; apply IHfs; auto; simpl; lia).
      destruct w'; cbn [EncodeFacts.fill_fields]; rewrite ?Hx, ?R; auto.
      + destruct fs as [|[h y] fs]; auto. destruct L as [|[k w2] L]; auto.
        inversion IH' as [|? ? Hy IH'']; subst. cbn [snd] in Hy. cbn [EncodeFacts.fill_fields]. rewrite Hy. f_equal. f_equal.
        apply IHfs; auto. simpl; lia.
      + set (x' := match sums alg with Some c0 => VInt (wrap 32 (c0 pre)) | None => x end).
        replace (match sums alg with Some c0 => VInt (wrap 32 (c0 pre)) | None => x' end) with x' by (unfold x'; destruct (sums alg); auto).
        rewrite R. reflexivity.
  Qed.
End Fill.

Section FillTyped.
  Variable C : list (string * class_def).
  Variable Y : layouts.
  Hypothesis HC : conforms C Y.
  Variable E : env.
  Notation sums := (checksum E).
  Notation ser := (ser Y).
  Notation fill := (fill_in Y sums).
  Notation fill_fields := (fill_fields Y E).
  Notation fill_list := (fill_list Y E).

  Definition typed0 (v : val) (w : wire) : Prop := v = VNull \/ typed C v (wire_type w) = true.
  Lemma typed0_list l n o w : typed0 (VList l) (WList n o w) -> Forall (fun x => typed0 x w) l.
  Proof.
    intros [H|H]; [discriminate|]. change (wire_type (WList n o w)) with (TList (wire_type w)) in H. cbn [typed] in H.
    rewrite forallb_forall in H. apply Forall_forall. intros x Hx. specialize (H x Hx). apply orb_true_iff in H as [H|H]; [left|right; auto].
    destruct x; auto; discriminate.
  Qed.
  Lemma typed0_obj c fs w : typed0 (VObj c fs) w -> exists L, find c Y = Some L /\ fields_ok C fs L = true.
  Proof.
    intros [H|H]; [discriminate|]. destruct (typed_obj_known C Y c fs _ HC H) as [L HL]. exists L. split; auto. eapply typed_obj; eauto.
  Qed.
  Lemma is_int_len n o x : typed C x (wire_type (WLen n o)) = true -> exists z, x = VInt z.
  Proof. cbn. intros H. destruct x; eauto; destruct n as [|[|[|[|[|]]]]]; discriminate H. Qed.
  Lemma is_int_sum n o a x : typed C x (wire_type (WSum n o a)) = true -> exists z, x = VInt z.
  Proof. cbn. intros H. destruct x; eauto; destruct n as [|[|[|[|[|]]]]]; discriminate H. Qed.

  Lemma list_wire l w : typed0 (VList l) w -> exists n o w', w = WList n o w'.
  Proof.
    intros [H|H]; [discriminate|]. destruct w; eauto; try discriminate H; cbn in H;
      repeat (match type of H with context[match ?n with _ => _ end] => is_var n; destruct n end; try discriminate H).
  Qed.

  Lemma forget_complete v : forall w, typed0 v w -> complete Y (forget Y v w) w = complete Y v w.
  Proof.
    induction v as [|z|z|s|l IH|c fs IH] using val_ind2; intros w Ht; auto.
    - destruct (list_wire l w Ht) as (n & o & w' & ->). cbn [forget complete].
      apply typed0_list in Ht. induction IH as [|x l Hx Hl IHl]; auto. inversion Ht; subst. cbn [map forallb]. rewrite Hx, IHl; auto.
    - destruct (typed0_obj _ _ _ Ht) as (L & HL & Hfs).
      rewrite (forget_obj_eq _ _ _ _ _ HL). cbn [complete]. rewrite HL. clear HL Ht. revert L Hfs.
      induction IH as [|[f x] fs Hx Hf IHf]; intros [|[g w'] L] Hfs; auto. apply fields_ok_cons in Hfs as (_ & Hxt & Hfs).
      cbn [forget_fields all2 snd]. rewrite IHf by exact Hfs. f_equal. cbn [snd] in Hx.
      destruct w'; cbn [forget_field]; try (apply Hx; right; exact Hxt).
      + destruct (is_int_len _ _ _ Hxt) as [z ->]. reflexivity.
      + destruct (is_int_sum _ _ _ _ Hxt) as [z ->]. reflexivity.
  Qed.
  Lemma forget_nesting v : forall w, typed0 v w -> nesting (forget Y v w) = nesting v.
  Proof.
    induction v as [|z|z|s|l IH|c fs IH] using val_ind2; intros w Ht; auto.
    - destruct (list_wire l w Ht) as (n & o & w' & ->). cbn [forget nesting].
      apply typed0_list in Ht. induction IH as [|x l Hx Hl IHl]; auto. inversion Ht; subst. cbn [map max_of]. rewrite Hx, IHl; auto.
    - destruct (typed0_obj _ _ _ Ht) as (L & HL & Hfs).
      rewrite (forget_obj_eq _ _ _ _ _ HL). cbn [nesting]. f_equal. clear HL Ht. revert L Hfs.
      induction IH as [|[f x] fs Hx Hf IHf]; intros [|[g w'] L] Hfs; auto. apply fields_ok_cons in Hfs as (_ & Hxt & Hfs).
      cbn [forget_fields max_of snd]. rewrite IHf by exact Hfs. f_equal. cbn [snd] in Hx.
      destruct w'; cbn [forget_field]; try (apply Hx; right; exact Hxt).
      + destruct (is_int_len _ _ _ Hxt) as [z ->]. reflexivity.
      + destruct (is_int_sum _ _ _ _ Hxt) as [z ->]. reflexivity.
  Qed.

  Lemma fill_null pre v w : fill pre v w = VNull -> v = VNull.
  Proof.
    destruct v; cbn [fill_in]; auto; try congruence.
    - destruct w; congruence.
    - destruct (find c Y); congruence.
  Qed.

  Lemma ok_len_body seen f n o L : ok_fields Y seen ((f, WLen n o) :: L) = true ->
    n = 4%nat /\ exists g k L', L = (g, WBody k) :: L' /\ ok_fields Y (seen ++ [(f, WLen n o)] ++ [(g, WBody k)]) L' = true.
  Proof.
    intros H. cbn [ok_fields] in H. apply andb_true_iff in H as [H H3]. apply andb_true_iff in H as [_ H2].
    apply andb_true_iff in H2 as [H1 H2]. apply Nat.eqb_eq in H1. split; auto.
    destruct L as [|[g wg] L]; [discriminate|]. destruct wg; try discriminate. exists g, key, L. split; auto.
    cbn [ok_fields] in H3. apply andb_true_iff in H3 as [_ H3]. rewrite app_assoc. exact H3.
  Qed.
  Lemma ok_sum seen f n o a L : ok_fields Y seen ((f, WSum n o a) :: L) = true -> n = 4%nat.
  Proof.
    intros H. cbn [ok_fields] in H. apply andb_true_iff in H as [H H3]. apply andb_true_iff in H as [_ H2]. apply Nat.eqb_eq in H2. auto.
  Qed.
  Lemma ok_rest seen f w L : ok_fields Y seen ((f, w) :: L) = true -> ok_fields Y (seen ++ [(f, w)]) L = true.
  Proof. intros H. cbn [ok_fields] in H. apply andb_true_iff in H as [_ H]. exact H. Qed.

  Lemma fill_typed v : forall pre w, typed0 v w -> Z.of_nat (List.length (ser (fill pre v w) w)) < 2 ^ 31 -> typed0 (fill pre v w) w.
  Proof.
    induction v as [|z|z|s|l IH|c fs IH] using val_ind2; intros pre w Ht Hl; auto.
    - destruct (list_wire l w Ht) as (n & o & w' & ->). rewrite fill_list_eq in *. cbn [Wire.ser] in Hl. rewrite app_length in Hl.
      apply typed0_list in Ht. right. change (wire_type (WList n o w')) with (TList (wire_type w')). cbn [typed].
      assert (Hl' : Z.of_nat (List.length (flat_map (fun x => ser x w') (fill_list w' (pre ++ number o n (Z.of_nat (List.length l))) l))) < 2 ^ 31) by lia.
      clear Hl. revert Hl'. generalize (pre ++ number o n (Z.of_nat (List.length l))). clear pre.
      revert Ht. induction IH as [|x l Hx Hf IHf]; intros Ht pre Hl; auto. inversion Ht as [|? ? Hxt Ht']; subst.
      cbn [EncodeFacts.fill_list flat_map forallb] in *. rewrite app_length in Hl.
      rewrite (IHf Ht' (pre ++ ser (fill pre x w') w')) by lia. rewrite andb_true_r. apply orb_true_iff.
      destruct (Hx pre w' Hxt ltac:(lia)) as [Q|Q]; [left; rewrite Q; reflexivity|right; exact Q].
    - destruct (typed0_obj _ _ _ Ht) as (L & HL & Hfs). rewrite (fill_obj_eq _ _ _ _ _ _ _ HL) in *.
      destruct Ht as [Ht|Ht]; [discriminate|]. right.
      assert (Hw : is_obj_wire w = true).
      { destruct w; auto; cbn in Ht;
          repeat (match type of Ht with context[match ?n with _ => _ end] => is_var n; destruct n end; try discriminate Ht). }
      rewrite (ser_obj_eq _ _ _ _ _ Hw HL) in Hl.
      pose proof (conforms_find C Y c HC) as F. rewrite HL in F. destruct F as (cd & E1 & _ & E2 & _).
      pose proof (conforms_ok C Y c L HC HL) as Hok.
      cbn [typed] in Ht |- *. apply andb_true_iff in Ht as [-> _]. cbn [andb]. rewrite E1, E2. unfold types_of. rewrite forall2b_map_r.
      change (fields_ok C (fill_fields pre fs L) L = true). clear HL E1 E2 cd w Hw.
      revert pre L Hfs Hl Hok IH. generalize (@nil (string * wire)). induction fs as [fs IHfs] using length_ind2. intros seen pre L Hfs Hl Hok IH.
      destruct fs as [|[f x] fs]; auto. destruct L as [|[g w'] L]; auto.
      inversion IH as [|? ? Hx IH']; subst. cbn [snd] in Hx. apply fields_ok_cons in Hfs as (-> & Hxt & Hfs).
      destruct (simple_wire w') eqn:Hs.
      + rewrite fill_simple in * by exact Hs. unfold ser_fields in Hl. cbn [concat2 snd] in Hl. rewrite app_length in Hl.
        unfold fields_ok. cbn [forall2b fst snd]. rewrite String.eqb_refl. cbn [andb].
        apply andb_true_iff. split.
        * destruct (Hx pre w' (or_intror Hxt) ltac:(lia)) as [Q|Q]; [|exact Q].
          apply fill_null in Q as Q'. subst x. exact Hxt.
        * apply (IHfs fs ltac:(simpl; lia) (seen ++ [(g, w')])); auto; [|apply (ok_rest _ _ _ _ Hok)]. unfold ser_fields; lia.
      + destruct w'; try discriminate Hs.
        * apply ok_len_body in Hok as (-> & h & k & L' & -> & Hok). destruct fs as [|[h' y] fs]; [discriminate|].
          apply fields_ok_cons in Hfs as (-> & Hyt & Hfs). inversion IH' as [|? ? Hy IH'']; subst. cbn [snd] in Hy.
          cbn [EncodeFacts.fill_fields] in *. unfold ser_fields in Hl. cbn [concat2 snd] in Hl. rewrite !app_length in Hl.
          unfold fields_ok. cbn [forall2b fst snd]. rewrite !String.eqb_refl. cbn [andb].
          apply andb_true_iff. split; [|apply andb_true_iff; split].
          -- change (in_signed 32 (Z.of_nat (List.length (ser (fill (pre ++ repeat 0 4) y (WBody k)) (WBody k)))) = true).
             apply in_signed_spec. change (2 ^ (32 - 1)) with (2 ^ 31). lia.
          -- destruct (Hy (pre ++ repeat 0 4) (WBody k) (or_intror Hyt) ltac:(lia)) as [Q|Q]; [|exact Q].
             apply fill_null in Q as Q'. subst y. exact Hyt.
          -- apply (IHfs fs ltac:(simpl; lia) (seen ++ [(g, WLen 4 o)] ++ [(h, WBody k)])); auto. unfold ser_fields; lia.
        * pose proof (ok_sum _ _ _ _ _ _ Hok) as ->.
          cbn [EncodeFacts.fill_fields] in *. unfold ser_fields in Hl. cbn [concat2 snd] in Hl. rewrite !app_length in Hl.
          unfold fields_ok. cbn [forall2b fst snd]. rewrite !String.eqb_refl. cbn [andb].
          apply andb_true_iff. split.
          -- destruct (sums alg); [|exact Hxt]. cbn. apply (wrap_in_signed 32). lia.
          -- apply (IHfs fs ltac:(simpl; lia) (seen ++ [(g, WSum 4 o alg)])); auto; [|apply (ok_rest _ _ _ _ Hok)]. unfold ser_fields; lia.
  Qed.
  Lemma fill_complete v pre w : typed0 v w -> typed0 (fill pre v w) w -> complete Y (fill pre v w) w = complete Y v w.
  Proof. intros H1 H2. rewrite <- forget_complete, fill_forget, forget_complete; auto. Qed.
  Lemma fill_nesting v pre w : typed0 v w -> typed0 (fill pre v w) w -> nesting (fill pre v w) = nesting v.
  Proof. intros H1 H2. rewrite <- (forget_nesting (fill pre v w) w), fill_forget, forget_nesting; auto. Qed.
End FillTyped.
