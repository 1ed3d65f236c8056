(* The number of bytes written. *)
From Coq Require Import ZArith List Bool String Lia.
From Verif.Model Require Import JavaPrim ByteBuf Utf8 Codec Ast Interp.
From Verif.Spec Require Import Bytes Buffers Wire Reading Sizes Flat.
From Verif.Proofs Require Import BytesFacts BufFacts CodecFacts ValInd Conform TableFacts EncodeFacts DecodeFacts FillFacts RoundTrip.
Import ListNotations.
Open Scope Z_scope.

Section Size.
  Variable C : list (string * class_def).
  Variable Y : layouts.
  Hypothesis HC : conforms C Y.
  Variable E : env.
  Notation typed0 := (typed0 C).

  Lemma size_forget v : forall w, size_of Y (forget Y v w) w = size_of Y v w.
  Proof.
    induction v as [|z|z|s|l IH|c fs IH] using val_ind2; intros w; try reflexivity.
    - destruct w; try reflexivity. cbn [forget size_of]. f_equal. induction IH as [|x l Hx Hl IHl]; auto. cbn [map sum_of]. rewrite Hx, IHl. reflexivity.
    - destruct (find c Y) as [L|] eqn:HL; [|cbn [forget]; rewrite HL; reflexivity].
      rewrite (forget_obj_eq _ _ _ _ _ HL).
      assert (A : sum2 (fun fv fw => size_of Y (snd fv) (snd fw)) (forget_fields Y fs L) L = sum2 (fun fv fw => size_of Y (snd fv) (snd fw)) fs L).
      { clear HL. revert L. induction IH as [|[f x] fs Hx Hfs IHfs]; intros [|[g w'] L]; auto. cbn [forget_fields sum2 snd] in *. rewrite IHfs. f_equal.
        destruct w'; cbn [forget_field]; auto; destruct x; reflexivity. }
      destruct w; cbn [size_of text]; rewrite ?HL; auto.
  Qed.
  Lemma size_fill pre v w : size_of Y (fill_in Y (checksum E) pre v w) w = size_of Y v w.
  Proof. rewrite <- size_forget, (fill_forget Y E), size_forget. reflexivity. Qed.

  Lemma ser_size v : forall w, ok_field Y w = true -> typed C v (wire_type w) = true \/ (v = VNull /\ ok_elem Y w = true) ->
    complete Y v w = true -> List.length (ser Y v w) = size_of Y v w.
  Proof.
    induction v as [|z|z|s|l IH|c fs IH] using val_ind2; intros w Hok Ht Hc.
    - destruct w; try discriminate Hc; cbn [ser size_of text]; rewrite ?number_length; try reflexivity; try (simpl; lia).
      + destruct lft; [reflexivity|]. apply fixed_length. auto.
      + destruct Ht as [Ht|[_ Ht]]; [|discriminate]. destruct (is_int_len C _ _ _ Ht); discriminate.
      + destruct Ht as [Ht|[_ Ht]]; [|discriminate]. destruct (is_int_sum C _ _ _ _ Ht); discriminate.
    - destruct Ht as [Ht|[Ht _]]; [|discriminate]. destruct w; try discriminate Ht; cbn [ser size_of]; rewrite ?number_length; auto.
      cbn in Ht. destruct n as [|[|[|[|[|]]]]]; discriminate Ht.
    - destruct Ht as [Ht|[Ht _]]; [|discriminate]. destruct w; try discriminate Ht; cbn [ser size_of]; rewrite ?number_length; auto;
        cbn in Ht; destruct n as [|[|[|[|[|]]]]]; discriminate Ht.
    - destruct Ht as [Ht|[Ht _]]; [|discriminate]. destruct w; try discriminate Ht; cbn [ser size_of text]; rewrite ?app_length, ?number_length; auto;
        try (cbn in Ht; destruct n as [|[|[|[|[|]]]]]; discriminate Ht).
      destruct lft; cbn [andb]; [destruct s; [reflexivity|]|]; apply fixed_length; auto. right. discriminate.
    - destruct Ht as [Ht|[Ht _]]; [|discriminate]. destruct (list_wire C l w (or_intror Ht)) as (n & o & w' & ->). cbn [ser size_of]. rewrite app_length, number_length. f_equal.
      cbn [ok_field] in Hok. apply andb_true_iff in Hok as [_ Hok].
      pose proof (typed0_list C l n o w' (or_intror Ht)) as Hl. cbn [complete] in Hc. clear Ht.
      induction IH as [|x l Hx Hl' IHl]; auto. inversion Hl; subst. cbn [forallb] in Hc. apply andb_true_iff in Hc as [Hc1 Hc2].
      cbn [flat_map sum_of]. rewrite app_length, IHl by auto. f_equal. apply Hx; auto; [apply ok_elem_field; exact Hok|].
      destruct H1 as [->|H1]; auto.
    - destruct Ht as [Ht|[Ht _]]; [|discriminate]. destruct (typed0_obj C Y HC c fs w (or_intror Ht)) as (L & HL & Hfs).
      assert (A : List.length (ser_fields Y fs L) = sum2 (fun fv fw => size_of Y (snd fv) (snd fw)) fs L).
      { pose proof (conforms_ok C Y c L HC HL) as Hokl. cbn [complete] in Hc. rewrite HL in Hc. clear HL Ht Hok. revert L Hfs Hokl Hc. generalize (@nil (string * wire)).
        induction IH as [|[f x] fs Hx Hf IHf]; intros seen [|[g w'] L] Hfs Hokl Hc; auto. apply fields_ok_cons in Hfs as (-> & Hxt & Hfs).
        apply ok_field_of in Hokl as (_ & Hw & Hokl & _). unfold ser_fields in *. cbn [all2 concat2 sum2 snd] in *. apply andb_true_iff in Hc as [Hc1 Hc2].
        rewrite app_length, (IHf _ L Hfs Hokl Hc2). f_equal. apply Hx; auto. }
      destruct (obj_wire C c fs w (or_intror Ht)) as [[c' ->]|[k ->]]; rewrite (ser_obj_eq Y c fs _ L) by auto; rewrite A; cbn [size_of]; rewrite HL; reflexivity.
  Qed.

  (* flat layouts *)
  Lemma size_flat fs (L : layout) : List.length fs = List.length L -> flat L = true ->
    lefts_filled fs L = true ->
    sum2 (fun fv fw => size_of Y (snd fv) (snd fw)) fs L = total_width L.
  Proof.
    revert L; induction fs as [|[f x] fs IH]; intros [|[g w] L] Hl Hf Hp; try discriminate; auto. unfold lefts_filled in Hp. cbn [flat forallb all2 sum2 snd total_width] in *.
    apply andb_true_iff in Hf as [Hw Hf]. apply andb_true_iff in Hp as [Hp Hps]. rewrite (IH L) by (auto; simpl in Hl; lia). f_equal.
    destruct w; try discriminate Hw; destruct x; try reflexivity; cbn [size_of width text] in *; destruct lft; try reflexivity; try discriminate Hp; cbn [andb]; destruct s; try reflexivity; discriminate Hp.
  Qed.
End Size.
