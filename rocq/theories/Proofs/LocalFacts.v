(* What encode and decode depend on. *)
From Coq Require Import ZArith List Bool String Lia.
From Verif.Model Require Import JavaPrim ByteBuf Utf8 Codec Ast Interp.
From Verif.Spec Require Import Bytes Buffers Wire Locality.
From Verif.Proofs Require Import BytesFacts BufFacts ValInd Conform TableFacts EncodeFacts FillFacts DecodeFacts Messages Lockstep Twin.
Import ListNotations.
Open Scope Z_scope.

Section Fill.
  Variable Y : layouts.
  Variable E : env.
  Notation sums := (checksum E).
  Lemma fill_local v : unsummed Y sums v = true -> forall pre pre' w, fill_in Y sums pre v w = fill_in Y sums pre' v w.
  Proof.
    induction v as [|z|z|s|l IH|c fs IH] using val_ind2; intros U pre pre' w; try reflexivity.
    - destruct w; try reflexivity. rewrite !fill_list_eq. f_equal. cbn [unsummed] in U. rewrite forallb_forall in U.
      generalize (pre ++ number o n (Z.of_nat (List.length l))) (pre' ++ number o n (Z.of_nat (List.length l))). clear pre pre'.
      induction IH as [|x l Hx Hl IHl]; intros pre pre'; auto. cbn [EncodeFacts.fill_list].
      rewrite (Hx (U x (or_introl eq_refl)) pre pre'). f_equal. apply IHl. intros y Hy. apply U. right; auto.
    - destruct (find c Y) as [L|] eqn:HL; [|cbn [fill_in]; rewrite HL; reflexivity].
      rewrite !(fill_obj_eq _ _ _ _ _ _ _ HL). f_equal. cbn [unsummed] in U. rewrite HL in U. apply andb_true_iff in U as [UL UF]. clear HL.
      revert pre pre' L UL IH UF. induction fs as [fs IHfs] using length_ind2. intros pre pre' L UL IH UF.
      destruct fs as [|[f x] fs]; auto. destruct L as [|[g w'] L]; auto.
      inversion IH as [|? ? Hx IH']; subst. cbn [snd] in Hx. cbn [forallb snd] in UL, UF. apply andb_true_iff in UL as [U1 UL]. apply andb_true_iff in UF as [Ux UF].
      specialize (Hx Ux).
      assert (R : forall pre pre', fill_fields Y E pre fs L = fill_fields Y E pre' fs L) by (intros; apply IHfs; auto; simpl; lia).
      destruct w'; cbn [EncodeFacts.fill_fields]; try (rewrite (Hx pre pre'); f_equal; apply R).
      + destruct fs as [|[h y] fs]; auto. destruct L as [|[k w2] L]; auto.
        inversion IH' as [|? ? Hy IH'']; subst. cbn [snd] in Hy. cbn [forallb snd] in UL, UF. apply andb_true_iff in UL as [U2 UL]. apply andb_true_iff in UF as [Uy UF].
        rewrite (Hy Uy (pre ++ repeat 0 n) (pre' ++ repeat 0 n)). f_equal. f_equal. apply IHfs; auto. simpl; lia.
      + destruct (sums alg); [discriminate|]. f_equal. apply R.
  Qed.
End Fill.

Section Encode.
  Variable C : list (string * class_def).
  Variable Y : layouts.
  Hypothesis HC : conforms C Y.
  Variable E : env.
  Hypothesis HE : classes E = C.
  Theorem encode_local d c v b v1 b1 bs b' : object_of E c v = true -> buf_wf b = true -> buf_wf b' = true ->
    encode E d v b = (None, v1, b1) -> appended b bs b1 ->
    readable b' = readable b \/ unsummed Y (checksum E) v = true -> fits b' (List.length bs) ->
    exists b1', encode E d v b' = (None, v1, b1') /\ appended b' bs b1'.
  Proof.
    intros Hv Hb Hb' He A Hs Hf.
    pose proof (encode_total C Y HC E HE d c v b Hv Hb) as P. cbv zeta in P. rewrite He in P. destruct P as (E1 & A1 & _ & Hc & Hn & _).
    assert (bs = ser Y v1 (WObj c)) as B. { rewrite E1. pose proof (app_content _ _ _ A) as Q. rewrite (app_content _ _ _ A1) in Q. apply app_inv_head in Q. auto. }
    assert (F : fill_in Y (checksum E) (readable b') v (WObj c) = v1).
    { rewrite E1. destruct Hs as [->|Hs]; [reflexivity|]. apply fill_local; auto. }
    pose proof (encode_total C Y HC E HE d c v b' Hv Hb') as P. cbv zeta in P. rewrite F, <- B in P.
    destruct (encode E d v b') as [[[e|] v'] b1'].
    - destruct P as (_ & _ & [[_ R]|[[_ R]|[_ R]]]); [congruence|contradiction|lia].
    - destruct P as (-> & A' & _). exists b1'. auto.
  Qed.
End Encode.

Lemma unpadded_reach b : unpadded b -> reach b = avail b.
Proof. unfold unpadded, reach, avail, cs_limit, capacity. intros [->| ->]; [reflexivity|]. destruct (cs_slack b); reflexivity. Qed.
Lemma reach_avail b : buf_wf b = true -> avail b <= reach b.
Proof. intros H. apply buf_wf_iff in H. pose proof (wf_widx _ H). unfold reach, avail, cs_limit. destruct (cs_slack b); lia. Qed.
Lemma slice_readable b k : buf_wf b = true -> Z.of_nat k <= avail b -> slice (arr b) (ridx b) k = firstn k (readable b).
Proof.
  intros H Hk. apply buf_wf_iff in H. pose proof (wf_ridx _ H). pose proof (wf_widx _ H). unfold avail in Hk.
  unfold slice, readable, content. rewrite skipn_firstn_comm, firstn_firstn, Nat.min_l by lia. reflexivity.
Qed.
Lemma avail_readable b : buf_wf b = true -> avail b = Z.of_nat (List.length (readable b)).
Proof. intros H. apply buf_wf_iff in H. rewrite readable_length by auto. pose proof (wf_ridx _ H). unfold avail. lia. Qed.

Lemma prefix_cut b b' rest : buf_wf b = true -> buf_wf b' = true -> unpadded b' -> readable b = readable b' ++ rest -> cut b b'.
Proof.
  intros H H' U R. pose proof (avail_readable b H) as A. pose proof (avail_readable b' H') as A'. rewrite R, app_length in A.
  pose proof (reach_avail b H). pose proof (unpadded_reach b' U). constructor; try lia.
  intros k Hk. rewrite !slice_readable by (auto; lia). rewrite R, firstn_app. replace (k - List.length (readable b'))%nat with O by lia. cbn [firstn]. rewrite app_nil_r. reflexivity.
Qed.
Lemma same_twin b b' : buf_wf b = true -> buf_wf b' = true -> unpadded b -> unpadded b' -> readable b = readable b' -> twin b b'.
Proof.
  intros H H' U U' R. pose proof (avail_readable b H) as A. pose proof (avail_readable b' H') as A'. rewrite R in A.
  pose proof (unpadded_reach b U). pose proof (unpadded_reach b' U'). constructor; try lia.
  intros k Hk. rewrite !slice_readable by (auto; lia). rewrite R. reflexivity.
Qed.
