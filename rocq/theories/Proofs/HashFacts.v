(* hashCode of messages. *)
From Coq Require Import ZArith List Bool String Lia.
From Verif.Model Require Import JavaPrim ByteBuf Utf8 Codec Ast Interp Library.
From Verif.Spec Require Import Bytes Buffers Wire Reading Layouts Equality.
From Verif.Proofs Require Import BytesFacts Conform TableFacts EncodeFacts DecodeFacts ValInd EqualFacts.
Import ListNotations.
Open Scope Z_scope.

Lemma as_int_wrap z : as_int z = wrap 32 z.
Proof. reflexivity. Qed.

(* h = 31*h + x, started at h0 *)
Lemma fold_weigh hs : forall h0, fold_left hash_step hs h0 mod 2 ^ 32 = (h0 * 31 ^ Z.of_nat (List.length hs) + weigh hs) mod 2 ^ 32.
Proof.
  induction hs as [|h hs IH]; intros h0; [cbn [fold_left List.length weigh Z.of_nat]; rewrite Z.pow_0_r, Z.mul_1_r, Z.add_0_r; reflexivity|].
  cbn [fold_left List.length weigh]. rewrite IH. unfold hash_step. rewrite Nat2Z.inj_succ, Z.pow_succ_r by lia.
  set (P := 31 ^ Z.of_nat (List.length hs)). rewrite (Z.add_mod (wrap 32 (31 * h0 + h) * P)), (Z.mul_mod (wrap 32 _)) by (first [apply Z.pow_nonzero; lia | reflexivity]).
  rewrite wrap_mod by lia. rewrite <- Z.mul_mod, <- Z.add_mod by (first [apply Z.pow_nonzero; lia | reflexivity]). f_equal. ring.
Qed.
Lemma fold_as_int hs h0 : in_signed 32 h0 = true -> fold_left hash_step hs h0 = as_int (h0 * 31 ^ Z.of_nat (List.length hs) + weigh hs).
Proof.
  intros H. assert (S : in_signed 32 (fold_left hash_step hs h0) = true).
  { clear - H. revert h0 H. induction hs as [|h hs IH]; intros h0 H; auto. cbn [fold_left]. apply IH. apply wrap_in_signed. lia. }
  rewrite <- (wrap_id 32 _ ltac:(lia) S). change (wrap 32 (fold_left hash_step hs h0) = wrap 32 (h0 * 31 ^ Z.of_nat (List.length hs) + weigh hs)). apply wrap_eq_mod. apply fold_weigh.
Qed.
Lemma fold_list hs : fold_left hash_step hs 1 = hash_list hs.
Proof. rewrite fold_as_int by reflexivity. unfold hash_list. rewrite Z.mul_1_l. reflexivity. Qed.
Lemma fold_string s : hash_chars s = as_int (weigh s).
Proof. unfold hash_chars. rewrite fold_as_int by reflexivity. rewrite Z.mul_0_l, Z.add_0_l. reflexivity. Qed.

Lemma lxor_mod a b n : 0 <= n -> Z.lxor a b mod 2 ^ n = Z.lxor (a mod 2 ^ n) (b mod 2 ^ n).
Proof.
  intros Hn. apply Z.bits_inj'. intros i Hi. rewrite Z.lxor_spec. destruct (Z_lt_ge_dec i n).
  - rewrite !Z.mod_pow2_bits_low by lia. apply Z.lxor_spec.
  - rewrite !Z.mod_pow2_bits_high by lia. reflexivity.
Qed.
Lemma high_half z : (z / 2 ^ 32) mod 2 ^ 32 = (z mod 2 ^ 64) / 2 ^ 32.
Proof.
  change (2 ^ 64) with (2 ^ 32 * 2 ^ 32). rewrite Z.rem_mul_r by (first [apply Z.pow_nonzero; lia | reflexivity]).
  rewrite Z.add_comm, Z.mul_comm, Z.div_add_l by (first [apply Z.pow_nonzero; lia | reflexivity]). rewrite (Z.div_small (z mod 2 ^ 32)); [lia|]. apply Z.mod_pos_bound. reflexivity.
Qed.
Lemma lushr_32 z : lushr z 32 = (z / 2 ^ 32) mod 2 ^ 32.
Proof.
  unfold lushr. change (Z.land 32 63) with 32. rewrite Z.shiftr_div_pow2 by lia. rewrite high_half. apply wrap_id; [lia|].
  apply in_signed_spec. rewrite <- high_half. pose proof (Z.mod_pos_bound (z / 2 ^ 32) (2 ^ 32) ltac:(lia)) as P. change (2 ^ (64 - 1)) with (2 ^ 31 * 2 ^ 32). lia.
Qed.
Lemma fold64_long z : fold64 z = hash_long z.
Proof.
  unfold fold64, hash_long. change (wrap 32 (Z.lxor z (lushr z 32)) = wrap 32 (Z.lxor (z mod 2 ^ 32) ((z / 2 ^ 32) mod 2 ^ 32))). apply wrap_eq_mod. rewrite lushr_32, !lxor_mod, !Z.mod_mod by lia. reflexivity.
Qed.
Lemma hash_long_wrap z : hash_long (wrap 64 z) = hash_long z.
Proof.
  unfold hash_long. rewrite !high_half, wrap_mod by lia. do 2 f_equal.
  assert (Q : forall x, x mod 2 ^ 32 = (x mod 2 ^ 64) mod 2 ^ 32).
  { intros x. change (2 ^ 64) with (2 ^ 32 * 2 ^ 32). rewrite Z.rem_mul_r by (first [apply Z.pow_nonzero; lia | reflexivity]). rewrite Z.mul_comm, Z.mod_add by (first [apply Z.pow_nonzero; lia | reflexivity]). rewrite Z.mod_mod by (first [apply Z.pow_nonzero; lia | reflexivity]). reflexivity. }
  rewrite (Q (wrap 64 z)), wrap_mod by lia. rewrite <- Q. reflexivity.
Qed.

Section Hash.
  Variable C : list (string * class_def).
  Variable Y : layouts.
  Hypothesis HC : conforms C Y.
  Variable E : env.
  Hypothesis HE : classes E = C.
  Hypothesis HN : forall c cd, assoc c C = Some cd -> names_ok cd.

  Fixpoint digests (fs : list (string * val)) (L : layout) : list Z :=
    match fs, L with
    | (f, x) :: fs', (_, w) :: L' => digest Y x w :: digests fs' L'
    | _, _ => []
    end.
  Lemma digest_obj_eq c fs w L : find c Y = Some L -> digest Y (VObj c fs) w = hash_list (digests fs L).
  Proof. intros H. cbn [digest]. rewrite H. reflexivity. Qed.

  Definition answer (d : nat) (v : val) (w : wire) : option Z := if has_void Y v || Nat.ltb d (nesting v) then None else Some (digest Y v w).
  Definition okh (hasho : val -> option Z) (d : nat) : Prop := forall c fs w, typed C (VObj c fs) TCodec = true -> hasho (VObj c fs) = answer d (VObj c fs) w.

  Lemma hash_leaf hasho d w a : okh hasho d -> (forall n o w', w <> WList n o w') -> ok_field Y w = true ->
    a = VNull \/ typed C a (wire_type w) = true -> hash_val hasho (wire_type w) a = answer d a w.
  Proof.
    intros IH Hw Hok [->|Ha]; [reflexivity|].
    assert (Hobj : typed C a TCodec = true -> hash_val hasho (wire_type w) a = answer d a w).
    { intros H. destruct (typed_codec C a H) as [->|(c & fs & ->)]; [reflexivity|]. cbn [hash_val]. apply IH. exact H. }
    assert (Hstr : typed C a TStr = true -> hash_val hasho (wire_type w) a = answer d a w).
    { intros H. destruct (typed_str C a H) as [->|(s & -> & _)]; [reflexivity|]. cbn [hash_val]. rewrite fold_string. reflexivity. }
    destruct w; cbn [ok_field ok_elem] in Hok; auto.
    - destruct (typed_int C a n o Hok Ha) as (z & -> & _).
      destruct n as [|[|[|[|[|[|[|[|[|n]]]]]]]]]; try discriminate Hok; cbn [wire_type hash_val]; rewrite ?fold64_long; reflexivity.
    - destruct (typed_flt C a n o Hok Ha) as (z & -> & Hz).
      destruct n as [|[|[|[|[|[|[|[|[|n]]]]]]]]]; try discriminate Hok; cbn [wire_type hash_val].
      + rewrite canon32_spec by lia. reflexivity.
      + rewrite canon64_spec, fold64_long, hash_long_wrap by lia. reflexivity.
    - apply Hobj. destruct (typed_tobj C a c Ha) as [->|(? & ->)]; auto. eapply typed_obj_codec; eauto.
    - exfalso. eapply Hw. reflexivity.
    - apply Nat.eqb_eq in Hok. subst n. destruct (typed_int C a 4 o eq_refl Ha) as (z & -> & _). reflexivity.
    - apply Nat.eqb_eq in Hok. subst n. destruct (typed_int C a 4 o eq_refl Ha) as (z & -> & _). reflexivity.
  Qed.

  Fixpoint hash_go (hasho : val -> option Z) (t : ftype) (l : list val) (h : Z) : option Z :=
    match l with
    | [] => Some h
    | x :: r => match hash_val hasho t x with
                | Some k => hash_go hasho t r (hash_step h k)
                | None => None
                end
    end.
  Lemma hash_val_list hasho t l : hash_val hasho (TList t) (VList l) = hash_go hasho t l 1.
  Proof. cbn [hash_val]. generalize 1. induction l as [|x l IH]; intros h; auto. cbn [hash_go]. destruct (hash_val hasho t x); auto. Qed.

  Lemma ltb_max d a b : Nat.ltb d (Nat.max a b) = Nat.ltb d a || Nat.ltb d b.
  Proof. destruct (Nat.ltb_spec d (Nat.max a b)), (Nat.ltb_spec d a), (Nat.ltb_spec d b); cbn; auto; lia. Qed.

  Lemma hash_any hasho d w a : okh hasho d -> ok_field Y w = true -> typed C a (wire_type w) = true -> hash_val hasho (wire_type w) a = answer d a w.
  Proof.
    intros IH Hok Ha. assert (D : (exists n o w', w = WList n o w') \/ forall n o w', w <> WList n o w') by (destruct w; eauto; right; discriminate).
    destruct D as [(n & o & w' & ->)|D]; [|eapply hash_leaf; eauto].
    cbn [ok_field] in Hok. apply andb_true_iff in Hok as [_ Hok]. change (wire_type (WList n o w')) with (TList (wire_type w')) in *.
    destruct (typed_list C a _ Ha) as [->|(l & -> & Hl)]; [reflexivity|]. rewrite hash_val_list. unfold answer. cbn [has_void nesting digest].
    rewrite <- fold_list. generalize 1. clear Ha. induction l as [|x l IHl]; intros h; [reflexivity|].
    cbn [forallb] in Hl. apply andb_true_iff in Hl as [Hx Hl]. cbn [hash_go existsb max_of map fold_left]. rewrite ltb_max.
    rewrite (hash_leaf hasho d w' x IH); [|intros n' o' w'' ->; discriminate Hok|destruct w'; auto; discriminate|destruct x; auto].
    unfold answer. destruct (has_void Y x), (Nat.ltb d (nesting x)); cbn [orb]; rewrite ?orb_true_r; auto.
  Qed.

  Lemma hash_all_fields hasho d : okh hasho d -> forall L seen fd fs h, ok_fields Y seen L = true -> map fst fd = map fst seen -> fields_ok C fs L = true ->
    hash_fields hasho (types_of (seen ++ L)) (map fst L) (fd ++ fs) h
    = if existsb (fun fv => has_void Y (snd fv)) fs || Nat.ltb d (max_of (fun fv => nesting (snd fv)) fs) then None else Some (fold_left hash_step (digests fs L) h).
  Proof.
    intros IHd. induction L as [|[f w] L IH]; intros seen fd fs h Hok Nf Hf.
    - destruct fs; try discriminate. reflexivity.
    - destruct fs as [|[f1 x] fs]; [discriminate|]. apply fields_ok_cons in Hf as (-> & Hx & Hf). apply ok_field_of in Hok as (Hs & Hw & Hok & _).
      cbn [map fst hash_fields existsb max_of digests fold_left snd]. rewrite get_mid, (type_mid f w seen L Hs) by (rewrite (existsb_names f _ seen); auto).
      rewrite (hash_any hasho d w x IHd Hw Hx), ltb_max. unfold answer.
      destruct (has_void Y x), (Nat.ltb d (nesting x)); cbn [orb]; rewrite ?orb_true_r; auto.
      replace (fd ++ (f, x) :: fs) with ((fd ++ [(f, x)]) ++ fs) by (rewrite <- app_assoc; reflexivity).
      replace (seen ++ (f, w) :: L) with ((seen ++ [(f, w)]) ++ L) by (rewrite <- app_assoc; reflexivity).
      apply IH; auto. rewrite !map_app, Nf. reflexivity.
  Qed.

  Theorem hash_all d : okh (jhash E d) d.
  Proof.
    induction d as [|d IH]; intros c fs w Hf; [unfold answer; cbn [jhash nesting]; rewrite orb_true_r; reflexivity|].
    destruct (typed_obj_known C Y c fs _ HC Hf) as [L HL]. pose proof (conforms_find C Y c HC) as F. rewrite HL in F. destruct F as (cd & E1 & _ & E2 & _).
    destruct (HN c cd E1) as [_ Hh]. cbn [jhash]. unfold find_class. rewrite HE, E1, Hh, E2.
    unfold answer. rewrite (digest_obj_eq _ _ _ L HL). cbn [has_void nesting]. rewrite HL. destruct L as [|fw L].
    - cbn [types_of map]. rewrite (IH c fs w Hf). unfold answer. cbn [has_void]. rewrite HL. reflexivity.
    - change (types_of (fw :: L)) with ((fst fw, wire_type (snd fw)) :: types_of L) at 1. cbn [map fst].
      change (fst fw :: map fst (types_of L)) with (map fst (types_of (fw :: L))).
      replace (map fst (types_of (fw :: L))) with (map fst (fw :: L)) by (unfold types_of; rewrite map_map; reflexivity).
      pose proof (hash_all_fields (jhash E d) d IH (fw :: L) [] [] fs 1 (conforms_ok C Y c _ HC HL) eq_refl (typed_obj C Y c fs _ _ HC HL Hf)) as P.
      cbn [app] in P. rewrite P, fold_list. reflexivity.
  Qed.

  (* hash codes do not tell NaNs apart *)
  Lemma has_void_nan : forall v w, has_void Y (one_nan Y v w) = has_void Y v.
  Proof.
    induction v as [|z|z|s|l IH|c fs IH] using val_ind2; intros w; try reflexivity.
    - cbn [one_nan]. destruct w; auto. destruct n as [|[|[|[|[|n]]]]]; destruct (nan_float z), (nan_double z); reflexivity.
    - cbn [one_nan]. destruct w; auto. cbn [has_void]. induction IH as [|x l Hx _ IHl]; auto. cbn [map existsb]. rewrite Hx, IHl. reflexivity.
    - destruct (find c Y) as [L|] eqn:HL; [|cbn [one_nan]; rewrite HL; reflexivity]. rewrite (one_obj_eq Y _ _ _ _ HL). cbn [has_void]. rewrite HL.
      assert (Q : existsb (fun fv => has_void Y (snd fv)) (one_fields Y fs L) = existsb (fun fv => has_void Y (snd fv)) fs).
      { clear HL. revert L. induction IH as [|[f x] fs Hx _ IHfs]; intros [|[g u] L]; auto. cbn [one_fields existsb snd] in *. rewrite Hx, IHfs. reflexivity. }
      rewrite Q. reflexivity.
  Qed.
  Lemma digest_nan : forall v w, digest Y (one_nan Y v w) w = digest Y v w.
  Proof.
    induction v as [|z|z|s|l IH|c fs IH] using val_ind2; intros w; try reflexivity.
    - cbn [one_nan]. destruct w; auto. destruct n as [|[|[|[|[|n]]]]]; cbn [digest]; destruct (nan_float z) eqn:N1, (nan_double z) eqn:N2; cbn [digest]; rewrite ?N1, ?N2; reflexivity.
    - cbn [one_nan]. destruct w; auto. cbn [digest]. rewrite map_map. f_equal. induction IH as [|x l Hx _ IHl]; auto. cbn [map]. rewrite Hx, IHl. reflexivity.
    - destruct (find c Y) as [L|] eqn:HL; [|cbn [one_nan]; rewrite HL; reflexivity]. rewrite (one_obj_eq Y _ _ _ _ HL), !(digest_obj_eq _ _ _ _ HL). f_equal.
      clear HL. revert L. induction IH as [|[f x] fs Hx _ IHfs]; intros [|[g u] L]; auto. cbn [one_fields digests snd] in *. rewrite Hx, IHfs. reflexivity.
  Qed.
End Hash.
