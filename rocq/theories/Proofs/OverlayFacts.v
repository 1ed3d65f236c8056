(* decode into a used object, compared with decode into a new one, on arbitrary bytes. *)
From Coq Require Import ZArith List Bool String Lia.
From Verif.Model Require Import JavaPrim ByteBuf Utf8 Codec Ast Interp.
From Verif.Spec Require Import Bytes Buffers Wire Reading Overlay.
From Verif.Proofs Require Import BytesFacts BufFacts Utf8Facts Utf8More CodecFacts Conform TableFacts EncodeFacts DecodeFacts ValInd PrefixDecode.
Import ListNotations.
Open Scope Z_scope.

Scheme overlay_min := Minimality for overlay Sort Prop
with overlays_min := Minimality for overlays Sort Prop.
Combined Scheme overlay_ind2 from overlay_min, overlays_min.

Section Two.
  Variable C : list (string * class_def).
  Variable Y : layouts.
  Hypothesis HC : conforms C Y.
  Variable E : env.
  Hypothesis HE : classes E = C.

  Lemma overlays_kept L os : fields_ok C os L = true -> overlays Y L os (blank L) os.
  Proof.
    revert os. induction L as [|[f w] L IH]; intros [|[f2 o] os] H; try discriminate.
    - constructor.
    - apply fields_ok_cons in H as (-> & _ & H). cbn. constructor; auto. constructor.
  Qed.

  Definition two_ok (d : nat) : Prop := forall c L os b, find c Y = Some L -> typed C (VObj c os) (TObj c) = true ->
    exists e fs1 fs b', decode E d (VObj c (blank L)) b = (e, VObj c fs1, b') /\ decode E d (VObj c os) b = (e, VObj c fs, b') /\ overlays Y L os fs1 fs
      /\ (e = None -> forall n, steady Y n (WObj c) = true -> fs1 = fs).

  Definition is_tag (w : wire) : bool := match w with WInt _ _ | WFlt _ _ | WFix _ _ _ | WLen _ _ | WSum _ _ _ => true | _ => false end.
  Lemma two_field d owner f w old dn1 dn os1 os b : two_ok d -> ok_field Y w = true ->
    existsb (fun fw : string * val => String.eqb f (fst fw)) dn1 = false -> existsb (fun fw : string * val => String.eqb f (fst fw)) dn = false ->
    match w with WBody k => existsb (fun fw : string * val => String.eqb k (fst fw)) dn1 = true
                            /\ existsb (fun fw : string * val => String.eqb k (fst fw)) dn = true /\ get k dn1 = get k dn | _ => True end ->
    typed C old (wire_type w) = true ->
    exists e x1 x b', exec_dec (decode E d) (new_obj E) (factory E owner) (dec_stmts f w) (dn1 ++ (f, blank_val w) :: os1, b) = (e, (dn1 ++ (f, x1) :: os1, b'))
      /\ exec_dec (decode E d) (new_obj E) (factory E owner) (dec_stmts f w) (dn ++ (f, old) :: os, b) = (e, (dn ++ (f, x) :: os, b'))
      /\ overlay Y w old x1 x /\ (e = None -> forall n, steady Y n w = true -> x1 = x).
  Proof.
    intros IH Hok Hf1 Hf Hk Ho.
    assert (G1 : forall y, get f (dn1 ++ (f, y) :: os1) = y) by (intros; apply get_mid; auto).
    assert (G : forall y, get f (dn ++ (f, y) :: os) = y) by (intros; apply get_mid; auto).
    assert (S1 : forall y y', set f y' (dn1 ++ (f, y) :: os1) = dn1 ++ (f, y') :: os1) by (intros; apply set_mid; auto).
    assert (S : forall y y', set f y' (dn ++ (f, y) :: os) = dn ++ (f, y') :: os) by (intros; apply set_mid; auto).
    destruct w; cbn [dec_stmts exec_dec exec_dstmt]; rewrite ?G1, ?G.
    - destruct (read_bytes n b) as [[e|bs] b']; rewrite ?S1, ?S.
      + exists (Some e), (blank_val (WInt n o)), old, b'. repeat (split; [reflexivity|]). split; [constructor|try discriminate; intros _ [|?]; discriminate].
      + eexists None, _, _, b'. repeat (split; [reflexivity|]). split; [constructor|reflexivity].
    - destruct (read_bytes n b) as [[e|bs] b']; rewrite ?S1, ?S.
      + exists (Some e), (blank_val (WFlt n o)), old, b'. repeat (split; [reflexivity|]). split; [constructor|try discriminate; intros _ [|?]; discriminate].
      + eexists None, _, _, b'. repeat (split; [reflexivity|]). split; [constructor|reflexivity].
    - destruct (read_fixed len pad lft b) as [[e|bs] b']; rewrite ?S1, ?S.
      + exists (Some e), (blank_val (WFix len pad lft)), old, b'. repeat (split; [reflexivity|]). split; [constructor|try discriminate; intros _ [|?]; discriminate].
      + eexists None, _, _, b'. repeat (split; [reflexivity|]). split; [constructor|reflexivity].
    - destruct (read_bytes n b) as [[e|bs] b'].
      + exists (Some e), (blank_val (WDyn n o)), old, b'. repeat (split; [reflexivity|]). split; [constructor|try discriminate; intros _ [|?]; discriminate].
      + destruct (get_int o bs >? 0); [|exists None, (blank_val (WDyn n o)), old, b'; repeat (split; [reflexivity|]); split; [constructor|try discriminate; intros _ [|?]; discriminate]].
        destruct (read_chars (get_int o bs) b') as [[e|cs] b'']; rewrite ?S1, ?S.
        * exists (Some e), (blank_val (WDyn n o)), old, b''. repeat (split; [reflexivity|]). split; [constructor|try discriminate; intros _ [|?]; discriminate].
        * eexists None, _, _, b''. repeat (split; [reflexivity|]). split; [constructor|reflexivity].
    - cbn [ok_field ok_elem] in Hok. unfold known in Hok. destruct (find c Y) as [L|] eqn:HL; [|discriminate].
      assert (En : new_obj E c = VObj c (blank L)) by (rewrite (new_blank C Y HC E HE); unfold blank_obj; rewrite HL; reflexivity).
      cbn [blank_val]. rewrite S1. cbn [exec_dstmt]. rewrite G1, En.
      destruct (typed_tobj C old c Ho) as [->|(os' & ->)].
      + rewrite S. cbn [exec_dstmt]. rewrite G. destruct (decode E d (VObj c (blank L)) b) as [[e v] b'] eqn:D. rewrite S1, S.
        exists e, v, v, b'. split; [destruct e; reflexivity|]. split; [destruct e; reflexivity|]. split; [constructor|reflexivity].
      + cbn [exec_dstmt]. rewrite G. destruct (IH c L os' b HL Ho) as (e & fs1 & fs & b' & D1 & D2 & O & Q). rewrite D1, D2, S1, S.
        exists e, (VObj c fs1), (VObj c fs), b'. split; [destruct e; reflexivity|]. split; [destruct e; reflexivity|]. split; [econstructor; eauto|intros He n Hn; f_equal; eauto].
    - destruct Hk as (Hk1 & Hk2 & Hk). rewrite !get_app by assumption. rewrite Hk. cbn [blank_val].
      assert (X : exists e x1 x b', (Some IAE, (dn1 ++ (f, VNull) :: os1, b)) = (e, (dn1 ++ (f, x1) :: os1, b')) /\
         (Some IAE, (dn ++ (f, old) :: os, b)) = (e, (dn ++ (f, x) :: os, b')) /\ overlay Y (WBody key) old x1 x /\ (e = None -> forall n, steady Y n (WBody key) = true -> x1 = x))
        by (exists (Some IAE), VNull, old, b; repeat (split; [reflexivity|]); split; [apply (ov_kept Y (WBody key))|discriminate]).
      destruct (key_of (get key dn)) as [t|]; [|exact X]. destruct (factory E owner t) as [c|]; [|exact X].
      rewrite S1, S. cbn [exec_dstmt]. rewrite G1, G. destruct (decode E d (new_obj E c) b) as [[e v] b']. rewrite S1, S.
      exists e, v, v, b'. split; [destruct e; reflexivity|]. split; [destruct e; reflexivity|]. split; [constructor|reflexivity].
    - destruct (read_bytes n b) as [[e|bs] b'].
      + exists (Some e), (blank_val (WList n o w)), old, b'. repeat (split; [reflexivity|]). split; [constructor|try discriminate; intros _ [|?]; discriminate].
      + destruct (get_int o bs >? 0); [|exists None, (blank_val (WList n o w)), old, b'; repeat (split; [reflexivity|]); split; [constructor|try discriminate; intros _ [|?]; discriminate]].
        destruct (repeat_z _ _ _) as [e [l b'']]. rewrite S1, S.
        exists e, (VList l), (VList l), b''. split; [destruct e; reflexivity|]. split; [destruct e; reflexivity|]. split; [constructor|try discriminate; intros _ [|?]; discriminate].
    - destruct (read_bytes n b) as [[e|bs] b']; rewrite ?S1, ?S.
      + exists (Some e), (blank_val (WLen n o)), old, b'. repeat (split; [reflexivity|]). split; [constructor|try discriminate; intros _ [|?]; discriminate].
      + eexists None, _, _, b'. repeat (split; [reflexivity|]). split; [constructor|reflexivity].
    - destruct (read_bytes n b) as [[e|bs] b']; rewrite ?S1, ?S.
      + exists (Some e), (blank_val (WSum n o alg)), old, b'. repeat (split; [reflexivity|]). split; [constructor|try discriminate; intros _ [|?]; discriminate].
      + eexists None, _, _, b'. repeat (split; [reflexivity|]). split; [constructor|reflexivity].
  Qed.

  (* the fields a tag may come from agree *)
  Definition tags_same (seen : layout) (dn1 dn : list (string * val)) : Prop :=
    forall k w, find k seen = Some w -> is_tag w = true -> get k dn1 = get k dn.

  Lemma get_not_in (k : string) (dn : list (string * val)) r : existsb (fun fw => String.eqb k (fst fw)) dn = false -> get k (dn ++ r) = get k r.
  Proof.
    induction dn as [|[g x] dn IH]; auto. cbn [existsb fst app get]. intros H. apply orb_false_iff in H as [H1 H2]. rewrite H1. auto.
  Qed.
  Lemma find_app_l {A} (k : string) (l m : list (string * A)) : find k (l ++ m) = match find k l with Some x => Some x | None => find k m end.
  Proof. induction l as [|[g x] l IH]; auto. cbn [app find]. destruct (String.eqb k g); auto. Qed.

  Lemma tags_same_snoc seen f w dn1 dn x1 x : tags_same seen dn1 dn -> map fst dn1 = map fst seen -> map fst dn = map fst seen ->
    (is_tag w = true -> x1 = x) -> tags_same (seen ++ [(f, w)]) (dn1 ++ [(f, x1)]) (dn ++ [(f, x)]).
  Proof.
    intros T N1 N Hx k wk. rewrite find_app_l. destruct (find k seen) as [w0|] eqn:Ek.
    - intros [= ->] Ht. pose proof (find_in _ _ _ Ek) as He.
      rewrite !get_app by (rewrite (existsb_names k _ seen); auto). exact (T k wk Ek Ht).
    - cbn [find]. destruct (String.eqb_spec k f) as [->|]; [|discriminate]. intros [= ->] Ht.
      assert (He : existsb (fun fw : string * wire => String.eqb f (fst fw)) seen = false).
      { clear -Ek. induction seen as [|[g y] seen IH]; auto. cbn [find existsb fst] in *. destruct (String.eqb f g); [discriminate|]. auto. }
      rewrite !get_not_in by (rewrite (existsb_names f _ seen); auto). cbn [get]. rewrite String.eqb_refl. auto.
  Qed.

  Lemma two_fields d owner : two_ok d -> forall L seen dn1 dn os b, ok_fields Y seen L = true ->
    map fst dn1 = map fst seen -> map fst dn = map fst seen -> tags_same seen dn1 dn -> fields_ok C os L = true ->
    exists e fs1 fs b', exec_dec (decode E d) (new_obj E) (factory E owner) (compile_dec L) (dn1 ++ blank L, b) = (e, (dn1 ++ fs1, b'))
      /\ exec_dec (decode E d) (new_obj E) (factory E owner) (compile_dec L) (dn ++ os, b) = (e, (dn ++ fs, b'))
      /\ overlays Y L os fs1 fs /\ (e = None -> forall n, forallb (fun fw => steady Y n (snd fw)) L = true -> fs1 = fs).
  Proof.
    intros IHd. induction L as [|[f w] L IH]; intros seen dn1 dn os b Hok N1 N T Hos.
    - destruct os; [|discriminate]. exists None, [], [], b. repeat (split; [reflexivity|]). split; [constructor|reflexivity].
    - destruct os as [|[f2 old] os]; [discriminate|]. apply fields_ok_cons in Hos as (-> & Ho & Hos).
      apply ok_field_of in Hok as (Hf & Hw & Hok & Hkey). rewrite compile_dec_cons, !exec_dec_app. cbn [blank map fst snd].
      destruct (two_field d owner f w old dn1 dn (blank L) os b IHd Hw) as (e & x1 & x & b' & D1 & D2 & Ov & Ht); auto.
      + rewrite (existsb_names f dn1 seen N1). exact Hf.
      + rewrite (existsb_names f dn seen N). exact Hf.
      + destruct w; auto. destruct (find key seen) as [wk|] eqn:Ek; [|contradiction]. pose proof (find_in _ _ _ Ek) as He.
        rewrite (existsb_names key dn1 seen N1), (existsb_names key dn seen N). split; auto. split; auto. apply (T key wk Ek). destruct wk; auto; contradiction.
      + fold (blank L). rewrite D1, D2. destruct e as [ex|].
        * exists (Some ex), ((f, x1) :: blank L), ((f, x) :: os), b'. repeat (split; [reflexivity|]). split; [constructor; auto; apply overlays_kept; auto|discriminate].
        * replace (dn1 ++ (f, x1) :: blank L) with ((dn1 ++ [(f, x1)]) ++ blank L) by (rewrite <- app_assoc; reflexivity).
          replace (dn ++ (f, x) :: os) with ((dn ++ [(f, x)]) ++ os) by (rewrite <- app_assoc; reflexivity).
          destruct (IH (seen ++ [(f, w)]) (dn1 ++ [(f, x1)]) (dn ++ [(f, x)]) os b' Hok) as (e & fs1 & fs & b'' & E1 & E2 & Os & Q); auto.
          { rewrite !map_app, N1. reflexivity. }
          { rewrite !map_app, N. reflexivity. }
          { apply tags_same_snoc; auto. intros Hw'. apply (Ht eq_refl O). destruct w; auto; discriminate. }
          rewrite E1, E2. exists e, ((f, x1) :: fs1), ((f, x) :: fs), b''. rewrite <- !app_assoc. repeat (split; [reflexivity|]). split; [constructor; auto|].
          intros -> n Hn. cbn [forallb snd] in Hn. apply andb_true_iff in Hn as [Hn1 Hn2]. rewrite (Ht eq_refl n Hn1), (Q eq_refl n Hn2). reflexivity.
  Qed.

  Theorem two_all d : two_ok d.
  Proof.
    induction d as [|d IH]; intros c L os b HL Ht; pose proof (typed_obj C Y c os _ L HC HL Ht) as Hos.
    - exists (Some SOE), (blank L), os, b. repeat (split; [reflexivity|]). split; [apply overlays_kept; auto|discriminate].
    - rewrite !(decode_obj C Y HC E HE d c L _ b HL).
      destruct (two_fields d c IH L [] [] [] os b (conforms_ok C Y c L HC HL) eq_refl eq_refl ltac:(intros k w; discriminate) Hos) as (e & fs1 & fs & b' & D1 & D2 & O & Q).
      cbn [app] in D1, D2. rewrite D1, D2. exists e, fs1, fs, b'. repeat (split; auto). intros He [|n] Hn; [discriminate|]. cbn [steady] in Hn. rewrite HL in Hn. eauto.
  Qed.

  (* when nothing shows through *)
  Fixpoint clean_fields (fs : list (string * val)) (L : layout) (os : list (string * val)) : bool :=
    match fs, L, os with
    | (f, x) :: fs', (_, wx) :: L', (_, o) :: os' => clean Y o x wx && clean_fields fs' L' os'
    | _, _, _ => true
    end.
  Lemma clean_obj_eq c os c' fs c'' L : find c Y = Some L -> clean Y (VObj c'' os) (VObj c fs) (WObj c') = clean_fields fs L os.
  Proof. intros H. cbn [clean]. rewrite H. reflexivity. Qed.

  Lemma clean_iff : forall v w old, ok_field Y w = true -> typed C v (wire_type w) = true -> typed C old (wire_type w) = true ->
    (absorb Y old v w = absorb Y (blank_val w) v w <-> clean Y old v w = true).
  Proof.
    induction v as [| | | |l _|c fs IH] using val_ind2; intros w old Hok Hv Ho; try solve [destruct w; try discriminate Hv; cbn [absorb clean]; tauto].
    - (* null *) destruct w; try discriminate Hv; cbn [absorb clean text blank_val negb]; try tauto.
      + destruct (typed_str C old Ho) as [->|(s & -> & _)]; split; auto; discriminate.
      + destruct old; tauto.
      + cbn [wire_type] in Ho. destruct old; try discriminate Ho; split; auto; discriminate.
    - (* string *) destruct w; try discriminate Hv; cbn [absorb clean text blank_val negb]; try tauto.
      destruct s as [|a s]; cbn [negb]; [|rewrite orb_true_r; tauto]. destruct (typed_str C old Ho) as [->|(s & -> & _)]; split; auto; discriminate.
    - (* list *) destruct w; try discriminate Hv; cbn [absorb clean text blank_val negb]; try tauto.
      cbn [wire_type] in Ho. destruct l; [|cbn beta iota; rewrite orb_true_r; tauto]. destruct old; try discriminate Ho; split; auto; discriminate.
    - (* object *) destruct w; try discriminate Hv; try solve [cbn [absorb clean]; tauto].
      cbn [wire_type] in Hv, Ho. destruct (typed_tobj C _ _ Hv) as [|(fs0 & [= -> _])]; [discriminate|].
      destruct (typed_obj_known C Y c0 fs _ HC Hv) as [L HL]. pose proof (typed_obj C Y c0 fs _ L HC HL Hv) as Hfs.
      destruct (typed_tobj C old c0 Ho) as [->|(os & ->)]; [cbn; tauto|].
      pose proof (typed_obj C Y c0 os _ L HC HL Ho) as Hos.
      rewrite !(absorb_obj_eq Y _ _ _ _ L HL), (clean_obj_eq _ _ _ _ _ L HL). cbn [olds blank_val].
      pose proof (conforms_ok C Y c0 L HC HL) as Hokf. clear HL Hv Ho Hok.
      enough (P : forall seen, ok_fields Y seen L = true -> (absorb_fields Y fs L os = absorb_fields Y fs L (blank L) <-> clean_fields fs L os = true)).
      { specialize (P [] Hokf). rewrite <- P. split; [congruence|intros ->; reflexivity]. }
      clear Hokf. revert L os Hfs Hos. induction IH as [|[f x] fs Hx _ IHfs]; intros L os Hfs Hos seen Hokf.
      + split; reflexivity.
      + destruct L as [|[f1 w] L]; [discriminate|]. destruct os as [|[f2 ov] os]; [discriminate|].
        apply fields_ok_cons in Hfs as (-> & Hxt & Hfs). apply fields_ok_cons in Hos as (-> & Hot & Hos).
        apply ok_field_of in Hokf as (_ & Hw & Hokf & _). cbn [absorb_fields blank map fst snd clean_fields].
        rewrite andb_true_iff, <- (IHfs L os Hfs Hos _ Hokf), <- (Hx w ov Hw Hxt Hot).
        cbn [snd]. fold (blank L). split; [intros H; split; congruence|intros [H1 H2]; rewrite H1, H2; reflexivity].
  Qed.
End Two.
