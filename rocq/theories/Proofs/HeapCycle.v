(* Well-typed heaps; object graphs with and without cycles. *)
From Coq Require Import ZArith List Bool String Lia.
From Verif.Model Require Import JavaPrim ByteBuf Utf8 Codec Ast Interp Show Heap.
From Verif.Spec Require Import Bytes Wire Sharing.
From Verif.Proofs Require Import HeapFacts HeapReach HeapEq.
Import ListNotations.
Open Scope Z_scope.

Lemma fits_list h v u : fits h v (TList u) -> v = HNull \/ exists l vs, v = HRef l /\ nth_error h l = Some (CList vs) /\ forall x, In x vs -> x = HNull \/ fits h x u.
Proof.
  cbn [fits]. destruct v; try contradiction; auto. intros (vs & Hl & A). right. exists l, vs. split; auto. split; auto.
  clear Hl. induction vs as [|y vs IH]; intros x []; destruct A as [A1 A2]; subst; auto.
Qed.
Lemma fits_list_intro h l vs u : nth_error h l = Some (CList vs) -> (forall x, In x vs -> x = HNull \/ fits h x u) -> fits h (HRef l) (TList u).
Proof.
  intros Hl A. cbn [fits]. exists vs. split; auto. clear Hl. induction vs as [|y vs IH]; auto. split; [apply A; left; auto|]. apply IH. intros x Hx. apply A. right. auto.
Qed.

Section Cycle.
  Variable E : env.
  Let C := classes E.

  Lemma range_signed n z : - 2 ^ (n - 1) <= z < 2 ^ (n - 1) -> in_signed n z = true.
  Proof. intros H. unfold in_signed. apply andb_true_iff. split; [apply Z.leb_le|apply Z.ltb_lt]; lia. Qed.
  Lemma fits_typed h : heap_ok C h -> (forall v t, shows h v t -> forall ty, fits h v ty -> typed C t ty = true)
    /\ (forall vs ts, shows_all h vs ts -> Forall2 (fun v t => forall ty, fits h v ty -> typed C t ty = true) vs ts).
  Proof.
    intros OK. apply shows_ind2; try (intros; constructor; auto; fail).
    - intros ty F. destruct ty; try contradiction; reflexivity.
    - intros z ty F. destruct ty; try contradiction; apply range_signed; exact F.
    - intros z ty F. destruct ty; try contradiction; cbn [typed]; cbn [fits] in F; apply andb_true_iff; (split; [apply Z.leb_le|apply Z.ltb_lt]); lia.
    - intros s ty F. destruct ty; try contradiction. cbn [typed]. cbn [fits] in F. rewrite Forall_forall in F. apply forallb_forall. intros u Hu. specialize (F u Hu).
      unfold is_unit. apply andb_true_iff. split; [apply Z.leb_le|apply Z.ltb_lt]; lia.
    - intros l vs ts Hl S IH ty F. destruct ty; try (cbn [fits] in F; try contradiction; destruct F as (? & F); try (destruct F as (? & F)); congruence).
      destruct (fits_list _ _ _ F) as [F0|(l0 & vs0 & [= <-] & Hl0 & A)]; [discriminate|]. rewrite Hl in Hl0. injection Hl0 as <-. cbn [typed].
      clear Hl F S. induction IH as [|v t vs ts H1 H2 IH]; cbn; auto. apply andb_true_iff. split.
      + destruct (A v (or_introl eq_refl)) as [->|FV].
        * pose proof (H1 TStr I) as T. destruct t; try discriminate T; auto. cbn. specialize (H1 TCodec I). discriminate H1.
        * rewrite (H1 _ FV). apply orb_true_r.
      + apply IH. intros x Hx. apply A. right. exact Hx.
    - intros l c fs gs Hl En S IH ty F. destruct (OK l c fs Hl) as (cd & A & T).
      assert (K : forall2b (fun fv ft => String.eqb (fst fv) (fst ft) && typed C (snd fv) (snd ft)) gs (c_fields cd) = true).
      { clear Hl S F A. revert gs En IH. induction T as [|[f v] [g t] fs fts [H1 H2] T IHT]; intros [|[g' x] gs] En IH; cbn in *; try discriminate; auto.
        injection En as -> En. inversion IH; subst. apply andb_true_iff. split; [|apply IHT; auto]. rewrite String.eqb_refl. cbn. auto. }
      destruct ty; cbn [fits] in F; try contradiction.
      + destruct F as (vs & F & _). congruence.
      + destruct F as (fs0 & F). assert (c0 = c) as -> by congruence. cbn [typed]. rewrite String.eqb_refl, A, K. reflexivity.
      + cbn [typed]. rewrite A, K. reflexivity.
  Qed.

  (* ---- chains ---- *)
  Lemma chain_end (h : heap) n p l m : chain h n p l -> part h l m -> chain h (S n) p m.
  Proof. intros H Q. induction H as [l|n l k j P1 H IH]; [econstructor; eauto; constructor|]. econstructor; eauto. Qed.
  Lemma chain_app (h : heap) i j l m k : chain h i l m -> chain h j m k -> chain h (i + j) l k.
  Proof. intros H. revert k. induction H; intros q Q; cbn; auto. econstructor; eauto. Qed.
  Lemma cyclic_down (h : heap) l m : part h l m -> cyclic h m -> cyclic h l.
  Proof. intros P (i & n & k & H1 & H2). exists (S i), n, k. split; auto. econstructor; eauto. Qed.
  Lemma chain_shorter (h : heap) n l k : chain h n l k -> forall i, (i <= n)%nat -> exists m, chain h i l m.
  Proof.
    intros H. induction H as [l|n l m k P H IH]; intros i Hi.
    - assert (i = 0%nat) as -> by lia. eexists. constructor.
    - destruct i; [eexists; constructor|]. destruct (IH i ltac:(lia)) as (j & J). exists j. econstructor; eauto.
  Qed.
  Lemma cyclic_chain (h : heap) l n : cyclic h l -> exists m, chain h n l m.
  Proof.
    intros (i & k & m & H1 & H2). assert (R : forall j, chain h (j * S k) m m).
    { induction j; [constructor|]. cbn [Nat.mul]. eapply chain_app; eauto. }
    assert (L : (n <= i + n * S k)%nat) by nia. eapply chain_shorter; [|exact L]. eapply chain_app; eauto.
  Qed.

  Hypothesis FLAT : forall c cd, find_class E c = Some cd -> forallb (fun ft => flat_type (snd ft)) (c_fields cd) = true.
  Hypothesis NODUP : forall c cd, find_class E c = Some cd -> NoDup (map fst (c_fields cd)).
  Variable h : heap.
  Hypothesis OK : heap_ok C h.

  Lemma shows_all_or (P : Prop) vs : (forall v, In v vs -> (exists t, shows h v t) \/ P) -> (exists ts, shows_all h vs ts) \/ P.
  Proof.
    induction vs as [|v vs IH]; intros H; [left; exists []; constructor|].
    destruct (H v (or_introl eq_refl)) as [(t & T)|]; auto. destruct IH as [(ts & TS)|]; auto; [intros x Hx; apply H; right; exact Hx|].
    left. exists (t :: ts). constructor; auto.
  Qed.
  Lemma fits_scalar v t : fits h v t -> match v with HRef _ => True | _ => exists x, shows h v x end.
  Proof. intros _. destruct v; auto; eexists; constructor. Qed.
  Lemma shows_or_cyclic_path : forall n path l c fs, nth_error h l = Some (CObj c fs) -> NoDup path -> (List.length h <= List.length path + n)%nat ->
    (forall p, In p path -> (p < List.length h)%nat /\ exists k, chain h (S k) p l) -> (exists t, shows h (HRef l) t) \/ cyclic h l.
  Proof.
    induction n as [|n IH]; intros path l c fs Hl ND LE AB; destruct (in_dec Nat.eq_dec l path) as [I|NI].
    - destruct (AB l I) as (_ & k & K). right. exists 0%nat, k, l. split; auto. constructor.
    - exfalso. assert (ND' : NoDup (l :: path)) by (constructor; auto).
      assert (INC : incl (l :: path) (seq 0 (List.length h))).
      { intros x [<-|Hx]; apply in_seq; split; try lia; [apply nth_lt in Hl; lia|]. destruct (AB x Hx). lia. }
      pose proof (NoDup_incl_length ND' INC) as K. rewrite seq_length in K. cbn in K. lia.
    - destruct (AB l I) as (_ & k & K). right. exists 0%nat, k, l. split; auto. constructor.
    - assert (OBJ : forall m c' gs, nth_error h m = Some (CObj c' gs) -> part h l m -> (exists t, shows h (HRef m) t) \/ cyclic h l).
      { intros m c' gs Hm PT. destruct (IH (l :: path) m c' gs Hm) as [S|S]; auto.
        - constructor; auto.
        - cbn. lia.
        - intros p [<-|Hp]; [split; [eapply nth_lt; eauto|exists 0%nat; econstructor; [exact PT|constructor]]|]. destruct (AB p Hp) as (B & k & K). split; auto.
          exists (S k). eapply chain_end; eauto.
        - right. eapply cyclic_down; eauto. }
      destruct (OK l c fs Hl) as (cd & A & T). pose proof (FLAT c cd A) as FL. rewrite forallb_forall in FL.
      destruct (shows_all_or (cyclic h l) (map snd fs)) as [(ts & TS)|]; auto.
      + intros v Hv. apply in_map_iff in Hv. destruct Hv as ((f & v0) & <- & Hf). cbn [snd].
        assert (FT : exists t, In (f, t) (c_fields cd) /\ fits h v0 t).
        { clear - T Hf. induction T as [|[g w] [g' t] fs fts [H1 H2] T IHT]; [contradiction|]. destruct Hf as [[= -> ->]|Hf].
          - cbn in *. subst g'. exists t. split; auto.
          - destruct (IHT Hf) as (t0 & I0 & F0). exists t0. split; [right; exact I0|exact F0]. }
        destruct FT as (t & It & F). specialize (FL _ It). cbn [snd] in FL.
        destruct v0 as [| | | |m]; try (left; eexists; constructor; fail).
        destruct t; cbn [fits] in F; try contradiction.
        * destruct (fits_list h (HRef m) t F) as [?|(l0 & vs & [= <-] & Hm & AE)]; [discriminate|].
          destruct (shows_all_or (cyclic h l) vs) as [(us & US)|]; auto; [|left; exists (VList us); econstructor; eauto].
          intros x Hx. destruct (AE x Hx) as [->|FX]; [left; eexists; constructor|]. destruct x as [| | | |k]; try (left; eexists; constructor; fail).
          assert (KO : exists c' gs, nth_error h k = Some (CObj c' gs)).
          { destruct t; cbn [fits] in FX; try contradiction; try (destruct FX as (? & FX); eauto; fail). discriminate FL. }
          destruct KO as (c' & gs & Hk). apply (OBJ k c' gs Hk). exists c, fs, f, (HRef m), c', gs. split; auto. split; auto. split; auto. right. exists m, vs. auto.
        * destruct F as (gs & Hm). apply (OBJ m c0 gs Hm). exists c, fs, f, (HRef m), c0, gs. auto.
        * destruct F as (c0 & gs & Hm). apply (OBJ m c0 gs Hm). exists c, fs, f, (HRef m), c0, gs. auto.
      + left. exists (VObj c (combine (map fst fs) ts)). assert (LEN : List.length fs = List.length ts).
        { clear - TS. remember (map snd fs) as vs eqn:EV. revert fs EV. induction TS; intros [|g fs] EV; cbn in *; try discriminate; auto. injection EV as _ EV. f_equal. auto. }
        econstructor; eauto.
        * clear - LEN. revert ts LEN. induction fs as [|g fs IHf]; intros [|t ts] LEN; cbn in *; try discriminate; auto. f_equal. auto.
        * replace (map snd (combine (map fst fs) ts)) with ts; auto. clear - LEN. revert ts LEN. induction fs as [|g fs IHf]; intros [|t ts] LEN; cbn in *; try discriminate; auto. f_equal. auto.
  Qed.
  Theorem shows_or_cyclic l c fs : nth_error h l = Some (CObj c fs) -> (exists t, shows h (HRef l) t) \/ cyclic h l.
  Proof. intros Hl. apply (shows_or_cyclic_path (List.length h) [] l c fs Hl); [constructor|cbn; lia|intros p []]. Qed.

  (* a cyclic object stands for no tree *)
  Lemma shows_part l m t : part h l m -> shows h (HRef l) t -> exists u, shows h (HRef m) u /\ (nesting u < nesting t)%nat.
  Proof.
    intros (c & fs & f & v & c' & gs & Hl & If & Hm & Q) S.
    inversion S as [| | | |l0 vs0 ts0 Hl0|l0 c0 fs0 hs Hl0 En SA]; subst; [congruence|]. rewrite Hl in Hl0. injection Hl0 as <- <-. clear S.
    assert (K : exists x, In x (map snd hs) /\ shows h v x).
    { clear - If SA. remember (map snd fs) as vs eqn:EV. remember (map snd hs) as ts eqn:ET. clear ET. revert fs If EV. induction SA as [|a b vs ts H1 H2 IH]; intros [|g fs] If EV; cbn in *; try discriminate; try contradiction.
      injection EV as -> ->. destruct If as [->|If]; [exists b; split; auto; left; auto|]. destruct (IH fs If eq_refl) as (x & I & X). exists x. split; [right; exact I|exact X]. }
    destruct K as (x & Ix & X). apply in_map_iff in Ix. destruct Ix as ((g & y) & <- & Iy). cbn [snd] in X.
    assert (NB : (nesting y < nesting (VObj c hs))%nat).
    { clear - Iy. cbn [nesting]. induction hs as [|[a b] hs IH]; [contradiction|]. cbn. destruct Iy as [[= -> ->]|Iy]; [lia|]. specialize (IH Iy). cbn in IH. lia. }
    destruct Q as [->|(k & vs & -> & Hk & Iv)]; [eauto|].
    inversion X as [| | | |l1 vs1 ts1 Hl1 SB|]; subst; [|congruence]. assert (vs1 = vs) as -> by congruence.
    assert (K : exists z, In z ts1 /\ shows h (HRef m) z).
    { clear - Iv SB. induction SB as [|a b vs ts H1 H2 IH]; [contradiction|]. destruct Iv as [->|Iv]; [exists b; split; auto; left; auto|].
      destruct (IH Iv) as (z & I & Z0). exists z. split; [right; exact I|exact Z0]. }
    destruct K as (z & Iz & Z0). exists z. split; auto. enough (nesting z <= nesting (VList ts1))%nat by lia.
    clear - Iz. cbn [nesting]. induction ts1 as [|a ts IH]; [contradiction|]. cbn. destruct Iz as [->|Iz]; [lia|]. specialize (IH Iz). cbn in IH. lia.
  Qed.
  Lemma shows_chain n l m : chain h n l m -> forall t, shows h (HRef l) t -> exists u, shows h (HRef m) u /\ (nesting u + n <= nesting t)%nat.
  Proof.
    intros H. induction H as [l|n l m k P H IH]; intros t S; [exists t; split; auto; lia|].
    destruct (shows_part l m t P S) as (u & U & LU). destruct (IH u U) as (w & W & LW). exists w. split; auto. lia.
  Qed.
  Lemma shows_not_cyclic l t : shows h (HRef l) t -> ~ cyclic h l.
  Proof. intros SH Cy. destruct (cyclic_chain h l (S (nesting t)) Cy) as (m & M). destruct (shows_chain _ _ _ M t SH) as (u & _ & L). lia. Qed.

  (* ---- encode, hashCode and toString go down every chain ---- *)
  Definition enters_all (cd : class_def) : bool :=
    forallb (fun ft => match snd ft with
                       | TObj _ | TCodec => existsb (fun p => String.eqb (fst p) (fst ft) && negb (snd p)) (all_enters (c_enc cd))
                       | TList (TObj _) | TList TCodec => existsb (fun p => String.eqb (fst p) (fst ft) && snd p) (all_enters (c_enc cd))
                       | _ => true
                       end) (c_fields cd).
  Lemma part_field l m : part h l m -> exists c fs cd f t, nth_error h l = Some (CObj c fs) /\ find_class E c = Some cd /\ In (f, t) (c_fields cd)
    /\ ((match t with TObj _ | TCodec => True | _ => False end /\ hget f fs = HRef m)
        \/ (match t with TList (TObj _) | TList TCodec => True | _ => False end /\ exists vs, elements h (hget f fs) = Some vs /\ In (HRef m) vs)).
  Proof.
    intros (c & fs & f & v & c' & gs & Hl & If & Hm & Q). destruct (OK l c fs Hl) as (cd & A & T). pose proof (NODUP c cd A) as ND. pose proof (FLAT c cd A) as FL.
    assert (EN : map fst fs = map fst (c_fields cd)).
    { clear - T. induction T as [|x y fs fts [H1 _] T IH]; cbn; auto. congruence. }
    assert (HG : hget f fs = v).
    { rewrite <- EN in ND. clear - If ND. induction fs as [|[g w] fs IH]; [contradiction|]. cbn. inversion ND; subst. destruct If as [[= -> ->]|If].
      - rewrite String.eqb_refl. reflexivity.
      - destruct (String.eqb_spec f g) as [->|]; auto. exfalso. apply H1. exact (in_map fst _ _ If). }
    assert (FT : exists t, In (f, t) (c_fields cd) /\ fits h v t).
    { clear - T If. induction T as [|[g w] [g' t] fs fts [H1 H2] T IHT]; [contradiction|]. destruct If as [[= -> ->]|If].
      - cbn in *. subst g'. exists t. split; auto.
      - destruct (IHT If) as (t0 & I0 & F0). exists t0. split; [right; exact I0|exact F0]. }
    destruct FT as (t & It & F). exists c, fs, cd, f, t. split; auto. split; auto. split; auto. rewrite forallb_forall in FL. specialize (FL _ It). cbn [snd] in FL.
    rewrite HG. destruct Q as [->|(k & vs & -> & Hk & Iv)].
    - left. split; auto. destruct t; cbn [fits] in F; try contradiction; auto. destruct F as (ws & F & _). congruence.
    - right. destruct t; cbn [fits] in F; try contradiction; try (destruct F as (? & F); try destruct F as (? & F); congruence).
      destruct (fits_list h (HRef k) t F) as [?|(l0 & ws & [= <-] & Hw & AE)]; [discriminate|]. rewrite Hk in Hw. injection Hw as <-.
      split; [|exists vs; cbn [elements]; rewrite Hk; auto]. destruct (AE _ Iv) as [?|FX]; [discriminate|].
      destruct t; cbn [fits] in FX; try contradiction; auto. destruct FX as (? & FX & _). congruence.
  Qed.
  Lemma chain_descends : (forall c cd, find_class E c = Some cd -> enters_all cd = true) -> forall n l m, chain h n l m -> descends E h n l.
  Proof.
    intros EA n l m H. induction H as [l|n l m k P H IH]; [constructor|]. apply descends_S with m; auto.
    destruct (part_field l m P) as (c & fs & cd & f & t & Hl & FC & It & Q). exists c, fs, cd, f. split; auto. split; auto.
    specialize (EA c cd FC). unfold enters_all in EA. rewrite forallb_forall in EA. specialize (EA _ It). cbn [fst snd] in EA. rewrite (field_at h l f c fs Hl).
    destruct Q as [[Ht HG]|[Ht Q]].
    - left. split; auto. destruct t; try contradiction; apply existsb_exists in EA; destruct EA as ([g b] & Ig & Eq); cbn [fst snd] in Eq; apply andb_true_iff in Eq; destruct Eq as [Eq1 Eq2];
        apply String.eqb_eq in Eq1; destruct b; try discriminate; subst g; exact Ig.
    - right. split; auto. destruct t as [| | | | | | |u| |]; try contradiction. destruct u; try contradiction; apply existsb_exists in EA; destruct EA as ([g b] & Ig & Eq); cbn [fst snd] in Eq; apply andb_true_iff in Eq;
        destruct Eq as [Eq1 Eq2]; apply String.eqb_eq in Eq1; destruct b; try discriminate; subst g; exact Ig.
  Qed.

  Definition listed (names : list string) (cd : class_def) : bool := forallb (fun ft => mem (fst ft) names) (c_fields cd).
  Lemma hash_items_in f t x : forall vs k r, hhash_items f t vs k = Some r -> In x vs -> exists y, hhash_item f t x = Some y.
  Proof.
    induction vs as [|v vs IH]; intros k r H I; [contradiction|]. cbn [hhash_items] in H. destruct (hhash_item f t v) eqn:Q; [|discriminate].
    destruct I as [->|I]; eauto.
  Qed.
  Lemma hash_fields_in f ts names fs k r n : hhash_fields f h ts names fs k = Some r -> In n names -> exists y, hhash_val f h (type_of n ts) (hget n fs) = Some y.
  Proof.
    revert k. induction names as [|a names IH]; intros k H I; [contradiction|]. cbn [hhash_fields] in H. destruct (hhash_val f h (type_of a ts) (hget a fs)) eqn:Q; [|discriminate].
    destruct I as [->|I]; eauto.
  Qed.
  Lemma hash_goes_into d l m k : (forall c cd, find_class E c = Some cd -> match c_hash cd with HashSelf => c_fields cd = [] | HashFields names => listed names cd = true end) ->
    part h l m -> hhash E (S d) h (HRef l) = Some k -> exists k', hhash E d h (HRef m) = Some k'.
  Proof.
    intros LS P H. pose proof P as P0. destruct P0 as (_ & _ & _ & _ & c' & gs & _ & _ & Hm & _).
    destruct (part_field l m P) as (c & fs & cd & f & t & Hl & FC & It & Q). cbn [hhash] in H. rewrite Hl, FC in H. specialize (LS c cd FC).
    destruct (c_hash cd) as [|names]; [rewrite LS in It; contradiction|]. unfold listed in LS. rewrite forallb_forall in LS. specialize (LS _ It). apply mem_in in LS.
    destruct (hash_fields_in _ _ _ _ _ _ _ H LS) as (y & Hy). cbn [fst] in Hy. unfold hhash_val in Hy. destruct Q as [[_ HG]|[_ (vs & HE & Iv)]].
    - rewrite HG in Hy. cbn [elements] in Hy. rewrite Hm in Hy. cbn [hhash_item] in Hy. eauto.
    - rewrite HE in Hy. destruct (hash_items_in _ _ _ _ _ _ Hy Iv) as (z & Hz). cbn [hhash_item] in Hz. eauto.
  Qed.
  Lemma hash_bounds : (forall c cd, find_class E c = Some cd -> match c_hash cd with HashSelf => c_fields cd = [] | HashFields names => listed names cd = true end) ->
    forall d n l m k, chain h n l m -> hhash E d h (HRef l) = Some k -> (n < d)%nat.
  Proof.
    intros LS d. induction d as [|d IH]; intros n l m k Ch H; [discriminate|]. inversion Ch as [|n' ? j ? P Ch']; subst; [lia|].
    destruct (hash_goes_into d l j k LS P H) as (k' & H'). specialize (IH n' j m k' Ch' H'). lia.
  Qed.

  Variable P : printers.
  Lemma show_items_in f t x : forall vs r, hshow_items P f t vs = Some r -> In x vs -> exists y, hshow_item P f t x = Some y.
  Proof.
    induction vs as [|v vs IH]; intros r H I; [contradiction|]. cbn [hshow_items] in H. destruct (hshow_item P f t v) eqn:Q; [|discriminate].
    destruct I as [->|I]; eauto. destruct (hshow_items P f t vs); [eauto|discriminate].
  Qed.
  Lemma show_fields_in f ts ls fs b r n : hshow_fields P f h ts b ls fs = Some r -> In n (map snd ls) -> exists y, hshow_val P f h (type_of n ts) (hget n fs) = Some y.
  Proof.
    revert b r. induction ls as [|[a g] ls IH]; intros b r H I; [contradiction|]. cbn [hshow_fields] in H. destruct (hshow_val P f h (type_of g ts) (hget g fs)) eqn:Q; [|discriminate].
    destruct (hshow_fields P f h ts false ls fs) eqn:R; [|discriminate]. destruct I as [<-|I]; eauto.
  Qed.
  Lemma show_bounds : (forall c cd, find_class E c = Some cd -> listed (map snd (c_str cd)) cd = true) ->
    forall d n l m k, chain h n l m -> hstring E P d h (HRef l) = Some k -> (n < d)%nat.
  Proof.
    intros LS d. induction d as [|d IH]; intros n l m k Ch H; [discriminate|]. inversion Ch as [|n' ? j ? PT Ch']; subst; [lia|].
    pose proof PT as P0. destruct P0 as (_ & _ & _ & _ & c' & gs & _ & _ & Hm & _).
    destruct (part_field l j PT) as (c & fs & cd & f & t & Hl & FC & It & Q). cbn [hstring] in H. rewrite Hl, FC in H. specialize (LS c cd FC).
    unfold listed in LS. rewrite forallb_forall in LS. specialize (LS _ It). apply mem_in in LS.
    destruct (hshow_fields P (hstring E P d h) h (c_fields cd) true (c_str cd) fs) eqn:R; [|discriminate].
    destruct (show_fields_in _ _ _ _ _ _ _ R LS) as (y & Hy). cbn [fst] in Hy. unfold hshow_val in Hy.
    assert (G : exists k', hstring E P d h (HRef j) = Some k').
    { destruct Q as [[_ HG]|[_ (vs & HE & Iv)]].
      - rewrite HG in Hy. cbn [elements] in Hy. rewrite Hm in Hy. cbn [hshow_item] in Hy. eauto.
      - rewrite HE in Hy. destruct (hshow_items P (hstring E P d h) _ vs) eqn:RI; [|discriminate].
        destruct (show_items_in _ _ _ _ _ RI Iv) as (z & Hz). cbn [hshow_item] in Hz. eauto. }
    destruct G as (k' & H'). specialize (IH n' j m k' Ch' H'). lia.
  Qed.
End Cycle.
