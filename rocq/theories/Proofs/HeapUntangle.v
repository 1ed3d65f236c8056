(* After a successful decode the object stands for a tree, whatever it contained before. *)
From Coq Require Import ZArith List Bool String Lia.
From Verif.Model Require Import JavaPrim ByteBuf Utf8 Codec Ast Interp Show Heap.
From Verif.Spec Require Import Bytes Buffers Wire Sharing.
From Verif.Proofs Require Import HeapFacts HeapReach HeapOwn HeapDecode HeapEq HeapCycle HeapFrame HeapTypes.
Import ListNotations.
Open Scope Z_scope.

Definition plain_type (p : string -> bool) (t : ftype) : bool :=
  match t with TObj c | TList (TObj c) => p c | TCodec | TList TCodec | TList (TList _) => false | _ => true end.
(* the declared types below the class lead to no field of interface type and end after n levels *)
Fixpoint plain (E : env) (n : nat) (c : string) : bool :=
  match n with
  | O => false
  | S n => match find_class E c with Some cd => forallb (fun ft => plain_type (plain E n) (snd ft)) (c_fields cd) | None => false end
  end.
(* statements that only assign a number or string to another field than f *)
Definition simple (f : string) (s : dstmt) : bool :=
  match s with DRead _ _ g | DReadF _ _ g | DFix g _ _ _ | DDyn g _ _ => negb (String.eqb f g) | _ => false end.
(* decode creates the body, reads it, and then at most some numbers and strings *)
Fixpoint renews (E : env) (n : nat) (F : list (string * ftype)) (ss : list dstmt) : bool :=
  match ss with
  | [] => forallb (fun ft => plain_type (plain E n) (snd ft)) F
  | DCreate f k :: DObj g :: r => String.eqb f g && forallb (simple f) r && forallb (fun ft => String.eqb f (fst ft) || plain_type (plain E n) (snd ft)) F
  | _ :: r => renews E n F r
  end.

Section Untangle.
  Variable E : env.
  Let C := classes E.
  Lemma shows_list_of (h : heap) vs : (forall v, In v vs -> exists t, shows h v t) -> exists ts, shows_all h vs ts.
  Proof.
    induction vs as [|v vs IH]; intros H; [exists []; constructor|]. destruct (H v (or_introl eq_refl)) as (t & T). destruct IH as (ts & TS); [intros w Hw; apply H; right; exact Hw|].
    exists (t :: ts). constructor; auto.
  Qed.
  Lemma shows_fields (h : heap) l c fs : nth_error h l = Some (CObj c fs) -> (forall f v, In (f, v) fs -> exists t, shows h v t) -> exists t, shows h (HRef l) t.
  Proof.
    intros Hl H. destruct (shows_list_of h (map snd fs)) as (ts & TS); [intros v Hv; apply in_map_iff in Hv; destruct Hv as ([f w] & <- & I); eapply H; exact I|].
    exists (VObj c (combine (map fst fs) ts)). assert (LEN : List.length ts = List.length fs) by (clear - TS; rewrite <- (map_length snd fs); induction TS; cbn; congruence).
    apply shows_obj with fs; auto.
    - clear - LEN. revert ts LEN. induction fs as [|g fs IHf]; intros [|t ts] LEN; cbn in *; try discriminate; auto. f_equal. auto.
    - replace (map snd (combine (map fst fs) ts)) with ts; auto. clear - LEN. revert ts LEN. induction fs as [|g fs IHf]; intros [|t ts] LEN; cbn in *; try discriminate; auto. f_equal. auto.
  Qed.
  Lemma shows_type (p : string -> bool) (h : heap) t : (forall c l fs, p c = true -> nth_error h l = Some (CObj c fs) -> exists x, shows h (HRef l) x) ->
    plain_type p t = true -> forall v, fits h v t -> exists x, shows h v x.
  Proof.
    intros OB P v F. destruct v as [|z|z|s|l]; try (eexists; constructor; fail). destruct t as [| | | | | | |u|c|]; cbn [fits] in F; try contradiction; try discriminate P.
    - destruct (fits_list h (HRef l) u F) as [?|(l0 & vs & [= <-] & Hl & AE)]; [discriminate|].
      destruct (shows_list_of h vs) as (ts & TS); [|exists (VList ts); apply shows_list with vs; auto].
      intros x Hx. destruct (AE x Hx) as [->|FX]; [eexists; constructor|]. destruct x as [| | | |k]; try (eexists; constructor; fail).
      destruct u; cbn [fits] in FX; try contradiction; try discriminate P. destruct FX as (gs & Hk). eapply OB; eauto.
    - destruct F as (gs & Hk). eapply OB; eauto.
  Qed.
  Lemma field_type (h : heap) l c fs cd f v : heap_ok C h -> nth_error h l = Some (CObj c fs) -> assoc c C = Some cd -> In (f, v) fs -> exists t, In (f, t) (c_fields cd) /\ fits h v t.
  Proof.
    intros OK Hl Hc Hf. destruct (OK l c fs Hl) as (cd' & A & T). rewrite Hc in A. injection A as <-. clear - T Hf. induction T as [|[g w] [g' t] fs fts [H1 H2] T IHT]; [contradiction|]. destruct Hf as [[= -> ->]|Hf].
    - cbn in *. subst g'. exists t. split; auto.
    - destruct (IHT Hf) as (t0 & I0 & F0). exists t0. split; [right; exact I0|exact F0].
  Qed.
  Lemma plain_shows (h : heap) n : heap_ok C h -> forall c l fs, plain E n c = true -> nth_error h l = Some (CObj c fs) -> exists x, shows h (HRef l) x.
  Proof.
    intros OK. induction n as [|n IH]; intros c l fs P Hl; [discriminate|]. cbn [plain] in P. destruct (find_class E c) as [cd|] eqn:Hc; [|discriminate]. rewrite forallb_forall in P.
    apply (shows_fields h l c fs Hl). intros f v I. destruct (field_type h l c fs cd f v OK Hl Hc I) as (t & It & F). exact (shows_type (plain E n) h t IH (P _ It) v F).
  Qed.

  Lemma simple_step dec create this f s (h : heap) b : simple f s = true ->
    let '(_, (h1, _)) := hexec_dstmt dec (hnew E) create this s (h, b) in
    (forall l, l <> this -> nth_error h1 l = nth_error h l) /\ field h1 this f = field h this f.
  Proof.
    intros S. assert (PUT : forall g x, negb (String.eqb f g) = true -> (forall l, l <> this -> nth_error (put_field h this g x) l = nth_error h l) /\ field (put_field h this g x) this f = field h this f).
    { intros g x N. split; [intros l D; apply put_off; auto|]. destruct (nth_error h this) as [[c fs|vs]|] eqn:Ht.
      - rewrite (field_at _ this f c (hset g x fs)) by (apply put_at; exact Ht). rewrite (field_at h this f c fs Ht). apply hget_hset_off. intros ->. rewrite String.eqb_refl in N. discriminate.
      - unfold put_field. rewrite Ht. reflexivity.
      - unfold put_field. rewrite Ht. reflexivity. }
    destruct s; try discriminate S; cbn [simple] in S; cbn [hexec_dstmt].
    - destruct (read_bytes n b) as [[e|bs] b']; auto.
    - destruct (read_bytes n b) as [[e|bs] b']; auto.
    - destruct (read_fixed len pad left b) as [[e|s] b']; auto.
    - destruct (read_bytes n b) as [[e|bs] b']; auto. cbv zeta. destruct (get_int o bs >? 0); auto. destruct (read_chars (get_int o bs) b') as [[e|cs] b'']; auto.
  Qed.
  Lemma simple_steps dec create this f ss : forall (h : heap) b, forallb (simple f) ss = true ->
    let '(_, (h1, _)) := hexec_dec dec (hnew E) create this ss (h, b) in
    (forall l, l <> this -> nth_error h1 l = nth_error h l) /\ field h1 this f = field h this f.
  Proof.
    induction ss as [|s ss IH]; intros h b S; cbn [hexec_dec]; [auto|]. cbn [forallb] in S. apply andb_true_iff in S. destruct S as [S SS].
    pose proof (simple_step dec create this f s h b S) as Q. destruct (hexec_dstmt dec (hnew E) create this s (h, b)) as [[e|] [h1 b1]]; auto. destruct Q as [Q1 Q2].
    specialize (IH h1 b1 SS). destruct (hexec_dec dec (hnew E) create this ss (h1, b1)) as [e [h2 b2]]. destruct IH as [I1 I2]. split; [intros l D; rewrite I1, Q1; auto|congruence].
  Qed.
  Lemma renewed d create this c cd n : assoc c C = Some cd -> NoDup (map fst (c_fields cd)) -> forall ss (h : heap) fs b (h1 : heap) b1, nth_error h this = Some (CObj c fs) -> heap_ok C h1 ->
    forallb (fine_dstmt (c_fields cd)) ss = true -> map fst fs = map fst (c_fields cd) ->
    renews E n (c_fields cd) ss = true -> hexec_dec (hdecode E d) (hnew E) create this ss (h, b) = (None, (h1, b1)) -> exists t, shows h1 (HRef this) t.
  Proof.
    intros Hc ND ss. induction ss as [|s ss IH]; intros h fs b h1 b1 Ht OK1 FN NM RN X.
    - injection X as -> ->. cbn [renews] in RN. rewrite forallb_forall in RN. apply (shows_fields h1 this c fs Ht). intros f v I.
      destruct (field_type h1 this c fs cd f v OK1 Ht Hc I) as (t & It & F). exact (shows_type (plain E n) h1 t (plain_shows h1 n OK1) (RN _ It) v F).
    - cbn [forallb] in FN. apply andb_true_iff in FN. destruct FN as [FN FNS].
      assert (SKIP : renews E n (c_fields cd) ss = true -> exists t, shows h1 (HRef this) t).
      { intros RS. cbn [hexec_dec] in X. pose proof (keeps_dstmt E (hdecode E d) create this s h b (frame_decode E d) (nth_lt _ _ _ Ht)) as KP.
        destruct (hexec_dstmt (hdecode E d) (hnew E) create this s (h, b)) as [[e|] [h2 b2]]; [discriminate|]. destruct (keeps_object _ _ _ _ _ KP Ht) as (gs & Hg & Ng).
        eapply IH; eauto. congruence. }
      destruct s; try (apply SKIP; exact RN). destruct ss as [|s ss]; [apply SKIP; exact RN|]. destruct s; try (apply SKIP; exact RN). clear SKIP IH.
      cbn [renews] in RN. rewrite !andb_true_iff in RN. destruct RN as [[E0 SM] PL]. apply String.eqb_eq in E0. subst f0. rewrite forallb_forall in PL.
      cbn [hexec_dec hexec_dstmt] in X. destruct (hkey_of (field h this key)) as [kk|]; [|discriminate]. destruct (create kk) as [c'|]; [|discriminate].
      pose proof (own_new E h c') as ON. destruct (hnew E h c') as [h2 x]. destruct ON as (B & O & G). cbn [hexec_dec hexec_dstmt] in X.
      assert (Ht2 : nth_error h2 this = Some (CObj c fs)).
      { destruct G as (_ & G & _). rewrite G; auto. eapply nth_lt; eauto. }
      assert (NB : ~ In this B).
      { intros I. destruct G as (_ & _ & G). destruct (G this I) as [[]|L]. apply nth_lt in Ht. lia. }
      assert (HF : In f (map fst fs)).
      { cbn [fine_dstmt] in FN. rewrite NM. destruct (assoc f (c_fields cd)) as [t|] eqn:A; [|discriminate]. eapply assoc_in_names; eauto. }
      assert (O2 : owns (put_field h2 this f x) x (new_obj E c') B) by (eapply (proj1 (owns_frame h2 _)); eauto; intros l Hl; apply put_off; intros ->; contradiction).
      pose proof (put_at h2 this f x c fs Ht2) as Ht3. rewrite (field_at _ this f _ _ Ht3) in X. rewrite (hget_hset f x fs HF) in X.
      pose proof (own_decode E d (put_field h2 this f x) x _ b B O2) as D. destruct (hdecode E d (put_field h2 this f x) x b) as [[e3 h3] b3]. destruct (decode E d (new_obj E c') b) as [[e4 t4] b4].
      destruct D as (-> & -> & B3 & O3 & G3). destruct e4 as [e4|]; [discriminate|].
      assert (Ht4 : nth_error h3 this = Some (CObj c (hset f x fs))).
      { destruct G3 as (_ & G3 & _). rewrite G3; auto. eapply nth_lt; eauto. }
      assert (NB3 : ~ In this B3).
      { intros I. destruct G3 as (_ & _ & G3). destruct (G3 this I) as [K|K]; [contradiction|]. apply nth_lt in Ht3. lia. }
      pose proof (simple_steps (hdecode E d) create this f ss h3 b4 SM) as Q. rewrite X in Q. destruct Q as [Q1 Q2].
      rewrite (field_at h3 this f _ _ Ht4), (hget_hset f x fs HF) in Q2.
      assert (SX : shows h1 x t4). { apply (proj1 (owns_shows h1) x t4 B3). eapply (proj1 (owns_frame h3 h1)); eauto. intros l Hl. apply Q1. intros ->. contradiction. }
      assert (KP : keeps h3 h1). { pose proof (frame_dstmts E (hdecode E d) create (fun _ => True) this (frame_decode E d) ss h3 b4) as M. rewrite X in M. cbn [fst snd] in M. apply (mv_keeps (fun _ => True)). apply M; auto; [intros ? ? ? _ _ _; exact I|intros ? _; exact I|]. eapply nth_lt; eauto. }
      destruct (keeps_object _ _ _ _ _ KP Ht4) as (gs & Hg & Ng). rewrite names_hset in Ng. rewrite (field_at h1 this f c gs Hg) in Q2.
      apply (shows_fields h1 this c gs Hg). intros g v I. destruct (field_type h1 this c gs cd g v OK1 Hg Hc I) as (t & It & F). pose proof (PL _ It) as P. cbn [fst snd] in P.
      apply orb_true_iff in P. destruct P as [P|P]; [|exact (shows_type (plain E n) h1 t (plain_shows h1 n OK1) P v F)].
      apply String.eqb_eq in P. subst g. assert (v = x) as ->; [|eauto]. rewrite <- Q2. clear - I Ng NM ND. rewrite <- NM, <- Ng in ND. clear Ng NM.
      induction gs as [|[g w] gs IH]; [contradiction|]. cbn in *. inversion ND as [|? ? N1 N2]; subst. destruct I as [[= -> ->]|I]; [rewrite String.eqb_refl; reflexivity|].
      destruct (String.eqb_spec f g) as [->|]; [|auto]. exfalso. apply N1. apply in_map_iff. exists (g, v). auto.
  Qed.
  Hypothesis nodup_classes : forall c cd, find_class E c = Some cd -> NoDup (map fst (c_fields cd)).
  Hypothesis fine_classes : forall c cd, find_class E c = Some cd -> forallb (fine_dstmt (c_fields cd)) (c_dec cd) = true.
  Hypothesis renewing : forall c cd, find_class E c = Some cd -> renews E 3 (c_fields cd) (c_dec cd) = true.
  Theorem untangled d (h : heap) l c fs b (h1 : heap) b1 : heap_ok C h -> heap_ok C h1 -> nth_error h l = Some (CObj c fs) -> hdecode E d h (HRef l) b = (None, h1, b1) -> exists t, shows h1 (HRef l) t.
  Proof.
    intros OK OK1 Hl D. destruct d as [|d]; [discriminate|]. cbn [hdecode] in D. rewrite Hl in D. destruct (find_class E c) as [cd|] eqn:Hc; [|discriminate].
    destruct (hexec_dec (hdecode E d) (hnew E) (factory E c) l (c_dec cd) (h, b)) as [e [h2 b2]] eqn:X. injection D as -> -> ->.
    eapply renewed; [exact Hc|eapply nodup_classes; eauto|exact Hl|exact OK1|eapply fine_classes; eauto| |eapply renewing; eauto|exact X].
    exact (names_of E h l c fs cd OK Hl Hc).
  Qed.
End Untangle.
