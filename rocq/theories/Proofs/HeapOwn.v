(* On objects that are not shared, encode and decode on the heap do what Interp.v says about trees. *)
From Coq Require Import ZArith List Bool String Lia.
From Verif.Model Require Import JavaPrim ByteBuf Utf8 Codec Ast Interp Show Heap.
From Verif.Spec Require Import Bytes Wire Sharing.
From Verif.Proofs Require Import HeapFacts.
Import ListNotations.

Scheme owns_mut := Minimality for owns Sort Prop
  with owns_all_mut := Minimality for owns_all Sort Prop.
Combined Scheme owns_ind2 from owns_mut, owns_all_mut.

Lemma owns_frame (h h' : heap) : (forall v t fp, owns h v t fp -> (forall l, In l fp -> nth_error h' l = nth_error h l) -> owns h' v t fp)
  /\ (forall vs ts fp, owns_all h vs ts fp -> (forall l, In l fp -> nth_error h' l = nth_error h l) -> owns_all h' vs ts fp).
Proof.
  apply owns_ind2; try (intros; constructor; fail).
  - intros l vs ts fp Hl _ IH N S. apply owns_list with vs; [rewrite S; auto; left; auto| |exact N]. apply IH. intros m Hm. apply S. right. exact Hm.
  - intros l c fs gs fp Hl En _ IH N S. apply owns_obj with fs; [rewrite S; auto; left; auto|exact En| |exact N]. apply IH. intros m Hm. apply S. right. exact Hm.
  - intros v t vs ts fp fps _ IH1 _ IH2 A S. constructor; auto.
    + apply IH1. intros l Hl. apply S, in_or_app. left. exact Hl.
    + apply IH2. intros l Hl. apply S, in_or_app. right. exact Hl.
Qed.
Lemma owns_bound h : (forall v t fp, owns h v t fp -> forall l, In l fp -> (l < List.length h)%nat)
  /\ (forall vs ts fp, owns_all h vs ts fp -> forall l, In l fp -> (l < List.length h)%nat).
Proof.
  apply owns_ind2; try (intros; contradiction).
  - intros l vs ts fp Hl _ IH _ m [<-|Hm]; auto. eapply nth_lt; eauto.
  - intros l c fs gs fp Hl _ _ IH _ m [<-|Hm]; auto. eapply nth_lt; eauto.
  - intros v t vs ts fp fps _ IH1 _ IH2 _ l Hl. apply in_app_or in Hl. destruct Hl; auto.
Qed.
Lemma owns_shows h : (forall v t fp, owns h v t fp -> shows h v t) /\ (forall vs ts fp, owns_all h vs ts fp -> shows_all h vs ts).
Proof. apply owns_ind2; intros; econstructor; eauto. Qed.

(* what a call leaves behind: old cells outside the footprint unchanged; the new footprint is made of old and new cells *)
Definition grew (h : heap) (fp : list nat) (h1 : heap) (fp1 : list nat) : Prop :=
  (List.length h <= List.length h1)%nat /\ (forall l, (l < List.length h)%nat -> ~ In l fp -> nth_error h1 l = nth_error h l)
  /\ (forall l, In l fp1 -> In l fp \/ (List.length h <= l)%nat).
Lemma grew_refl h fp : grew h fp h fp.
Proof. repeat split; auto. Qed.
Lemma grew_trans h fp h1 fp1 h2 fp2 : grew h fp h1 fp1 -> grew h1 fp1 h2 fp2 -> grew h fp h2 fp2.
Proof.
  intros (L1 & S1 & F1) (L2 & S2 & F2). repeat split; [lia| |].
  - intros l Hl N. rewrite S2, S1; auto; [lia|]. intros I. destruct (F1 l I); auto. lia.
  - intros l I. destruct (F2 l I) as [J|J]; [destruct (F1 l J); auto|right; lia].
Qed.
Lemma grew_widen h fp h1 fp1 fq fq1 : grew h fp h1 fp1 -> (forall l, In l fp -> In l fq) -> (forall l, In l fq1 -> In l fp1 \/ In l fq) -> grew h fq h1 fq1.
Proof.
  intros (L & S & F) I J. repeat split; auto. intros l H. destruct (J l H) as [K|K]; auto. destruct (F l K); auto.
Qed.

Lemma apart_sym l m : apart l m -> apart m l.
Proof. intros A i Hi Hj. exact (A i Hj Hi). Qed.
Lemma apart_app_r l m n : apart l (m ++ n) <-> apart l m /\ apart l n.
Proof.
  split.
  - intros A. split; intros i Hi Hj; apply (A i Hi), in_or_app; auto.
  - intros [A B] i Hi Hj. apply in_app_or in Hj. destruct Hj; [apply (A i)|apply (B i)]; auto.
Qed.
Lemma apart_nil_l m : apart [] m.
Proof. intros i []. Qed.

Lemma hset_same f fs : hset f (hget f fs) fs = fs.
Proof. induction fs as [|[g v] fs IH]; cbn; auto. destruct (String.eqb_spec f g); cbn; [reflexivity|]. rewrite IH. reflexivity. Qed.
Lemma names_hset f x fs : map fst (hset f x fs) = map fst fs.
Proof. induction fs as [|[g v] fs IH]; cbn; auto. destruct (String.eqb f g); cbn; congruence. Qed.
Lemma names_set f x fs : map fst (set f x fs) = map fst fs.
Proof. induction fs as [|[g v] fs IH]; cbn; auto. destruct (String.eqb f g); cbn; congruence. Qed.

(* the fields of an object, one of them singled out *)
Lemma owns_field h f : forall fs gs fp, map fst gs = map fst fs -> owns_all h (map snd fs) (map snd gs) fp ->
  (hget f fs = HNull /\ get f gs = VNull /\ (forall x, hset f x fs = fs) /\ (forall y, set f y gs = gs))
  \/ exists A B C, fp = A ++ B ++ C /\ owns h (hget f fs) (get f gs) B /\ apart B (A ++ C) /\ (forall y, get f (set f y gs) = y)
     /\ (forall x, hget f (hset f x fs) = x)
     /\ forall h' x y B', owns h' x y B' -> (forall l, In l (A ++ C) -> nth_error h' l = nth_error h l) -> apart B' (A ++ C) ->
          owns_all h' (map snd (hset f x fs)) (map snd (set f y gs)) (A ++ B' ++ C).
Proof.
  induction fs as [|[g v] fs IH]; intros [|[g' t] gs] fp En O; cbn in En; try discriminate.
  - left. repeat split.
  - injection En as -> En. cbn in O. inversion O as [|? ? ? ? fp1 fps O1 O2 A12]; subst. cbn [hget get hset set]. destruct (String.eqb_spec f g) as [->|N].
    + right. exists [], fp1, fps. cbn [app]. split; auto. split; auto. split; auto. split; [intros y; cbn; rewrite String.eqb_refl; auto|].
      split; [intros y; cbn; rewrite String.eqb_refl; auto|].
      intros h' x y B' Hx S A'. cbn. constructor; auto. apply (owns_frame h h'); auto.
    + destruct (IH gs fps En O2) as [(G1 & G2 & S1 & S2)|(A & B & C & -> & OB & AB & GS & HS & K)].
      * left. repeat split; auto; intros x; f_equal; auto.
      * right. exists (fp1 ++ A), B, C. rewrite <- app_assoc. split; auto. split; auto. split; [|split; [|split]].
        -- rewrite <- app_assoc. apply apart_app_r. split; auto. apply apart_app_r in A12. destruct A12 as [_ A12]. apply apart_app_r in A12. apply apart_sym, A12.
        -- intros y. cbn. destruct (String.eqb_spec f g); [contradiction|]. auto.
        -- intros y. cbn. destruct (String.eqb_spec f g); [contradiction|]. auto.
        -- intros h' x y B' Hx S A'. cbn. rewrite <- app_assoc in *. apply apart_app_r in A'. destruct A' as [A'1 A'2]. constructor.
           ++ apply (owns_frame h h'); auto. intros l Hl. apply S, in_or_app. left. exact Hl.
           ++ apply K; auto. intros l Hl. apply S, in_or_app. right. exact Hl.
           ++ apply apart_app_r in A12. destruct A12 as [A1 A2]. apply apart_app_r in A2. destruct A2 as [A2 A3]. apply apart_app_r. split; auto.
              apply apart_app_r. split; auto. apply apart_sym. exact A'1.
Qed.

Definition holds (h : heap) (this : nat) (c : string) (gs : list (string * val)) (fp : list nat) : Prop := owns h (HRef this) (VObj c gs) fp.
Lemma holds_inv h this c gs fp : holds h this c gs fp ->
  exists fs fp', fp = this :: fp' /\ nth_error h this = Some (CObj c fs) /\ map fst gs = map fst fs /\ owns_all h (map snd fs) (map snd gs) fp' /\ ~ In this fp'.
Proof. intros H. inversion H; subst. eauto 9. Qed.
Lemma holds_frame h h' this c gs fp : holds h this c gs fp -> (forall l, In l fp -> nth_error h' l = nth_error h l) -> holds h' this c gs fp.
Proof. intros H S. apply (owns_frame h h'); auto. Qed.

(* this.f = x *)
Lemma holds_put h this c gs fp f x y B : holds h this c gs fp -> owns h x y B -> apart B fp ->
  exists fp1, holds (put_field h this f x) this c (set f y gs) fp1 /\ (forall l, In l fp1 -> In l fp \/ In l B)
    /\ grew h (fp ++ B) (put_field h this f x) fp1.
Proof.
  intros H HX AB. destruct (holds_inv h this c gs fp H) as (fs & fp' & -> & Ht & En & O & NT).
  assert (SO : forall l, l <> this -> nth_error (put_field h this f x) l = nth_error h l) by (intros l N; apply put_off; exact N).
  assert (G : forall fq, (forall l, In l fq -> In l (this :: fp') \/ In l B) -> grew h ((this :: fp') ++ B) (put_field h this f x) fq).
  { intros fq S. repeat split; [rewrite put_length; auto| |].
    - intros l Hl N. apply SO. intros ->. apply N. left. reflexivity.
    - intros l I. left. apply in_or_app. apply S. exact I. }
  destruct (owns_field h f fs gs fp' En O) as [(G1 & G2 & S1 & S2)|(A & B0 & C & -> & OB & AB0 & GS & HS & K)].
  - exists (this :: fp'). split; [|split; auto]. rewrite S2. econstructor; eauto.
    + rewrite (put_at h this f x c fs Ht), S1. reflexivity.
    + apply (owns_frame h); auto. intros l Hl. apply SO. intros ->. contradiction.
  - assert (AC : apart B (A ++ C)).
    { intros i Hi Hj. apply (AB i Hi). right. apply in_app_or in Hj. destruct Hj; [apply in_or_app; auto|]. apply in_or_app. right. apply in_or_app. auto. }
    assert (NTB : ~ In this B) by (intros I; apply (AB this I); left; reflexivity).
    exists (this :: A ++ B ++ C). assert (SUB : forall l, In l (this :: A ++ B ++ C) -> In l (this :: A ++ B0 ++ C) \/ In l B).
    { intros l [<-|Hl]; [left; left; auto|]. apply in_app_or in Hl. destruct Hl as [Hl|Hl]; [left; right; apply in_or_app; auto|].
      apply in_app_or in Hl. destruct Hl as [Hl|Hl]; auto. left. right. apply in_or_app. right. apply in_or_app. auto. }
    split; [|split; auto]. econstructor.
    + apply put_at. exact Ht.
    + rewrite names_set, names_hset. exact En.
    + apply K; auto.
      * apply (owns_frame h); auto. intros l Hl. apply SO. intros ->. contradiction.
      * intros l Hl. apply SO. intros ->. apply NT. apply in_app_or in Hl. destruct Hl; [apply in_or_app; auto|]. apply in_or_app. right. apply in_or_app. auto.
    + intros I. apply in_app_or in I. destruct I as [I|I]; [apply NT, in_or_app; auto|]. apply in_app_or in I. destruct I as [I|I]; [contradiction|].
      apply NT, in_or_app. right. apply in_or_app. auto.
Qed.
Lemma holds_put_scalar h this c gs fp f x y : holds h this c gs fp -> owns h x y [] ->
  exists fp1, holds (put_field h this f x) this c (set f y gs) fp1 /\ grew h fp (put_field h this f x) fp1.
Proof.
  intros H HX. destruct (holds_put h this c gs fp f x y [] H HX (apart_nil_l _)) as (fp1 & H1 & S & G). rewrite app_nil_r in G. eauto.
Qed.

(* a call on this.f *)
Definition ownsim (call : heap -> hval -> bytebuf -> option exn * heap * bytebuf) (tcall : val -> bytebuf -> option exn * val * bytebuf) : Prop :=
  forall h v t b fp, owns h v t fp ->
    let '(e, h1, b1) := call h v b in let '(e2, t1, b2) := tcall t b in
    e = e2 /\ b1 = b2 /\ exists fp1, owns h1 v t1 fp1 /\ grew h fp h1 fp1.

Lemma apart_grew h B h1 B1 fq : grew h B h1 B1 -> apart B fq -> (forall l, In l fq -> (l < List.length h)%nat) -> apart B1 fq.
Proof. intros (_ & _ & F) A L i Hi Hj. destruct (F i Hi) as [K|K]; [exact (A i K Hj)|]. specialize (L i Hj). lia. Qed.

Lemma holds_call call tcall h this c gs fp f b : ownsim call tcall -> holds h this c gs fp ->
  let '(e, h1, b1) := call h (field h this f) b in let '(e2, t1, b2) := tcall (get f gs) b in
  e = e2 /\ b1 = b2 /\ exists fp1, holds h1 this c (set f t1 gs) fp1 /\ grew h fp h1 fp1.
Proof.
  intros S H. destruct (holds_inv h this c gs fp H) as (fs & fp' & -> & Ht & En & O & NT). rewrite (field_at h this f c fs Ht).
  pose proof (proj2 (owns_bound h) _ _ _ O) as BD. pose proof (nth_lt _ _ _ Ht) as TL.
  destruct (owns_field h f fs gs fp' En O) as [(G1 & G2 & S1 & S2)|(A & B & C & -> & OB & AB & GS & HS & K)].
  - rewrite G1, G2. specialize (S h HNull VNull b [] (owns_null h)). destruct (call h HNull b) as [[e h1] b1]. destruct (tcall VNull b) as [[e2 t1] b2].
    destruct S as (<- & <- & fp1 & O1 & GR). split; auto. split; auto. exists (this :: fp'). rewrite S2. split.
    + eapply holds_frame; [exact H|]. intros l Hl. apply GR; auto. destruct Hl as [<-|Hl]; auto.
    + eapply grew_widen; [exact GR| |]; [intros l []|auto].
  - specialize (S h (hget f fs) (get f gs) b B OB). destruct (call h (hget f fs) b) as [[e h1] b1]. destruct (tcall (get f gs) b) as [[e2 t1] b2].
    destruct S as (<- & <- & B1 & O1 & GR). split; auto. split; auto. exists (this :: A ++ B1 ++ C).
    assert (TB : ~ In this B). { intros I. apply NT, in_or_app. right. apply in_or_app. auto. }
    assert (ACB : forall l, In l (A ++ C) -> (l < List.length h)%nat /\ ~ In l B).
    { intros l Hl. split; [apply BD|intros I; exact (AB l I Hl)]. apply in_app_or in Hl. apply in_or_app. destruct Hl; auto. right. apply in_or_app. auto. }
    assert (TAC : ~ In this (A ++ C)).
    { intros I. apply NT. apply in_app_or in I. apply in_or_app. destruct I; auto. right. apply in_or_app. auto. }
    split.
    + econstructor.
      * destruct GR as (_ & GS1 & _). rewrite GS1; eauto.
      * rewrite names_set. exact En.
      * replace (map snd fs) with (map snd (hset f (hget f fs) fs)) by (rewrite hset_same; reflexivity). apply K; auto.
        -- intros l Hl. destruct (ACB l Hl). apply GR; auto.
        -- eapply apart_grew; eauto. intros l Hl. apply ACB. exact Hl.
      * intros I. apply in_app_or in I. destruct I as [I|I]; [apply TAC, in_or_app; auto|]. apply in_app_or in I. destruct I as [I|I]; [|apply TAC, in_or_app; auto].
        destruct GR as (_ & _ & F). destruct (F this I); [contradiction|lia].
    + eapply grew_widen; [exact GR| |].
      * intros l Hl. right. apply in_or_app. right. apply in_or_app. auto.
      * intros l [<-|Hl]; [right; left; auto|]. apply in_app_or in Hl. destruct Hl as [Hl|Hl]; [right; right; apply in_or_app; auto|].
        apply in_app_or in Hl. destruct Hl as [Hl|Hl]; auto. right. right. apply in_or_app. right. apply in_or_app. auto.
Qed.

(* ---- encode ---- *)
Lemma owns_string h v t fp : owns h v t fp -> hstring_of v = string_of t.
Proof. intros H; inversion H; subst; reflexivity. Qed.
Lemma own_elem enc tenc x : ownsim enc tenc -> forall h v t b fp, owns h v t fp ->
  let '(e, h1, b1) := henc_elem enc x h v b in let '(e2, t1, b2) := enc_elem tenc x t b in
  e = e2 /\ b1 = b2 /\ exists fp1, owns h1 v t1 fp1 /\ grew h fp h1 fp1.
Proof.
  intros S h v t b fp N. pose proof (grew_refl h fp) as V. destruct x; cbn [henc_elem enc_elem].
  - inversion N; subst; eauto. destruct (write_int o n z b). eauto.
  - inversion N; subst; eauto. destruct (write_int o n z b). eauto.
  - rewrite (owns_string h v t fp N). destruct (string_of t); eauto. destruct (write_fixed j len pad left b). eauto.
  - rewrite (owns_string h v t fp N). destruct (string_of t); eauto. destruct (write_dyn j zn zo n o b). eauto.
  - apply S. exact N.
Qed.
Lemma own_elems enc tenc x : ownsim enc tenc -> forall vs h ts b fp, owns_all h vs ts fp ->
  let '(e, h1, b1) := henc_elems enc x h vs b in let '(e2, ts1, b2) := enc_elems tenc x ts b in
  e = e2 /\ b1 = b2 /\ exists fp1, owns_all h1 vs ts1 fp1 /\ grew h fp h1 fp1.
Proof.
  intros S vs. induction vs as [|v vs IH]; intros h ts b fp N; inversion N as [|? t ? ts' fp1 fps Hv Hr AP]; subst; cbn [henc_elems enc_elems].
  - split; auto. split; auto. exists []. split; [constructor|apply grew_refl].
  - pose proof (own_elem enc tenc x S h v t b fp1 Hv) as H.
    destruct (henc_elem enc x h v b) as [[e h1] b1]. destruct (enc_elem tenc x t b) as [[e2 t1] b2]. destruct H as (<- & <- & fq & N1 & G1).
    assert (BD : forall l, In l fps -> (l < List.length h)%nat) by exact (proj2 (owns_bound h) _ _ _ Hr).
    assert (Hr1 : owns_all h1 vs ts' fps).
    { apply (owns_frame h h1); auto. intros l Hl. apply G1; auto. intros I. exact (AP l I Hl). }
    assert (AP1 : apart fq fps) by (eapply apart_grew; eauto).
    assert (GG : grew h (fp1 ++ fps) h1 (fq ++ fps)).
    { eapply grew_widen; [exact G1| |]; intros l Hl; [apply in_or_app; auto|]. apply in_app_or in Hl. destruct Hl; auto. right. apply in_or_app. auto. }
    destruct e as [e|].
    + split; auto. split; auto. exists (fq ++ fps). split; auto. constructor; auto.
    + specialize (IH h1 ts' b1 fps Hr1). destruct (henc_elems enc x h1 vs b1) as [[e3 h3] b3]. destruct (enc_elems tenc x ts' b1) as [[e4 ts4] b4].
      destruct IH as (<- & <- & fr & N3 & G3). split; auto. split; auto. exists (fq ++ fr).
      assert (BQ : forall l, In l fq -> (l < List.length h1)%nat) by exact (proj1 (owns_bound h1) _ _ _ N1).
      split.
      * constructor; auto.
        -- apply (owns_frame h1 h3); auto. intros l Hl. apply G3; auto.
        -- apply apart_sym. eapply apart_grew; [exact G3|apply apart_sym; exact AP1|exact BQ].
      * eapply grew_trans; [exact GG|]. eapply grew_widen; [exact G3| |]; intros l Hl; [apply in_or_app; auto|].
        apply in_app_or in Hl. destruct Hl; auto. right. apply in_or_app. auto.
Qed.

(* the loop over the list this.f *)
Lemma holds_elems enc tenc x h this c gs fp f b l vs ts : ownsim enc tenc -> holds h this c gs fp -> field h this f = HRef l -> nth_error h l = Some (CList vs) ->
  get f gs = VList ts ->
  let '(e, h1, b1) := henc_elems enc x h vs b in let '(e2, ts1, b2) := enc_elems tenc x ts b in
  e = e2 /\ b1 = b2 /\ exists fp1, holds h1 this c (set f (VList ts1) gs) fp1 /\ grew h fp h1 fp1.
Proof.
  intros S H FF Hl GT. set (call := fun (h0 : heap) (v : hval) (b0 : bytebuf) =>
    match elements h0 v with Some ws => henc_elems enc x h0 ws b0 | None => (Some TYPE, h0, b0) end).
  set (tcall := fun (t : val) (b0 : bytebuf) => match t with VList us => let '(e, us', b') := enc_elems tenc x us b0 in (e, VList us', b') | _ => (Some TYPE, t, b0) end).
  assert (SC : ownsim call tcall).
  { intros h0 v t b0 fq O. unfold call, tcall. pose proof (grew_refl h0 fq) as GR. inversion O as [| | | |l0 vs0 ts0 fp0 Hl0 O0 N0|l0 c0 fs0 gs0 fp0 Hl0 En0 O0 N0]; subst; cbn [elements]; eauto.
    - rewrite Hl0. pose proof (own_elems enc tenc x S vs0 h0 ts0 b0 fp0 O0) as K.
      destruct (henc_elems enc x h0 vs0 b0) as [[e h1] b1]. destruct (enc_elems tenc x ts0 b0) as [[e2 ts1] b2]. destruct K as (<- & <- & fp1 & O1 & G1).
      split; auto. split; auto. exists (l0 :: fp1). split.
      + apply owns_list with vs0; [|exact O1|].
        * destruct G1 as (_ & SM & _). rewrite SM; auto. eapply nth_lt; eauto.
        * intros I. destruct G1 as (_ & _ & F). destruct (F l0 I); [contradiction|]. apply nth_lt in Hl0. lia.
      + eapply grew_widen; [exact G1| |]; intros m Hm; [right; exact Hm|]. destruct Hm as [<-|Hm]; auto. right. left. reflexivity.
    - rewrite Hl0. eauto. }
  pose proof (holds_call call tcall h this c gs fp f b SC H) as K. rewrite FF, GT in K. unfold call, tcall in K. cbn [elements] in K. rewrite Hl in K.
  destruct (henc_elems enc x h vs b) as [[e h1] b1]. destruct (enc_elems tenc x ts b) as [[e2 ts1] b2]. exact K.
Qed.

Section Own.
  Variable E : env.
  Lemma holds_get h this c gs fp f : holds h this c gs fp -> exists B, owns h (field h this f) (get f gs) B.
  Proof.
    intros H. destruct (holds_inv h this c gs fp H) as (fs & fp' & -> & Ht & En & O & NT). rewrite (field_at h this f c fs Ht).
    destruct (owns_field h f fs gs fp' En O) as [(G1 & G2 & S1 & S2)|(A & B & C & -> & OB & AB & GS & HS & K)]; eauto.
    rewrite G1, G2. exists []. constructor.
  Qed.
  Lemma own_stmt enc tenc this c s h gs loc b fp : ownsim enc tenc -> holds h this c gs fp ->
    let '(e, (h1, loc1, b1)) := hexec_estmt enc (checksum E) this s (h, loc, b) in
    let '(e2, (gs1, loc2, b2)) := exec_estmt tenc (checksum E) s (gs, loc, b) in
    e = e2 /\ loc1 = loc2 /\ b1 = b2 /\ exists fp1, holds h1 this c gs1 fp1 /\ grew h fp h1 fp1.
  Proof.
    intros S H. pose proof (grew_refl h fp) as GR. assert (GET := fun f => holds_get h this c gs fp f H).
    destruct s; cbn [hexec_estmt exec_estmt].
    - destruct (GET f) as (B & O). inversion O; subst; eauto 8. destruct (write_int o n z b). eauto 8.
    - destruct (GET f) as (B & O). inversion O; subst; eauto 8. destruct (write_int o n z b). eauto 8.
    - destruct (GET f) as (B & O). rewrite (owns_string _ _ _ _ O). destruct (string_of (get f gs)); eauto 8. destruct (write_fixed j len pad left b). eauto 8.
    - destruct (GET f) as (B & O). rewrite (owns_string _ _ _ _ O). destruct (string_of (get f gs)); eauto 8. destruct (write_dyn j zn zo n o b). eauto 8.
    - destruct (GET f) as (B & O). inversion O as [FN FT|z FN FT|z FN FT|z FN FT|l vs ts fp0 Hl O0 N0 FN FT|l c0 fs0 gs0 fp0 Hl En0 O0 N0 FN FT]; cbn [elements]; eauto 8.
      + destruct (write_int zo zn 0 b). eauto 8.
      + rewrite Hl. inversion O0; subst.
        * destruct (write_int zo zn 0 b). eauto 8.
        * assert (LL : List.length (v :: vs0) = List.length (t :: ts0)).
          { clear - O0. remember (v :: vs0) as x. remember (t :: ts0) as y. clear Heqx Heqy. induction O0; cbn; auto. }
          rewrite LL. destruct (write_int o n _ b) as [e1 b1]. destruct e1 as [e1|]; [eauto 8|].
          pose proof (holds_elems enc tenc x h this c gs fp f b1 l (v :: vs0) (t :: ts0) S H (eq_sym FN) Hl (eq_sym FT)) as K.
          destruct (henc_elems enc x h (v :: vs0) b1) as [[e h2] b2]. destruct (enc_elems tenc x (t :: ts0) b1) as [[e' ts2] b2'].
          destruct K as (<- & <- & K). auto.
      + rewrite Hl. eauto 8.
    - pose proof (holds_call enc tenc h this c gs fp f b S H) as K.
      destruct (enc h (field h this f) b) as [[e h2] b2]. destruct (tenc (get f gs) b) as [[e' t2] b2']. destruct K as (<- & <- & K). auto.
    - pose proof (holds_call enc tenc h this c gs fp f b S H) as K. destruct (GET f) as (B & O).
      inversion O as [FN FT|z FN FT|z FN FT|z FN FT|l vs ts fp0 Hl O0 N0 FN FT|l c0 fs0 gs0 fp0 Hl En0 O0 N0 FN FT];
        rewrite <- FN, <- FT in K; cbv beta iota; eauto 8;
        match goal with |- context [enc h ?v b] => destruct (enc h v b) as [[e h2] b2] end;
        match goal with |- context [tenc ?v b] => destruct (tenc v b) as [[e' t2] b2'] end; destruct K as (<- & <- & K); auto.
    - eauto 8.
    - destruct (write_int o n 0 b). eauto 8.
    - destruct (assoc x loc), (assoc y loc); eauto 8.
      destruct (holds_put_scalar h this c gs fp f (HInt (wrap 32 (Z.of_nat n - Z.of_nat n0))) _ H (owns_int h _)) as (fp1 & H1 & G1). eauto 8.
    - destruct (assoc x loc); eauto 8. destruct (GET f) as (B & O). inversion O; subst; eauto 8. destruct (set_int o n n0 z b). eauto 8.
    - destruct (checksum E alg) as [k|]; eauto 8.
      destruct (holds_put_scalar h this c gs fp f (HInt (wrap 32 (k (readable b)))) _ H (owns_int h _)) as (fp1 & H1 & G1). eauto 8.
  Qed.
  Lemma own_stmts enc tenc this c : ownsim enc tenc -> forall ss h gs loc b fp, holds h this c gs fp ->
    let '(e, (h1, loc1, b1)) := hexec_enc enc (checksum E) this ss (h, loc, b) in
    let '(e2, (gs1, loc2, b2)) := exec_enc tenc (checksum E) ss (gs, loc, b) in
    e = e2 /\ loc1 = loc2 /\ b1 = b2 /\ exists fp1, holds h1 this c gs1 fp1 /\ grew h fp h1 fp1.
  Proof.
    intros S ss. induction ss as [|s ss IH]; intros h gs loc b fp H; cbn [hexec_enc exec_enc].
    - pose proof (grew_refl h fp). eauto 8.
    - pose proof (own_stmt enc tenc this c s h gs loc b fp S H) as K.
      destruct (hexec_estmt enc (checksum E) this s (h, loc, b)) as [e [[h1 loc1] b1]].
      destruct (exec_estmt tenc (checksum E) s (gs, loc, b)) as [e2 [[gs1 loc2] b2]]. destruct K as (<- & <- & <- & fp1 & H1 & G1).
      destruct e as [e|]; [eauto 8|]. specialize (IH h1 gs1 loc1 b1 fp1 H1).
      destruct (hexec_enc enc (checksum E) this ss (h1, loc1, b1)) as [e3 [[h3 loc3] b3]].
      destruct (exec_enc tenc (checksum E) ss (gs1, loc1, b1)) as [e4 [[gs4 loc4] b4]]. destruct IH as (<- & <- & <- & fp3 & H3 & G3).
      pose proof (grew_trans _ _ _ _ _ _ G1 G3). eauto 8.
  Qed.
  Theorem own_encode d : ownsim (hencode E d) (encode E d).
  Proof.
    induction d as [|d IH]; intros h v t b fp O; pose proof (grew_refl h fp) as GR.
    - inversion O; subst; cbn; eauto 8.
    - inversion O as [FN FT|z FN FT|z FN FT|z FN FT|l vs ts fp0 Hl O0 N0 FN FT|l c fs gs fp0 Hl En0 O0 N0 FN FT]; subst; cbn [hencode encode]; eauto 8.
      + rewrite Hl. eauto 8.
      + rewrite Hl. destruct (find_class E c) as [cd|]; [|eauto 8].
        pose proof (own_stmts (hencode E d) (encode E d) l c IH (c_enc cd) h gs [] b (l :: fp0) O) as K.
        destruct (hexec_enc (hencode E d) (checksum E) l (c_enc cd) (h, [], b)) as [e [[h1 loc1] b1]].
        destruct (exec_enc (encode E d) (checksum E) (c_enc cd) (gs, [], b)) as [e2 [[gs1 loc2] b2]]. destruct K as (<- & <- & <- & K). auto.
  Qed.
End Own.
