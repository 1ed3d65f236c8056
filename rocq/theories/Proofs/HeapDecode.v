(* decode on the heap into an object that is not shared. *)
From Coq Require Import ZArith List Bool String Lia.
From Verif.Model Require Import JavaPrim ByteBuf Utf8 Codec Ast Interp Show Heap.
From Verif.Spec Require Import Bytes Wire Sharing.
From Verif.Proofs Require Import DecodeFacts HeapFacts HeapOwn.
Import ListNotations.

Lemma grew_alloc (h : heap) k : grew h [] (h ++ [k]) [List.length h].
Proof.
  repeat split.
  - rewrite app_length. cbn. lia.
  - intros l Hl _. apply nth_app_old. exact Hl.
  - intros l [<-|[]]. auto.
Qed.
Lemma own_new E h c : let '(h1, x) := hnew E h c in exists B, owns h1 x (new_obj E c) B /\ grew h [] h1 B.
Proof.
  unfold hnew, new_obj. destruct (find_class E c) as [cd|].
  - cbn [alloc_cell]. exists [List.length h]. split; [|apply grew_alloc].
    apply owns_obj with (map (fun ft => (fst ft, hdefault (snd ft))) (c_fields cd)).
    + apply nth_app_new.
    + rewrite !map_map. reflexivity.
    + rewrite !map_map. cbn [snd]. generalize (h ++ [CObj c (map (fun ft => (fst ft, hdefault (snd ft))) (c_fields cd))]). intros h1. induction (c_fields cd) as [|[f t] l IH]; cbn; [constructor|]. change (@nil nat) with ([] ++ @nil nat).
      constructor; [destruct t; cbn; constructor|exact IH|apply apart_nil_l].
    + intros [].
  - exists []. split; [constructor|apply grew_refl].
Qed.
Lemma apart_fresh (h : heap) h1 B fp : grew h [] h1 B -> (forall l, In l fp -> (l < List.length h)%nat) -> apart B fp.
Proof. intros (_ & _ & F) L i Hi Hj. destruct (F i Hi) as [[]|K]. specialize (L i Hj). lia. Qed.
Lemma holds_later h h1 this c gs fp : holds h this c gs fp -> grew h [] h1 [] -> holds h1 this c gs fp.
Proof. intros H (_ & S & _). eapply holds_frame; eauto. intros l Hl. apply S; auto. eapply (proj1 (owns_bound h)); eauto. Qed.
Lemma grew_nil h h1 B : grew h [] h1 B -> grew h [] h1 [].
Proof. intros (L & S & F). split; [exact L|]. split; [exact S|]. intros l []. Qed.

(* x = (something new); this.f = x *)
Lemma holds_put_new h this c gs fp f h1 x y B : holds h this c gs fp -> grew h [] h1 B -> owns h1 x y B ->
  exists fp1, holds (put_field h1 this f x) this c (set f y gs) fp1 /\ grew h fp (put_field h1 this f x) fp1.
Proof.
  intros H G O. pose proof (holds_later h h1 this c gs fp H (grew_nil _ _ _ G)) as H1.
  assert (AB : apart B fp) by (eapply apart_fresh; eauto; exact (proj1 (owns_bound h) _ _ _ H)).
  destruct (holds_put h1 this c gs fp f x y B H1 O AB) as (fp1 & H2 & S & G2). exists fp1. split; auto.
  apply grew_trans with h1 (fp ++ B).
  - eapply grew_widen; [exact G| |]; [intros l []|]. intros l Hl. apply in_app_or in Hl. destruct Hl; auto.
  - exact G2.
Qed.

Lemma owns_all_snoc h vs ts fp x y B : owns_all h vs ts fp -> owns h x y B -> apart B fp -> owns_all h (vs ++ [x]) (ts ++ [y]) (fp ++ B).
Proof.
  intros H. revert x y B. induction H as [|v t vs ts fp fps Hv Hr IH AP]; intros x y B O AB.
  - cbn. rewrite <- (app_nil_r B). apply owns_cons; [exact O|constructor|]. intros i _ [].
  - cbn. apply apart_app_r in AB. destruct AB as [A1 A2]. rewrite <- app_assoc. constructor; auto. apply apart_app_r. split; auto. apply apart_sym. exact A1.
Qed.

Lemma get_set_present (f : string) y gs : (exists y', set f y' gs <> gs) -> get f (set f y gs) = y.
Proof.
  intros (y' & N). induction gs as [|[g t] gs IH]; cbn in *; [contradiction|]. destruct (String.eqb_spec f g) as [->|NE]; cbn.
  - rewrite String.eqb_refl. reflexivity.
  - destruct (String.eqb_spec f g); [contradiction|]. apply IH. intros E. apply N. f_equal. exact E.
Qed.
Lemma set_set_eq f y y' gs : set f y (set f y' gs) = set f y gs.
Proof.
  induction gs as [|[g t] gs IH]; cbn; auto. destruct (String.eqb_spec f g) as [->|NE]; cbn.
  - rewrite String.eqb_refl. reflexivity.
  - destruct (String.eqb_spec f g); [contradiction|]. rewrite IH. reflexivity.
Qed.

(* this.f.add(x), where this.f holds the elements decoded so far *)
Lemma holds_add h this c gs fp f ts x y B : holds h this c (set f (VList ts) gs) fp -> owns h x y B -> apart B fp ->
  exists fp1, holds (list_add h (field h this f) x) this c (set f (VList (ts ++ [y])) gs) fp1
    /\ (forall l, In l fp1 -> In l fp \/ In l B) /\ grew h (fp ++ B) (list_add h (field h this f) x) fp1.
Proof.
  intros H HX AB. destruct (holds_inv h this c _ fp H) as (fs & fp' & -> & Ht & En & O & NT). rewrite (field_at h this f c fs Ht).
  destruct (owns_field h f fs _ fp' En O) as [(G1 & G2 & S1 & S2)|(A & B0 & C & -> & OB & AB0 & GS & HS & K)].
  - rewrite G1. cbn [list_add]. assert (EQ : set f (VList (ts ++ [y])) gs = set f (VList ts) gs) by (rewrite <- (S2 (VList (ts ++ [y]))); symmetry; apply set_set_eq).
    rewrite EQ. exists (this :: fp'). split; auto. split; auto. eapply grew_widen; [apply grew_refl| |]; intros l Hl; [exact Hl|]. right. apply in_or_app. auto.
  - assert (GT : get f (set f (VList ts) gs) = VList ts) by (rewrite <- (GS (VList ts)) at 2; rewrite set_set_eq; reflexivity). rewrite GT in OB.
    inversion OB as [| | | |l vs ts0 fpl Hl Ol Nl|]; subst. cbn [list_add]. rewrite Hl.
    assert (AX : forall i, In i B -> i <> this /\ ~ In i A /\ ~ In i C /\ i <> l /\ ~ In i fpl).
    { intros i Hi. pose proof (AB i Hi) as N. repeat split; intros I; apply N.
      - left. auto.
      - right. apply in_or_app. auto.
      - right. apply in_or_app. right. apply in_or_app. auto.
      - right. apply in_or_app. right. apply in_or_app. left. left. auto.
      - right. apply in_or_app. right. apply in_or_app. left. right. auto. }
    assert (LT : l <> this). { intros ->. apply NT. apply in_or_app. right. apply in_or_app. left. left. reflexivity. }
    assert (SO : forall m, m <> l -> nth_error (upd h l (CList (vs ++ [x]))) m = nth_error h m) by (intros m N; apply upd_off; exact N).
    exists (this :: A ++ (l :: fpl ++ B) ++ C).
    assert (SUB : forall m, In m (this :: A ++ (l :: fpl ++ B) ++ C) -> In m (this :: A ++ (l :: fpl) ++ C) \/ In m B).
    { intros m [<-|Hm]; [left; left; auto|]. apply in_app_or in Hm. destruct Hm as [Hm|Hm]; [left; right; apply in_or_app; auto|].
      apply in_app_or in Hm. destruct Hm as [[<-|Hm]|Hm].
      - left. right. apply in_or_app. right. left. reflexivity.
      - apply in_app_or in Hm. destruct Hm as [Hm|Hm]; auto. left. right. apply in_or_app. right. right. apply in_or_app. auto.
      - left. right. apply in_or_app. right. apply in_or_app. auto. }
    split; [|split; auto].
    + replace (set f (VList (ts ++ [y])) gs) with (set f (VList (ts ++ [y])) (set f (VList ts) gs)) by apply set_set_eq.
      apply owns_obj with (hset f (HRef l) fs).
      * rewrite SO by auto. rewrite Ht. f_equal. f_equal. symmetry.
        match goal with E : HRef l = hget f fs |- _ => rewrite E end. apply hset_same.
      * rewrite names_hset, <- En, names_set. reflexivity.
      * apply K.
        -- apply owns_list with (vs ++ [x]).
           ++ apply upd_at. eapply nth_lt; eauto.
           ++ apply (owns_frame h).
              ** apply owns_all_snoc; auto. intros i Hi. apply AX. exact Hi.
              ** intros m Hm. apply SO. intros ->. apply in_app_or in Hm. destruct Hm as [Hm|Hm]; [contradiction|]. destruct (AX l Hm) as (_ & _ & _ & N & _). congruence.
           ++ intros I. apply in_app_or in I. destruct I as [I|I]; [contradiction|]. destruct (AX l I) as (_ & _ & _ & N & _). congruence.
        -- intros m Hm. apply SO. intros ->. apply (AB0 l); auto. left. reflexivity.
        -- intros i [<-|Hi] Hj; [apply (AB0 l); auto; left; reflexivity|]. apply in_app_or in Hi. destruct Hi as [Hi|Hi].
           ++ apply (AB0 i); auto. right. exact Hi.
           ++ apply in_app_or in Hj. destruct (AX i Hi) as (_ & N1 & N2 & _). destruct Hj; contradiction.
      * intros I. apply in_app_or in I. destruct I as [I|I]; [apply NT, in_or_app; auto|]. apply in_app_or in I. destruct I as [[I|I]|I].
        -- congruence.
        -- apply in_app_or in I. destruct I as [I|I]; [|destruct (AX this I) as (N & _); congruence]. apply NT, in_or_app. right. apply in_or_app. left. right. exact I.
        -- apply NT, in_or_app. right. apply in_or_app. auto.
    + repeat split; [rewrite upd_length; auto| |].
      * intros m Hm N. apply SO. intros ->. apply N. apply in_or_app. left. right. apply in_or_app. right. left. reflexivity.
      * intros m I. left. apply in_or_app. apply SUB. exact I.
Qed.
Lemma holds_add_scalar h this c gs fp f ts x y : holds h this c (set f (VList ts) gs) fp -> owns h x y [] ->
  exists fp1, holds (list_add h (field h this f) x) this c (set f (VList (ts ++ [y])) gs) fp1 /\ grew h fp (list_add h (field h this f) x) fp1.
Proof.
  intros H HX. destruct (holds_add h this c gs fp f ts x y [] H HX (apart_nil_l _)) as (fp1 & H1 & S & G). rewrite app_nil_r in G. eauto.
Qed.

Section OwnDecode.
  Variable E : env.
  Lemma own_delem dec tdec this c gs f y h ts b fp : ownsim dec tdec -> holds h this c (set f (VList ts) gs) fp ->
    let '(e, (h1, b1)) := hdec_elem dec (hnew E) this f y (h, b) in
    let '(e2, (ts1, b2)) := dec_elem tdec (new_obj E) y (ts, b) in
    e = e2 /\ b1 = b2 /\ exists fp1, holds h1 this c (set f (VList ts1) gs) fp1 /\ grew h fp h1 fp1.
  Proof.
    intros S H. pose proof (grew_refl h fp) as GR. destruct y; cbn [hdec_elem dec_elem].
    - destruct (read_bytes n b) as [[e|bs] b']; eauto 8. split; auto. split; auto. apply holds_add_scalar; auto. constructor.
    - destruct (read_bytes n b) as [[e|bs] b']; eauto 8. split; auto. split; auto. apply holds_add_scalar; auto. constructor.
    - destruct (read_fixed len pad left b) as [[e|s] b']; eauto 8. split; auto. split; auto. apply holds_add_scalar; auto. constructor.
    - destruct (read_bytes n b) as [[e|bs] b']; eauto 8. cbv zeta. destruct (get_int o bs >? 0)%Z; eauto 8.
      destruct (read_chars (get_int o bs) b') as [[e|cs] b'']; eauto 8. split; auto. split; auto. apply holds_add_scalar; auto. constructor.
    - pose proof (own_new E h c0) as NW. destruct (hnew E h c0) as [h1 x]. destruct NW as (B & OX & G1).
      pose proof (S h1 x (new_obj E c0) b B OX) as K. destruct (dec h1 x b) as [[e h2] b1]. destruct (tdec (new_obj E c0) b) as [[e2 t1] b2].
      destruct K as (<- & <- & B2 & O2 & G2). pose proof (grew_trans _ _ _ _ _ _ G1 G2) as G3. clear G1 G2.
      pose proof (holds_later h h2 this c _ fp H (grew_nil _ _ _ G3)) as H2.
      assert (W : forall fq, (forall l, In l fq -> In l B2 \/ In l fp) -> grew h fp h2 fq).
      { intros fq I. eapply grew_widen; [exact G3| |]; [intros l []|exact I]. }
      destruct e as [e|].
      + split; auto. split; auto. exists fp. split; auto.
      + split; auto. split; auto. assert (AB : apart B2 fp) by (eapply apart_fresh; eauto; exact (proj1 (owns_bound h) _ _ _ H)).
        destruct (holds_add h2 this c gs fp f ts x t1 B2 H2 O2 AB) as (fp1 & H3 & SB & G4). exists fp1. split; auto.
        eapply grew_trans; [|exact G4]. apply W. intros l Hl. apply in_app_or in Hl. destruct Hl; auto.
  Qed.
  Lemma own_loop dec tdec this c gs f y : ownsim dec tdec -> forall n h ts b fp, holds h this c (set f (VList ts) gs) fp ->
    let '(e, (h1, b1)) := iter n (hdec_elem dec (hnew E) this f y) (h, b) in
    let '(e2, (ts1, b2)) := iter n (dec_elem tdec (new_obj E) y) (ts, b) in
    e = e2 /\ b1 = b2 /\ exists fp1, holds h1 this c (set f (VList ts1) gs) fp1 /\ grew h fp h1 fp1.
  Proof.
    intros S n. induction n as [|n IH]; intros h ts b fp H; cbn [iter].
    - pose proof (grew_refl h fp). eauto 8.
    - pose proof (own_delem dec tdec this c gs f y h ts b fp S H) as K.
      destruct (hdec_elem dec (hnew E) this f y (h, b)) as [e [h1 b1]]. destruct (dec_elem tdec (new_obj E) y (ts, b)) as [e2 [ts1 b2]].
      destruct K as (<- & <- & fp1 & H1 & G1). destruct e as [e|]; [eauto 8|]. specialize (IH h1 ts1 b1 fp1 H1).
      destruct (iter n (hdec_elem dec (hnew E) this f y) (h1, b1)) as [e3 [h3 b3]]. destruct (iter n (dec_elem tdec (new_obj E) y) (ts1, b1)) as [e4 [ts4 b4]].
      destruct IH as (<- & <- & fp3 & H3 & G3). pose proof (grew_trans _ _ _ _ _ _ G1 G3). eauto 8.
  Qed.
  Lemma own_dstmt dec tdec create this c s h gs b fp : ownsim dec tdec -> holds h this c gs fp ->
    let '(e, (h1, b1)) := hexec_dstmt dec (hnew E) create this s (h, b) in
    let '(e2, (gs1, b2)) := exec_dstmt tdec (new_obj E) create s (gs, b) in
    e = e2 /\ b1 = b2 /\ exists fp1, holds h1 this c gs1 fp1 /\ grew h fp h1 fp1.
  Proof.
    intros S H. pose proof (grew_refl h fp) as GR. assert (GET := fun f => holds_get h this c gs fp f H).
    destruct s; cbn [hexec_dstmt exec_dstmt].
    - destruct (read_bytes n b) as [[e|bs] b']; eauto 8. split; auto. split; auto. apply holds_put_scalar; auto. constructor.
    - destruct (read_bytes n b) as [[e|bs] b']; eauto 8. split; auto. split; auto. apply holds_put_scalar; auto. constructor.
    - destruct (read_fixed len pad left b) as [[e|s] b']; eauto 8. split; auto. split; auto. apply holds_put_scalar; auto. constructor.
    - destruct (read_bytes n b) as [[e|bs] b']; eauto 8. cbv zeta. destruct (get_int o bs >? 0)%Z; eauto 8.
      destruct (read_chars (get_int o bs) b') as [[e|cs] b'']; eauto 8. split; auto. split; auto. apply holds_put_scalar; auto. constructor.
    - destruct (read_bytes n b) as [[e|bs] b']; eauto 8. cbv zeta. destruct (get_int o bs >? 0)%Z; eauto 8. cbn [alloc_cell].
      assert (OL : owns (h ++ [CList []]) (HRef (List.length h)) (VList []) [List.length h]).
      { apply owns_list with []; [apply nth_app_new|constructor|intros []]. }
      destruct (holds_put_new h this c gs fp f _ _ _ _ H (grew_alloc h (CList [])) OL) as (fp1 & H1 & G1).
      rewrite !repeat_z_iter. pose proof (own_loop dec tdec this c gs f y S (Z.to_nat (get_int o bs)) _ [] b' fp1 H1) as K.
      destruct (iter _ (hdec_elem dec (hnew E) this f y) _) as [e3 [h3 b3]]. destruct (iter _ (dec_elem tdec (new_obj E) y) _) as [e4 [ts4 b4]].
      destruct K as (<- & <- & fp3 & H3 & G3). pose proof (grew_trans _ _ _ _ _ _ G1 G3). eauto 8.
    - destruct (GET f) as (B & O). inversion O; subst; eauto 8.
      pose proof (own_new E h c0) as NW. destruct (hnew E h c0) as [h1 x]. destruct NW as (B & OX & G1). split; auto. split; auto.
      eapply holds_put_new; eauto.
    - pose proof (holds_call dec tdec h this c gs fp f b S H) as K.
      destruct (dec h (field h this f) b) as [[e h2] b2]. destruct (tdec (get f gs) b) as [[e' t2] b2']. destruct K as (<- & <- & K). auto.
    - destruct (GET key) as (B & O). assert (KEQ : hkey_of (field h this key) = key_of (get key gs)) by (inversion O; reflexivity). rewrite KEQ.
      destruct (key_of (get key gs)) as [kk|]; eauto 8. destruct (create kk) as [c1|]; eauto 8.
      pose proof (own_new E h c1) as NW. destruct (hnew E h c1) as [h1 x]. destruct NW as (B1 & OX & G1). split; auto. split; auto.
      eapply holds_put_new; eauto.
  Qed.
  Lemma own_dstmts dec tdec create this c : ownsim dec tdec -> forall ss h gs b fp, holds h this c gs fp ->
    let '(e, (h1, b1)) := hexec_dec dec (hnew E) create this ss (h, b) in
    let '(e2, (gs1, b2)) := exec_dec tdec (new_obj E) create ss (gs, b) in
    e = e2 /\ b1 = b2 /\ exists fp1, holds h1 this c gs1 fp1 /\ grew h fp h1 fp1.
  Proof.
    intros S ss. induction ss as [|s ss IH]; intros h gs b fp H; cbn [hexec_dec exec_dec].
    - pose proof (grew_refl h fp). eauto 8.
    - pose proof (own_dstmt dec tdec create this c s h gs b fp S H) as K.
      destruct (hexec_dstmt dec (hnew E) create this s (h, b)) as [e [h1 b1]].
      destruct (exec_dstmt tdec (new_obj E) create s (gs, b)) as [e2 [gs1 b2]]. destruct K as (<- & <- & fp1 & H1 & G1).
      destruct e as [e|]; [eauto 8|]. specialize (IH h1 gs1 b1 fp1 H1).
      destruct (hexec_dec dec (hnew E) create this ss (h1, b1)) as [e3 [h3 b3]].
      destruct (exec_dec tdec (new_obj E) create ss (gs1, b1)) as [e4 [gs4 b4]]. destruct IH as (<- & <- & fp3 & H3 & G3).
      pose proof (grew_trans _ _ _ _ _ _ G1 G3). eauto 8.
  Qed.
  Theorem own_decode d : ownsim (hdecode E d) (decode E d).
  Proof.
    induction d as [|d IH]; intros h v t b fp O; pose proof (grew_refl h fp) as GR.
    - inversion O; subst; cbn; eauto 8.
    - inversion O as [FN FT|z FN FT|z FN FT|z FN FT|l vs ts fp0 Hl O0 N0 FN FT|l c fs gs fp0 Hl En0 O0 N0 FN FT]; subst; cbn [hdecode decode]; eauto 8.
      + rewrite Hl. eauto 8.
      + rewrite Hl. destruct (find_class E c) as [cd|]; [|eauto 8].
        pose proof (own_dstmts (hdecode E d) (decode E d) (factory E c) l c IH (c_dec cd) h gs b (l :: fp0) O) as K.
        destruct (hexec_dec (hdecode E d) (hnew E) (factory E c) l (c_dec cd) (h, b)) as [e [h1 b1]].
        destruct (exec_dec (decode E d) (new_obj E) (factory E c) (c_dec cd) (gs, b)) as [e2 [gs1 b2]]. destruct K as (<- & <- & K). auto.
  Qed.
End OwnDecode.
