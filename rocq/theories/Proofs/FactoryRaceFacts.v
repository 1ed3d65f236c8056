(* decode while the factories change (Model/FactoryRace.v). *)
From Coq Require Import ZArith List Bool String Lia.
From Verif.Model Require Import JavaPrim ByteBuf Utf8 Codec Checksum Ast Interp Factory Heap EncodeThreads DecodeThreads FactoryRace.
From Verif.Spec Require Import Sharing Worlds.
From Verif.Proofs Require Import HeapFacts HeapFrame EncodeThreadFacts EncodeEnds DecodeThreadFacts SeenFacts.
Import ListNotations.
Open Scope list_scope.

Definition noask (s : dstmt) : bool := match s with DCreate _ _ => false | _ => true end.
Definition is_obj (f : string) (fts : list (string * ftype)) : option string := match assoc f fts with Some (TObj c) => Some c | _ => None end.
Fixpoint gooddec (Q : string -> bool) (fts : list (string * ftype)) (ss : list dstmt) : bool :=
  match ss with
  | [] => true
  | DCreate f _ :: r => match is_obj f fts with Some _ => false | None => true end && match r with DObj g :: r' => String.eqb f g && forallb plain_stmt r' | _ => false end
  | DNewIfNull f c :: r => match is_obj f fts with Some c' => String.eqb c c' | None => false end && gooddec Q fts r
  | DObj f :: r => match is_obj f fts with Some c => Q c | None => false end && gooddec Q fts r
  | DList f _ _ y :: r => match is_obj f fts with Some _ => false | None => true end && match y with YObj c => Q c | _ => true end && gooddec Q fts r
  | _ :: r => gooddec Q fts r
  end.

Section Facts.
  Variable C : list (string * class_def).
  Variable R : cache.
  Notation now W := (env_of C W R).
  (* decode of this class asks no factory; nor do its parts, by GOOD *)
  Definition Q (c : string) : bool := match assoc c C with Some cd => forallb noask (c_dec cd) | None => true end.
  Hypothesis GOOD : forall c cd, assoc c C = Some cd -> gooddec Q (c_fields cd) (c_dec cd) = true.

  Definition kind_at (h : heap) (m : nat) : option string := match nth_error h m with Some (CObj c _) => Some c | _ => None end.
  Definition T (h : heap) : Prop := forall p cn cd f c m, kind_at h p = Some cn -> assoc cn C = Some cd -> is_obj f (c_fields cd) = Some c -> field h p f = HRef m -> kind_at h m = Some c.
  Lemma kind_grows h h1 m c : grows h h1 -> kind_at h m = Some c -> kind_at h1 m = Some c.
  Proof. intros [_ G] K. unfold kind_at in *. destruct (nth_error h m) as [[c' fs|vs]|] eqn:N; try discriminate. injection K as ->. destruct (G m c fs N) as (gs & ->). reflexivity. Qed.
  Lemma put_cases h p f v q g : field (put_field h p f v) q g = field h q g \/ (q = p /\ g = f /\ field (put_field h p f v) q g = v).
  Proof.
    unfold field. destruct (PeanoNat.Nat.eq_dec q p) as [->|N]; [|rewrite put_off by exact N; auto]. destruct (nth_error h p) as [[c fs|vs]|] eqn:K.
    - rewrite (put_at h p f v c fs K). destruct (string_dec g f) as [->|NE]; [|left; apply hget_other; congruence].
      clear. induction fs as [|[k x] fs IH]; cbn; auto. destruct (String.eqb_spec f k) as [->|NE]; cbn; [rewrite String.eqb_refl; auto|]. destruct (String.eqb_spec f k); [congruence|exact IH].
    - unfold put_field. rewrite K. left. rewrite K. reflexivity.
    - unfold put_field. rewrite K. left. rewrite K. reflexivity.
  Qed.
  Lemma T_put h p f v : T h -> (forall m, v = HRef m -> forall cn cd c, kind_at h p = Some cn -> assoc cn C = Some cd -> is_obj f (c_fields cd) = Some c -> kind_at h m = Some c) -> T (put_field h p f v).
  Proof.
    intros TH V q cn cd g c m K A I F. unfold kind_at in *. rewrite put_kind in *. destruct (put_cases h p f v q g) as [E|(-> & -> & E)]; rewrite E in F; [eapply TH; eauto|]. eapply V; eauto.
  Qed.
  Lemma T_alloc h k : T h -> (match k with CObj _ fs => forall f, match hget f fs with HRef _ => False | _ => True end | _ => True end) -> T (h ++ [k]).
  Proof.
    intros TH D p cn cd f c m K A I F. assert (G := grows_alloc h k). unfold field in F. destruct (nth_error (h ++ [k]) p) as [[c0 fs|vs]|] eqn:N; try discriminate.
    destruct (PeanoNat.Nat.lt_ge_cases p (List.length h)) as [L|L].
    - rewrite nth_error_app1 in N by exact L. apply (kind_grows h); [exact G|]. unfold kind_at in K. rewrite nth_error_app1, N in K by exact L. eapply (TH p); eauto; [unfold kind_at; rewrite N; exact K|unfold field; rewrite N; exact F].
    - rewrite nth_error_app2 in N by exact L. destruct (p - List.length h) as [|i]; cbn in N; [|destruct i; discriminate]. injection N as ->. specialize (D f). rewrite F in D. contradiction.
  Qed.
  Lemma T_add h v x : T h -> T (list_add h v x).
  Proof.
    intros TH. unfold list_add. destruct v as [| | | |l]; auto. destruct (nth_error h l) as [[c fs|vs]|] eqn:N; auto. pose proof (nth_lt _ _ _ N) as L.
    assert (KA : forall m, kind_at (upd h l (CList (vs ++ [x]))) m = kind_at h m). { intros m. unfold kind_at. rewrite nth_upd by exact L. destruct (PeanoNat.Nat.eqb_spec m l) as [->|]; [rewrite N|]; reflexivity. }
    intros p cn cd f c m K A I F. rewrite KA in *. eapply (TH p); eauto. unfold field in *. rewrite nth_upd in F by exact L. destruct (PeanoNat.Nat.eqb_spec p l) as [->|]; [discriminate|exact F].
  Qed.
  Lemma hnew_kind W h c : let '(h1, x) := hnew (now W) h c in grows h h1 /\ (T h -> T h1) /\ match x with HRef m => kind_at h1 m = Some c | HNull => True | _ => False end.
  Proof.
    unfold hnew. destruct (find_class (now W) c) as [cd|]; cbn [alloc_cell]; [|split; [apply grows_refl|auto]]. split; [apply grows_alloc|]. split.
    - intros TH. apply T_alloc; [exact TH|]. intros f. induction (c_fields cd) as [|[g t] r IH]; cbn; auto. destruct (String.eqb f g); [destruct t; exact Logic.I|exact IH].
    - unfold kind_at. rewrite nth_error_app2, PeanoNat.Nat.sub_diag by auto. reflexivity.
  Qed.

  (* items that ask nothing *)
  Definition qitem (h : heap) (i : ditem) : Prop :=
    match i with
    | DBody p c ss => kind_at h p = Some c /\ exists cd, assoc c C = Some cd /\ gooddec Q (c_fields cd) ss = true /\ forallb noask ss = true
    | DLoop _ _ (YObj c) _ => Q c = true
    | _ => True
    end.
  Definition done_item (i : ditem) : Prop := match i with DBody _ _ ss => forallb plain_stmt ss = true | _ => False end.
  Lemma qitem_grows h h1 i : grows h h1 -> qitem h i -> qitem h1 i.
  Proof. intros G. destruct i as [p c ss|p f y n|p f x]; cbn; auto. intros [K X]. split; [eapply kind_grows; eauto|exact X]. Qed.
  Lemma qitems_grows h h1 k : grows h h1 -> Forall (qitem h) k -> Forall (qitem h1) k.
  Proof. intros G. apply Forall_impl. intros i. apply qitem_grows. exact G. Qed.

  Lemma enter_quiet W h v c k d b : Q c = true -> match v with HRef m => kind_at h m = Some c | _ => True end -> dended (denter (now W) h v k d b) <> None \/ exists q, dstack (denter (now W) h v k d b) = q ++ k /\ Forall (qitem h) q.
  Proof.
    intros QC K. unfold denter. destruct v as [|z|z|s|m]; try (destruct d; left; discriminate). destruct d as [|d]; [left; discriminate|]. unfold kind_at in K. destruct (nth_error h m) as [[c' fs|vs]|] eqn:N; try discriminate. injection K as ->.
    unfold find_class. cbn [classes env_of]. destruct (assoc c C) as [cd|] eqn:A; [|left; discriminate]. right. exists [DBody m c (c_dec cd)]. split; [reflexivity|]. constructor; [|constructor]. cbn. split; [unfold kind_at; rewrite N; reflexivity|].
    exists cd. split; [exact A|]. split; [eapply GOOD; eauto|]. unfold Q in QC. rewrite A in QC. exact QC.
  Qed.
  Lemma goes_quiet h q k d e b : Forall (qitem h) q -> dended (dgoes_on (q ++ k) d e b) <> None \/ exists q', dstack (dgoes_on (q ++ k) d e b) = q' ++ k /\ Forall (qitem h) q'.
  Proof. intros F. destruct e; [left; discriminate|right; exists q; auto]. Qed.

  Definition onwards (h1 : heap) (t1 : decoder) (k : list ditem) : Prop := T h1 /\ (dended t1 <> None \/ exists q, dstack t1 = q ++ k /\ Forall (qitem h1) q).
  Lemma plain_step W h t p c s r k h1 t1 : T h -> dended t = None -> dstack t = DBody p c (s :: r) :: k -> plain_stmt s = true -> decoder_step (now W) h t = (h1, t1) -> T h1 /\ (dended t1 <> None \/ dstack t1 = DBody p c r :: k).
  Proof.
    intros TH EN ST PS X. unfold decoder_step in X. rewrite EN, ST in X.
    assert (PL : (let '(e, (h', b')) := hexec_dstmt no_call (hnew (now W)) (factory (now W) c) p s (h, src t) in (h', dgoes_on (DBody p c r :: k) (droom t) e b')) = (h1, t1) -> T h1 /\ (dended t1 <> None \/ dstack t1 = DBody p c r :: k)).
    { intros Y. destruct (hexec_dstmt no_call (hnew (now W)) (factory (now W) c) p s (h, src t)) as [e [H2 b2]] eqn:HX. apply pair_equal_spec in Y. destruct Y as [<- <-]. split; [|destruct e; [left; discriminate|right; reflexivity]].
      destruct s; try discriminate PS; cbn [hexec_dstmt] in HX; repeat match type of HX with context [match ?y with _ => _ end] => destruct y end; injection HX as <- <- <-; first [exact TH|apply T_put; [exact TH|discriminate]]. }
    destruct s; try discriminate PS; exact (PL X).
  Qed.
  Lemma body_step W h t p c cd s r k h1 t1 : T h -> dended t = None -> dstack t = DBody p c (s :: r) :: k -> kind_at h p = Some c -> assoc c C = Some cd -> gooddec Q (c_fields cd) (s :: r) = true -> noask s = true ->
    decoder_step (now W) h t = (h1, t1) -> onwards h1 t1 (DBody p c r :: k) /\ gooddec Q (c_fields cd) r = true.
  Proof.
    intros TH EN ST K A G NA X. pose proof (grows_step (now W) h t h1 t1 X) as GR.
    destruct (plain_stmt s) eqn:PS.
    { destruct (plain_step W h t p c s r k h1 t1 TH EN ST PS X) as [T1 D]. split; [|destruct s; try discriminate PS; exact G]. split; [exact T1|]. destruct D as [D|D]; [left; exact D|right]. exists []. split; [exact D|constructor]. }
    destruct s as [n o f|n o f|f len pad lft|f n o|f n o y|f c1|f|f key]; try discriminate PS; try discriminate NA; unfold decoder_step in X; rewrite EN, ST in X; cbn [gooddec] in G.
    - rewrite !andb_true_iff in G. destruct G as [[G1 G2] G3]. split; [|exact G3]. destruct (read_bytes n (src t)) as [[x|bs] b2]; [apply pair_equal_spec in X; destruct X as [<- <-]; split; [exact TH|left; discriminate]|].
      destruct (get_int o bs >? 0)%Z; cbn [alloc_cell] in X; apply pair_equal_spec in X; destruct X as [<- <-].
      + split; [|right; exists [DLoop p f y (Z.to_nat (get_int o bs))]; split; [reflexivity|]; constructor; [|constructor]; destruct y; try exact Logic.I; exact G2].
        apply T_put; [apply T_alloc; [exact TH|exact Logic.I]|]. intros m V cn cd' c' K' A' I'. exfalso. rewrite (kind_grows h _ p c (grows_alloc h _) K) in K'. injection K' as <-. rewrite A in A'. injection A' as <-. rewrite I' in G1. discriminate.
      + split; [exact TH|right; exists []; split; [reflexivity|constructor]].
    - apply andb_true_iff in G. destruct G as [G1 G3]. split; [|exact G3]. destruct (is_obj f (c_fields cd)) as [c2|] eqn:IO; [|discriminate]. apply String.eqb_eq in G1. subst c2. cbn [hexec_dstmt] in X. pose proof (hnew_kind W h c1) as HN. destruct (field h p f) eqn:F.
      + destruct (hnew (now W) h c1) as [h2 x]. destruct HN as (G2 & T2 & K2). apply pair_equal_spec in X. destruct X as [<- <-]. split; [|right; exists []; split; [reflexivity|constructor]].
        apply T_put; [apply T2; exact TH|]. intros m -> cn cd' c' K' A' I'. rewrite (kind_grows h h2 p c G2 K) in K'. injection K' as <-. rewrite A in A'. injection A' as <-. rewrite IO in I'. injection I' as <-. exact K2.
      + apply pair_equal_spec in X. destruct X as [<- <-]. split; [exact TH|right; exists []; split; [reflexivity|constructor]].
      + apply pair_equal_spec in X. destruct X as [<- <-]. split; [exact TH|right; exists []; split; [reflexivity|constructor]].
      + apply pair_equal_spec in X. destruct X as [<- <-]. split; [exact TH|right; exists []; split; [reflexivity|constructor]].
      + apply pair_equal_spec in X. destruct X as [<- <-]. split; [exact TH|right; exists []; split; [reflexivity|constructor]].
    - apply andb_true_iff in G. destruct G as [G1 G3]. split; [|exact G3]. destruct (is_obj f (c_fields cd)) as [c2|] eqn:IO; [|discriminate]. apply pair_equal_spec in X. destruct X as [<- <-]. split; [exact TH|].
      apply (enter_quiet W h (field h p f) c2); [exact G1|]. destruct (field h p f) eqn:F; auto. eapply TH; eauto.
  Qed.

  (* ---- no factory is asked twice ---- *)
  Variable rank : string -> nat.
  Definition below (A : list string) (c : string) : Prop := forall o, In o A -> rank c < rank o.
  Definition chain (h : heap) (A : list string) (s : list ditem) : Prop :=
    Forall done_item s \/ exists p c ss s' cd, s = DBody p c ss :: s' /\ kind_at h p = Some c /\ assoc c C = Some cd /\ gooddec Q (c_fields cd) ss = true /\ Forall done_item s' /\ below A c.
  Definition fresh (h : heap) (A : list string) (s : list ditem) : Prop :=
    exists p c f r s', s = DBody p c (DObj f :: r) :: s' /\ forallb plain_stmt r = true /\ Forall done_item s' /\ match field h p f with HRef m => exists c', kind_at h m = Some c' /\ below A c' | _ => True end.
  Definition inv (h : heap) (t : decoder) (A : list string) : Prop :=
    dended t <> None \/ (T h /\ ((exists k s, dstack t = k ++ s /\ Forall (qitem h) k /\ chain h A s) \/ fresh h A (dstack t))).
  Definition asks (t : decoder) : option string := match dended t, dstack t with None, DBody _ c (DCreate _ _ :: _) :: _ => Some c | _, _ => None end.

  Lemma chain_grows h h1 A s : grows h h1 -> chain h A s -> chain h1 A s.
  Proof. intros G [D|(p & c & ss & s' & cd & E & K & X)]; [left; exact D|right]. exists p, c, ss, s', cd. split; [exact E|]. split; [eapply kind_grows; eauto|exact X]. Qed.
  Lemma onwards_inv h1 t1 k s A : onwards h1 t1 (k ++ s) -> Forall (qitem h1) k -> chain h1 A s -> inv h1 t1 A.
  Proof.
    intros [T1 [D|(q & E & F)]] FK CH; [left; exact D|right]. split; [exact T1|]. left. exists (q ++ k), s. split; [rewrite <- app_assoc; exact E|]. split; [apply Forall_app; auto|exact CH].
  Qed.
  Lemma inv_step W h t A h1 t1 : layered rank W -> inv h t A -> decoder_step (now W) h t = (h1, t1) ->
    match asks t with Some c => ~ In c A /\ inv h1 t1 (c :: A) | None => inv h1 t1 A end.
  Proof.
    intros LA I X. pose proof (grows_step (now W) h t h1 t1 X) as GR. unfold asks. destruct (dended t) as [e|] eqn:EN.
    { unfold decoder_step in X. rewrite EN in X. injection X as <- <-. left. rewrite EN. discriminate. }
    destruct I as [I|[TH I]]; [congruence|]. destruct I as [(k & s & ST & FK & CH)|(p & c & f & r & s' & ST & PR & DS & FV)].
    - destruct k as [|i k]; cbn [app] in ST.
      + destruct CH as [DS|(p & c & ss & s' & cd & -> & K & AS & G & DS & BE)].
        * (* only reads are left *)
          destruct s as [|[p c ss|p f y n|p f x] s']; [|inversion DS as [|? ? D1 D2]; subst|inversion DS as [|? ? BAD BAD2]; exfalso; exact BAD|inversion DS as [|? ? BAD BAD2]; exfalso; exact BAD].
          { rewrite ST. unfold decoder_step in X. rewrite EN, ST in X. injection X as <- <-. left. discriminate. }
          rewrite ST. destruct ss as [|s r].
          { unfold decoder_step in X. rewrite EN, ST in X. injection X as <- <-. right. split; [exact TH|]. left. exists [], s'. split; [reflexivity|]. split; [constructor|left; exact D2]. }
          cbn [done_item forallb] in D1. apply andb_true_iff in D1. destruct D1 as [P1 P2]. destruct (plain_step W h t p c s r s' h1 t1 TH EN ST P1 X) as [T1 D].
          assert (IN : inv h1 t1 A). { destruct D as [D|D]; [left; exact D|right]. split; [exact T1|]. left. exists [], (DBody p c r :: s'). split; [exact D|]. split; [constructor|]. left. constructor; [exact P2|exact D2]. }
          destruct s; try discriminate P1; exact IN.
        * rewrite ST. destruct ss as [|s r].
          { unfold decoder_step in X. rewrite EN, ST in X. injection X as <- <-. right. split; [exact TH|]. left. exists [], s'. split; [reflexivity|]. split; [constructor|left; exact DS]. }
          destruct (noask s) eqn:NA.
          { destruct (body_step W h t p c cd s r s' h1 t1 TH EN ST K AS G NA X) as [ON G']. assert (IN : inv h1 t1 A).
            { apply (onwards_inv h1 t1 [] (DBody p c r :: s') A ON); [constructor|]. right. exists p, c, r, s', cd. split; [reflexivity|]. split; [eapply kind_grows; eauto|]. auto. }
            destruct s; try discriminate NA; exact IN. }
          (* the question *)
          destruct s as [n o f|n o f|f len pad lft|f n o|f n o y|f c1|f|f key]; try discriminate NA. split; [intros IA; specialize (BE c IA); lia|].
          cbn [gooddec] in G. apply andb_true_iff in G. destruct G as [G1 G2]. destruct r as [|[| | | | | |g|] r]; try discriminate. apply andb_true_iff in G2. destruct G2 as [G2 G3]. apply String.eqb_eq in G2. subst g.
          unfold decoder_step in X. rewrite EN, ST in X. cbn [hexec_dstmt] in X. destruct (hkey_of (field h p key)) as [kk|]; [|apply pair_equal_spec in X; destruct X as [<- <-]; left; discriminate].
          destruct (factory (now W) c kk) as [c2|] eqn:FA; [|apply pair_equal_spec in X; destruct X as [<- <-]; left; discriminate]. pose proof (LA c kk c2 FA) as RK.
          pose proof (hnew_kind W h c2) as HN. destruct (hnew (now W) h c2) as [h2 x]. destruct HN as (GG & T2 & K2). apply pair_equal_spec in X. destruct X as [<- <-]. right.
          assert (KP := kind_grows h h2 p c GG K). split.
          { apply T_put; [auto|]. intros m -> cn cd' c' K' A' I'. rewrite KP in K'. injection K' as <-. rewrite AS in A'. injection A' as <-. rewrite I' in G1. discriminate. }
          right. exists p, c, f, r, s'. split; [reflexivity|]. split; [exact G3|]. split; [exact DS|].
          assert (FX : field (put_field h2 p f x) p f = x \/ field (put_field h2 p f x) p f = HNull).
          { unfold kind_at in KP. destruct (nth_error h2 p) as [[c0 fs|]|] eqn:N; try discriminate. unfold field. rewrite (put_at h2 p f x c0 fs N). clear. induction fs as [|[k y] fs IH]; cbn; auto. destruct (String.eqb_spec f k) as [->|NE]; cbn; [rewrite String.eqb_refl; auto|]. destruct (String.eqb_spec f k); [congruence|exact IH]. }
          destruct FX as [->| ->]; [|exact Logic.I]. destruct x; try exact Logic.I. exists c2. split; [unfold kind_at; rewrite put_kind; exact K2|]. intros o [<-|IO]; [exact RK|]. specialize (BE o IO). lia.
      + inversion FK as [|? ? Q1 Q2]; subst. assert (FK1 := qitems_grows h h1 k GR Q2). assert (CH1 := chain_grows h h1 A s GR CH). rewrite ST.
        destruct i as [p c [|st r]|p f y [|n]|p f x].
        * unfold decoder_step in X. rewrite EN, ST in X. injection X as <- <-. apply (onwards_inv h _ k s A); auto. split; [exact TH|right; exists []; split; [reflexivity|constructor]].
        * destruct Q1 as (K & cd & AS & G & NA). cbn [forallb] in NA. apply andb_true_iff in NA. destruct NA as [N1 N2]. destruct (body_step W h t p c cd st r (k ++ s) h1 t1 TH EN ST K AS G N1 X) as [ON G'].
          assert (IN : inv h1 t1 A). { apply (onwards_inv h1 t1 (DBody p c r :: k) s A ON); [|exact CH1]. constructor; [|exact FK1]. cbn. split; [eapply kind_grows; eauto|]. exists cd. auto. }
          destruct st; try discriminate N1; exact IN.
        * unfold decoder_step in X. rewrite EN, ST in X. injection X as <- <-. apply (onwards_inv h _ k s A); auto. split; [exact TH|right; exists []; split; [reflexivity|constructor]].
        * unfold decoder_step in X. rewrite EN, ST in X.
          assert (EL : (let '(e, (h', b')) := hdec_elem no_call (hnew (now W)) p f y (h, src t) in (h', dgoes_on (DLoop p f y n :: k ++ s) (droom t) e b')) = (h1, t1) -> (forall k, y <> YObj k) -> inv h1 t1 A).
          { intros Y N. destruct (hdec_elem no_call (hnew (now W)) p f y (h, src t)) as [e [H2 b2]] eqn:HX. apply pair_equal_spec in Y. destruct Y as [<- <-].
            apply (onwards_inv H2 _ (DLoop p f y n :: k) s A); [|constructor; [destruct y; try exact Logic.I; destruct (N c); reflexivity|exact FK1]|exact CH1]. split; [|destruct e; [left; discriminate|right; exists []; split; [reflexivity|constructor]]].
            destruct y as [m o|m o|len pad lft|m o|c1]; cbn [hdec_elem] in HX; try (destruct (N c1); reflexivity).
            all: repeat match type of HX with context [match ?y with _ => _ end] => destruct y end; injection HX as <- <- <-; first [exact TH|apply T_add; exact TH]. }
          destruct y as [m o|m o|len pad lft|m o|c1]; try (apply EL; [exact X|discriminate]). pose proof (hnew_kind W h c1) as HN. destruct (hnew (now W) h c1) as [h2 x]. destruct HN as (GG & T2 & K2). apply pair_equal_spec in X. destruct X as [<- <-].
          apply (onwards_inv h2 _ (DAdd p f x :: DLoop p f (YObj c1) n :: k) s A); [|constructor; [exact Logic.I|constructor; [exact Q1|exact FK1]]|exact CH1]. split; [auto|].
          apply (enter_quiet W h2 x c1); [exact Q1|]. destruct x; auto.
        * unfold decoder_step in X. rewrite EN, ST in X. injection X as <- <-. apply (onwards_inv _ _ k s A); auto. split; [apply T_add; exact TH|right; exists []; split; [reflexivity|constructor]].
    - rewrite ST. unfold decoder_step in X. rewrite EN, ST in X. apply pair_equal_spec in X. destruct X as [<- <-]. unfold denter.
      destruct (field h p f) as [|z|z|u|m]; try (destruct (droom t); left; discriminate). destruct (droom t) as [|d]; [left; discriminate|]. destruct FV as (c' & K & BE). unfold kind_at in K. destruct (nth_error h m) as [[c0 fs|vs]|] eqn:N; try discriminate. injection K as ->.
      unfold find_class. cbn [classes env_of]. destruct (assoc c' C) as [cd|] eqn:AS; [|left; discriminate]. right. split; [exact TH|]. left. exists [], (DBody m c' (c_dec cd) :: DBody p c r :: s'). split; [reflexivity|]. split; [constructor|]. right.
      exists m, c', (c_dec cd), (DBody p c r :: s'), cd. split; [reflexivity|]. split; [unfold kind_at; rewrite N; reflexivity|]. split; [exact AS|]. split; [eapply GOOD; eauto|]. split; [constructor; [exact PR|exact DS]|exact BE].
  Qed.

  (* ---- a run ---- *)
  Fixpoint asked (sched : list fturn) (W : factories) (h : heap) (t : decoder) : list (string * factories) :=
    match sched with
    | [] => []
    | FMine :: r => (match asks t with Some c => [(c, W)] | None => [] end) ++ asked r W (fst (decoder_step (now W) h t)) (snd (decoder_step (now W) h t))
    | x :: r => asked r (changed x W) h t
    end.
  Lemma asked_once : forall sched W h t A, inv h t A -> (forall V, In V (worlds sched W) -> layered rank V) -> NoDup (map fst (asked sched W h t)) /\ forall o, In o (map fst (asked sched W h t)) -> ~ In o A.
  Proof.
    induction sched as [|[|o k c|o k] sched IH]; intros W h t A I L; cbn [asked worlds] in *; [split; [constructor|intros o []]| |apply IH; auto|apply IH; auto].
    pose proof (inv_step W h t A) as S. destruct (decoder_step (now W) h t) as [h1 t1]. specialize (S h1 t1 (L W (or_introl eq_refl)) I eq_refl). cbn [fst snd]. destruct (asks t) as [c|]; cbn [app].
    - destruct S as [NI I1]. destruct (IH W h1 t1 (c :: A) I1 (fun V H => L V (or_intror H))) as [ND NA]. cbn [map fst]. split.
      + constructor; [|exact ND]. intros X. apply (NA c X). left. reflexivity.
      + intros o [<-|X]; [exact NI|]. intros Y. apply (NA o X). right. exact Y.
    - apply (IH W h1 t1 A S (fun V H => L V (or_intror H))).
  Qed.
  Lemma asked_worlds : forall sched W h t o V, In (o, V) (asked sched W h t) -> In V (worlds sched W).
  Proof.
    induction sched as [|[|o1 k c|o1 k] sched IH]; intros W h t o V I; cbn [asked worlds] in *; [destruct I| |eauto|eauto]. apply in_app_or in I. destruct I as [I|I]; [destruct (asks t); [destruct I as [I|[]]; injection I as _ <-; left; reflexivity|destruct I]|right; eauto].
  Qed.
  Lemma step_same W W' h t : (forall c, asks t = Some c -> same_factory W' W c) -> decoder_step (now W) h t = decoder_step (now W') h t.
  Proof.
    unfold asks, decoder_step. intros A. destruct (dended t); [reflexivity|]. destruct (dstack t) as [|[p c [|s r]|p f y [|n]|p f x] k]; try reflexivity. destruct s as [n o f|n o f|f len pad lft|f n o|f n o y|f c1|f|f key]; try reflexivity.
    cbn [hexec_dstmt]. destruct (hkey_of (field h p key)) as [kk|]; [|reflexivity]. cbn [factory env_of]. rewrite (A c eq_refl kk). reflexivity.
  Qed.
  Definition turns (sched : list fturn) : nat := List.length (filter (fun x => match x with FMine => true | _ => false end) sched).
  Lemma follow W' : forall sched W h t W1 h1 t1, (forall o V, In (o, V) (asked sched W h t) -> same_factory W' V o) -> decode_run C R sched W h t = (W1, h1, t1) -> dsteps (now W') (turns sched) (h, t) = (h1, t1).
  Proof.
    induction sched as [|[|o k c|o k] sched IH]; intros W h t W1 h1 t1 A D; cbn [asked decode_run] in *; [injection D as _ <- <-; reflexivity| |eapply IH; eauto|eapply IH; eauto].
    cbn [turns filter List.length dsteps fst snd]. rewrite <- (step_same W W' h t); [|intros c AC; apply A; rewrite AC; left; reflexivity]. destruct (decoder_step (now W) h t) as [h2 t2]. cbn [fst snd] in A. apply (IH W h2 t2 W1); [|exact D]. intros o V I. apply A. apply in_or_app. right. exact I.
  Qed.
  (* a world with the given factories *)
  Fixpoint patch (As : list (string * factories)) (W : factories) : factories :=
    match As with [] => W | (o, V) :: r => (o, match assoc o V with Some m => m | None => [] end) :: patch r W end.
  Lemma patch_in W : forall As o V, NoDup (map fst As) -> In (o, V) As -> same_factory (patch As W) V o.
  Proof.
    induction As as [|[o1 V1] As IH]; intros o V ND I k; [destruct I|]. cbn [map fst] in ND. inversion ND as [|? ? N1 N2]; subst. cbn [patch]. unfold lookup_factory. cbn [assoc]. destruct I as [I|I].
    - injection I as -> ->. rewrite String.eqb_refl. destruct (assoc o V); reflexivity.
    - destruct (String.eqb_spec o o1) as [->|]; [destruct N1; apply (in_map fst _ _ I)|]. apply (IH o V N2 I k).
  Qed.
  Lemma patch_patched W Vs : forall As, In W Vs -> (forall o V, In (o, V) As -> In V Vs) -> patched Vs (patch As W).
  Proof.
    induction As as [|[o1 V1] As IH]; intros IW IA o; cbn [patch]; [exists W; split; [exact IW|intros k; reflexivity]|]. destruct (String.eqb_spec o o1) as [->|NE].
    - exists V1. split; [apply (IA o1 V1); left; reflexivity|]. intros k. unfold lookup_factory. cbn [assoc]. rewrite String.eqb_refl. destruct (assoc o1 V1); reflexivity.
    - destruct (IH IW (fun o V I => IA o V (or_intror I)) o) as (V & I & S). exists V. split; [exact I|]. intros k. rewrite <- (S k). unfold lookup_factory. cbn [assoc]. destruct (String.eqb_spec o o1); [congruence|reflexivity].
  Qed.
  Lemma dsteps_ended W : forall n h t, dended t <> None -> dsteps (now W) n (h, t) = (h, t).
  Proof. induction n as [|n IH]; intros h t E; [reflexivity|]. cbn [dsteps fst snd]. unfold decoder_step at 1. destruct (dended t) eqn:D; [|congruence]. apply IH. rewrite D. discriminate. Qed.
  Lemma alone_result W n d h v b h' t' e : dsteps (now W) n (h, denter (now W) h v [] d b) = (h', t') -> dended t' = Some e -> hdecode (now W) d h v b = (e, h', src t').
  Proof.
    intros S E. destruct (decoder_alone (now W) d h v b) as (m & t & e1 & S1 & D1 & E1 & B1).
    assert (X : (h', t') = (snd (fst (hdecode (now W) d h v b)), t)).
    { destruct (PeanoNat.Nat.le_ge_cases n m) as [L|L].
      - replace m with (n + (m - n)) in S1 by lia. rewrite dsteps_add, S, dsteps_ended in S1 by congruence. exact S1.
      - replace n with (m + (n - m)) in S by lia. rewrite dsteps_add, S1, dsteps_ended in S by congruence. congruence. }
    apply pair_equal_spec in X. destruct X as [-> ->]. rewrite E in D1. injection D1 as <-. rewrite B1. destruct (hdecode (now W) d h v b) as [[e2 h2] b2]. cbn in *. congruence.
  Qed.
End Facts.
