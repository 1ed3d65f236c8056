(* C101: messages as keys of hash maps. *)
From Coq Require Import ZArith List Bool String Lia.
From Verif.Model Require Import JavaPrim ByteBuf Utf8 Codec Checksum Ast Interp Factory Library Show Heap HashKeys.
From Verif.Spec Require Import Bytes Buffers Wire Reading Layouts Equality Sharing Keys.
From Verif.Proofs Require Import ValInd Conform TableFacts Messages EqualFacts HashFacts HeapFacts HeapReach HeapCheck.
From Verif.Props Require Import Samples MessageProps EqualProps HeapProps HeapMoreProps.
Import ListNotations.
Open Scope Z_scope.
Open Scope list_scope.
Notation Y := lib_layouts.

Definition code (x : val) : Z := match x with VObj c _ => digest Y x (WObj c) | _ => 0 end.
Section Env.
Variable E : env.
Hypothesis HE : classes E = lib_classes.

Lemma hash_content d h k x : message_at Y d h k x -> hhash E d h k = Some (code x).
Proof.
  intros (OK & N & t & c & F & S & NE & V & ->). rewrite (proj1 (C61_hash_and_text_unfold E (Build_printers (fun _ => []) (fun _ => [])) d h k t c HE OK F S)).
  pose proof (fits_object E h k t c HE OK F N S) as O. rewrite (C41_hash_value E d c t HE O), V. cbn [orb]. replace (Nat.ltb d (nesting t)) with false by (symmetry; apply PeanoNat.Nat.ltb_ge; exact NE). f_equal.
  destruct (shape_codec E c t HE O) as (fs & L & -> & _). destruct (one_nan_obj Y c fs (WObj c)) as (fs' & Q). unfold code. rewrite Q. rewrite <- Q. symmetry. apply digest_nan.
Qed.
Lemma equal_content d h a b x y : message_at Y d h a x -> message_at Y d h b y -> exists r, hequals E d h a b = Some r /\ (r = true <-> x = y).
Proof.
  intros (OK & Na & t & c & Fa & Sa & NE & Va & ->) (_ & Nb & u & c' & Fb & Sb & _ & Vb & ->). exact (C61_equals_unfolds E d h a b t u c c' HE OK Fa Fb Sa Sb Na Nb NE).
Qed.

Section Contents.
  Context {A : Type}.
  Variable content : hval -> val.
  Notation same x y := (if val_eq_dec x y then true else false).
  Definition filed (ks : list hval) (m : list (entry A)) : Prop := forall e, In e m -> e_hash e = code (content (e_key e)) /\ In (e_key e) ks.
  Lemma hit_content d h k (e : entry A) : message_at Y d h k (content k) -> message_at Y d h (e_key e) (content (e_key e)) -> e_hash e = code (content (e_key e)) ->
    hit E d h (code (content k)) k e = Some (same (content k) (content (e_key e))).
  Proof.
    intros Mk Me He. unfold hit. destruct (Z.eqb_spec (e_hash e) (code (content k))) as [Q|Q].
    - destruct (same_ref k (e_key e)) eqn:R.
      + destruct k, (e_key e); try discriminate R. apply PeanoNat.Nat.eqb_eq in R. subst. destruct (val_eq_dec _ _); [reflexivity|congruence].
      + destruct (equal_content d h k (e_key e) _ _ Mk Me) as (r & -> & W). destruct (val_eq_dec (content k) (content (e_key e))) as [J|J]; [rewrite (proj2 W J); reflexivity|]. destruct r; [exfalso; apply J, W; reflexivity|reflexivity].
    - destruct (val_eq_dec (content k) (content (e_key e))) as [J|J]; [exfalso; apply Q; rewrite He, J; reflexivity|reflexivity].
  Qed.
  Fixpoint look (m : list (entry A)) (x : val) : option A := match m with [] => None | e :: r => if val_eq_dec x (content (e_key e)) then Some (e_val e) else look r x end.
  Definition once (m : list (entry A)) : Prop := NoDup (map (fun e => content (e_key e)) m).
  Lemma look_none m x : ~ In x (map (fun e => content (e_key e)) m) -> look m x = None.
  Proof. induction m as [|e m IH]; intros N; [reflexivity|]. cbn [look map] in *. destruct (val_eq_dec x (content (e_key e))) as [->|]; [exfalso; apply N; left; reflexivity|]. apply IH. intros I. apply N. right. exact I. Qed.

  Section Call.
    Variable d : nat.
    Variable h : heap.
    Variable k : hval.
    Hypothesis Mk : message_at Y d h k (content k).
    Notation ok m := (forall e, In e m -> e_hash e = code (content (e_key e)) /\ message_at Y d h (e_key e) (content (e_key e))).
    Lemma get_look : forall m : list (entry A), ok m -> get_node E d h (code (content k)) k m = Some (look m (content k)).
    Proof.
      induction m as [|e m IH]; intros K; [reflexivity|]. cbn [get_node look]. destruct (K e (or_introl eq_refl)) as [H1 H2]. rewrite (hit_content d h k e Mk H2 H1). destruct (val_eq_dec (content k) (content (e_key e))); [reflexivity|].
      apply IH. intros e' I. apply K. right. exact I.
    Qed.
    Lemma put_look a : forall m : list (entry A), ok m -> once m -> exists m', put_val E d h (code (content k)) k a m = Some (look m (content k), m')
      /\ (forall x, look m' x = if val_eq_dec x (content k) then Some a else look m x)
      /\ (forall e, In e m' -> e_hash e = code (content (e_key e)) /\ (e_key e = k \/ exists e', In e' m /\ e_key e = e_key e'))
      /\ once m' /\ (forall x, In x (map (fun e => content (e_key e)) m') -> x = content k \/ In x (map (fun e => content (e_key e)) m)).
    Proof.
      induction m as [|e m IH]; intros K O.
      - eexists. split; [reflexivity|]. split; [intros x; cbn; destruct (val_eq_dec x (content k)); reflexivity|]. split; [intros e [<-|[]]; cbn; auto|]. split; [repeat constructor; intros []|]. intros x [<-|[]]. auto.
      - destruct (K e (or_introl eq_refl)) as [H1 H2]. inversion O as [|? ? O1 O2]; subst. cbn [put_val look]. rewrite (hit_content d h k e Mk H2 H1). destruct (val_eq_dec (content k) (content (e_key e))) as [J|J].
        + eexists. split; [reflexivity|]. split; [intros x; cbn; rewrite J; destruct (val_eq_dec x (content (e_key e))); reflexivity|]. split; [|split; [exact O|intros x I; right; exact I]].
          intros e' [<-|I]; cbn; [split; [exact H1|right; exists e; split; [left|]; reflexivity]|]. split; [apply K; right; exact I|]. right. exists e'. split; [right; exact I|reflexivity].
        + destruct (IH (fun e' I => K e' (or_intror I)) O2) as (m' & -> & L & F & O' & X). exists (e :: m'). split; [reflexivity|]. split.
          { intros x. cbn [look]. rewrite L. destruct (val_eq_dec x (content (e_key e))) as [->|]; [|reflexivity]. destruct (val_eq_dec (content (e_key e)) (content k)); [congruence|reflexivity]. }
          split; [|split].
          * intros e' [<-|I]; [split; [exact H1|right; exists e; split; [left|]; reflexivity]|]. destruct (F e' I) as [F1 [F2|(e2 & F2 & F3)]]; split; auto. right. exists e2. split; [right|]; auto.
          * constructor; [|exact O']. intros I. destruct (X _ I) as [Q|Q]; [congruence|contradiction].
          * intros x [<-|I]; [right; left; reflexivity|]. destruct (X x I); [auto|right; right; assumption].
    Qed.
    Lemma remove_look : forall m : list (entry A), ok m -> once m -> exists m', remove_node E d h (code (content k)) k m = Some (look m (content k), m')
      /\ (forall x, look m' x = if val_eq_dec x (content k) then None else look m x) /\ (forall e, In e m' -> In e m) /\ once m'.
    Proof.
      induction m as [|e m IH]; intros K O.
      - exists []. split; [reflexivity|]. split; [intros x; cbn; destruct (val_eq_dec x (content k)); reflexivity|]. auto.
      - destruct (K e (or_introl eq_refl)) as [H1 H2]. inversion O as [|? ? O1 O2]; subst. cbn [remove_node look]. rewrite (hit_content d h k e Mk H2 H1). destruct (val_eq_dec (content k) (content (e_key e))) as [J|J].
        + exists m. split; [reflexivity|]. split; [|split; [intros e' I; right; exact I|exact O2]]. intros x. rewrite J. destruct (val_eq_dec x (content (e_key e))) as [->|]; [apply look_none; exact O1|reflexivity].
        + destruct (IH (fun e' I => K e' (or_intror I)) O2) as (m' & -> & L & F & O'). exists (e :: m'). split; [reflexivity|]. split.
          { intros x. cbn [look]. rewrite L. destruct (val_eq_dec x (content (e_key e))) as [->|]; [|reflexivity]. destruct (val_eq_dec (content (e_key e)) (content k)); [congruence|reflexivity]. }
          split; [intros e' [<-|I]; [left; reflexivity|right; apply F; exact I]|]. constructor; [|exact O']. intros I. apply O1. apply in_map_iff in I. destruct I as (e' & Q & I). apply in_map_iff. exists e'. split; [exact Q|apply F; exact I].
    Qed.
  End Call.

  Lemma calls_answer d : forall (cs : list (heap * call A)) ks m past, unchanging content Y d ks cs -> filed ks m -> once m -> (forall x, Keys.answer content past x (look m x)) ->
    exists rs m', do_calls E d cs m = Some (rs, m') /\ List.length rs = List.length cs
      /\ forall i h o r, nth_error cs i = Some (h, o) -> nth_error rs i = Some r -> Keys.answer content (rev (map snd (firstn i cs)) ++ past) (content (key_of_call o)) r.
  Proof.
    induction cs as [|[h o] cs IH]; intros ks m past ST FI ON AN; [exists [], m; split; [reflexivity|]; split; [reflexivity|]; intros i h o r H; destruct i; discriminate H|].
    destruct ST as [FA ST]. inversion FA as [|? ? Mk FK]; subst. rewrite Forall_forall in FK.
    assert (K : forall e, In e m -> e_hash e = code (content (e_key e)) /\ message_at Y d h (e_key e) (content (e_key e))) by (intros e I; destruct (FI e I); auto).
    assert (STEP : exists m', do_call E d h o m = Some (look m (content (key_of_call o)), m') /\ filed (key_of_call o :: ks) m' /\ once m' /\ forall x, Keys.answer content (o :: past) x (look m' x)).
    { unfold do_call. rewrite (hash_content d h _ _ Mk). destruct o as [k a|k|k]; cbn [key_of_call] in *.
      - destruct (put_look d h k Mk a m K ON) as (m' & -> & L & F & O' & _). exists m'. split; [reflexivity|]. split.
        { intros e I. destruct (F e I) as [F1 [F2|(e2 & F2 & F3)]]; split; auto; [left; auto|right; rewrite F3; apply (FI e2 F2)]. }
        split; [exact O'|]. intros x. rewrite L. destruct (val_eq_dec x (content k)) as [->|J]; [apply was_put|apply another; [cbn; congruence|apply AN]].
      - rewrite (get_look d h k Mk m K). exists m. split; [reflexivity|]. split; [intros e I; split; [apply (FI e I)|right; apply (FI e I)]|]. split; [exact ON|]. intros x. apply only_asked, AN.
      - destruct (remove_look d h k Mk m K ON) as (m' & -> & L & F & O'). exists m'. split; [reflexivity|]. split; [intros e I; split; [apply (FI e (F e I))|right; apply (FI e (F e I))]|].
        split; [exact O'|]. intros x. rewrite L. destruct (val_eq_dec x (content k)) as [->|J]; [apply was_removed|apply another; [cbn; congruence|apply AN]]. }
    destruct STEP as (m' & D & FI' & ON' & AN'). destruct (IH _ m' (o :: past) ST FI' ON' AN') as (rs & m2 & DC & LE & W). exists (look m (content (key_of_call o)) :: rs), m2. cbn [do_calls]. rewrite D, DC. split; [reflexivity|]. split; [cbn; f_equal; exact LE|].
    intros [|i] h' o' r N1 N2; cbn in N1, N2.
    - injection N1 as <- <-. injection N2 as <-. apply AN.
    - cbn [firstn map rev snd]. rewrite <- app_assoc. apply (W i h' o' r N1 N2).
  Qed.
End Contents.
End Env.

(* put, get and remove answer by the content of the messages, as long as the content of the keys does not change *)
Theorem C101_by_content : forall (A : Type) E d content (cs : list (heap * call A)), classes E = lib_classes -> unchanging content Y d [] cs ->
  exists rs m, do_calls E d cs [] = Some (rs, m) /\ List.length rs = List.length cs
    /\ forall i h o r, nth_error cs i = Some (h, o) -> nth_error rs i = Some r -> Keys.answer content (rev (map snd (firstn i cs))) (content (key_of_call o)) r.
Proof.
  intros A E d content cs HE ST. destruct (calls_answer E HE content d cs [] [] [] ST) as (rs & m & D & LE & W); [intros e []|constructor|intros x; apply none_yet|].
  exists rs, m. split; [exact D|]. split; [exact LE|]. intros i h o r N1 N2. specialize (W i h o r N1 N2). rewrite app_nil_r in W. exact W.
Qed.

Lemma shown_all h : forall vs ts v, shows_all h vs ts -> In v vs -> exists t, shows h v t.
Proof. induction vs as [|w vs IH]; intros ts v S I; [destruct I|]. inversion S; subst. destruct I as [<-|I]; eauto. Qed.
Lemma shown_there h v t : shows h v t -> forall l, reach h v l -> nth_error h l <> None.
Proof.
  intros S l R. revert t S. induction R as [l|l c fs f v m Hl I R IH|l vs v m Hl I R IH]; intros t S; inversion S as [| | | |l' vs' ts Hl' SA|l' c' fs' gs Hl' NA SA]; subst; try congruence.
  - rewrite Hl in Hl'. injection Hl' as <- <-. destruct (shown_all h _ _ v SA) as (u & U); [apply in_map_iff; exists (f, v); auto|]. exact (IH u U).
  - rewrite Hl in Hl'. injection Hl' as <-. destruct (shown_all h _ _ v SA I) as (u & U). exact (IH u U).
Qed.
(* encode changes nothing that a map sees of a message: of one that has no part in common with the message encoded, or none with a length or checksum field *)
Lemma touched_plain c fs k' : touched Y (CObj c fs) k' -> (forall f, ~ computed Y c f) -> k' = CObj c fs.
Proof.
  destruct k' as [c' gs|vs]; cbn; [|congruence]. intros (-> & N & T) NC. f_equal. revert fs N T. induction gs as [|[g w] gs IH]; intros [|[f v] fs] N T; cbn in N; try discriminate; [reflexivity|]. injection N as -> N.
  destruct (T 0%nat f v w eq_refl eq_refl) as [->|[B _]]; [|exfalso; exact (NC f B)]. f_equal. apply IH; [exact N|]. intros i. exact (T (S i)).
Qed.
Theorem C101_encode_keeps : forall E d d0 h v b e h1 b1 k x, classes E = lib_classes -> fits h v TCodec -> hencode E d0 h v b = (e, h1, b1) -> message_at Y d h k x ->
  (forall l, reach h k l -> ~ reach h v l \/ forall c fs, nth_error h l = Some (CObj c fs) -> forall f, ~ computed Y c f) -> message_at Y d h1 k x.
Proof.
  intros E d d0 h v b e h1 b1 k x HE FV Q (OK & N & t & c & F & S & NE & V & X) AP. pose proof (C57_encode_frame E d0 h v b HE) as W. pose proof (C63_encode_keeps_types E d0 h v b HE OK FV) as OK1. rewrite Q in W, OK1. cbn [fst snd] in W. destruct W as [LE W]. destruct OK1 as [OK1 _].
  assert (SAME : forall l, reach h k l -> nth_error h1 l = nth_error h l).
  { intros l R. destruct (nth_error h l) as [k0|] eqn:A; [|apply nth_error_None in A; apply nth_error_None; lia]. destruct (nth_error h1 l) as [k1|] eqn:B; [|apply nth_error_None in B; assert (nth_error h l <> None) by congruence; apply nth_error_Some in H; lia].
    f_equal. destruct (W l k0 k1 A B) as [T U]. destruct (AP l R) as [NR|NC]; [exact (U NR)|]. destruct k0 as [c0 fs|vs]; [apply touched_plain; [exact T|exact (NC c0 fs A)]|]. cbn in T. destruct k1; exact T. }
  split; [exact OK1|]. split; [exact N|]. exists t, c. split; [|split; [apply (proj1 (HeapFrame.shows_apart h h1) k t S SAME)|auto]].
  destruct k; cbn in F |- *; auto. rewrite (SAME l) by constructor. exact F.
Qed.

(* what is decoded from the bytes of a message finds its entry *)
Theorem C101_decoded_finds : forall (A : Type) (a : A) E d d0 h v t fp c b h1 b1 x, classes E = lib_classes -> heap_ok lib_classes h -> fits h v (TObj c) -> owns h v t fp -> buf_wf b = true ->
  hencode E d0 h v b = (None, h1, b1) -> message_at Y d h1 v x -> parsable Y (factory E) t (WObj c) = true -> canonical Y t (WObj c) = true -> exact_form Y t (WObj c) = true -> (nesting t <= d)%nat ->
  exists bs, appended b bs b1 /\ forall b2 rest, buf_wf b2 = true -> readable b2 = bs ++ rest ->
  let '(h2, w) := hnew E h1 c in let '(e, h3, b3) := hdecode E d h2 w b2 in
  e = None /\ v <> w /\ exists m, do_calls E d [(h1, Put v a); (h3, Get w)] [] = Some ([None; Some a], m).
Proof.
  intros A a E d d0 h v t fp c b h1 b1 x HE OK F O Hb Q M PA CA EX NE. pose proof M as (OK1 & N & t1' & c1 & F1 & S1 & NE1 & V1 & X).
  pose proof (C56_unshared_exact E d0 h v t b fp O) as U. rewrite Q in U. destruct (encode E d0 t b) as [[e2 t1] b1'] eqn:EN. destruct U as (<- & <- & fp1 & O1).
  assert (OB : object_of E c t = true) by (exact (fits_object E h v t c HE OK F N (proj1 (HeapOwn.owns_shows h) _ _ _ O))).
  destruct (C22_round_trip E E d0 d c t b t1 b1 HE HE OB Hb EN PA CA NE) as (bs & AP & R). exists bs. split; [exact AP|]. intros b2 rest Hb2 RD.
  destruct (R b2 rest Hb2 RD) as (v2 & b3 & D2 & _ & X2 & _). specialize (X2 EX). subst v2.
  assert (T1 : t1' = t1) by (apply (proj1 (HeapEq.shows_det h1) v); [exact (proj1 (HeapOwn.owns_shows h1) _ _ _ O1)|exact S1]). subst t1'.
  pose proof (C58_decode_fresh E d h1 c b2) as W. pose proof (HeapTypes.new_ok E) as NW. rewrite HE in NW. specialize (NW h1 c OK1). destruct (hnew E h1 c) as [h2 w] eqn:HN. cbn [fst snd] in NW. destruct NW as (OK2 & K2 & F2).
  pose proof (C63_decode_keeps_types E d h2 w b2 HE OK2 Hb2) as OK3. destruct (hdecode E d h2 w b2) as [[e h3] b3'] eqn:D. cbn [fst snd] in OK3. rewrite D2 in W. destruct W as (-> & -> & (LE & UN) & fp3 & O3 & FR).
  assert (c1 = c) as ->.
  { pose proof (fits_object E h1 v t1 c1 HE OK1 F1 N S1) as OB1. destruct (encoded_facts lib_classes Y library_conforms E HE d0 c t b t1 b1 OB Hb EN) as (Hv1 & _).
    destruct (shape_codec E c1 t1 HE OB1) as (fs & L & -> & _). destruct (shape_codec E c _ HE Hv1) as (gs & L' & Q' & _). congruence. }
  assert (Nw : w <> HNull) by (intros ->; inversion O3; subst; cbn in V1, S1, N; inversion S1; subst; contradiction).
  assert (IN : forall l k, nth_error h1 l = Some k -> nth_error h3 l = Some k).
  { intros l k A1. rewrite UN; [exact A1| |intros []]. apply nth_error_Some. congruence. }
  assert (Mv : message_at Y d h3 v x).
  { split; [exact OK3|]. split; [exact N|]. exists t1, c. split; [destruct v; cbn in F1 |- *; auto; destruct F1 as (fs & F1); exists fs; apply IN; exact F1|]. split; [|auto].
    apply (proj1 (HeapFrame.shows_apart h1 h3) v t1 S1). intros l RE. apply UN; [|intros []]. apply nth_error_Some. exact (shown_there h1 v t1 S1 l RE). }
  assert (Mw : message_at Y d h3 w x).
  { split; [exact OK3|]. split; [exact Nw|]. exists t1, c. split; [|split; [exact (proj1 (HeapOwn.owns_shows h3) _ _ _ O3)|auto]].
    destruct (shape_codec E c t1 HE (fits_object E h1 v t1 c HE OK1 F1 N S1)) as (fs & L & -> & _). inversion O3; subst. cbn. eauto. }
  split; [reflexivity|]. split.
  { intros ->. inversion O3; subst; try contradiction; destruct F1 as (? & F1); assert (l < List.length h1)%nat by (apply nth_error_Some; congruence); specialize (FR l (or_introl eq_refl)); lia. }
  destruct (C101_by_content A E d (fun _ => x) [(h1, Put v a); (h3, Get w)] HE) as (rs & m & DC & LEN & AN).
  { cbn. split; [constructor; [exact M|constructor]|]. split; [constructor; [exact Mw|constructor; [exact Mv|constructor]]|exact Logic.I]. }
  exists m. rewrite DC. destruct rs as [|r0 [|r1 [|]]]; try discriminate LEN. pose proof (AN 0%nat _ _ _ eq_refl eq_refl) as A0. pose proof (AN 1%nat _ _ _ eq_refl eq_refl) as A1. cbn in A0, A1.
  inversion A0; subst. inversion A1; subst; [reflexivity|congruence].
Qed.

(* a frame that is encoded after it has been put is not found again *)
Definition h_frame : heap := [obj "sample.SubPacket" [("fieldU32", HInt 1)]; obj "sample.NestedPacket" [("subPacket", HRef 0); ("inerPacket", HRef 3)]; obj "sample.RootPacket" [("msgType", HInt 3); ("payload", HRef 1)];
  obj "sample.NestedPacket.InerPacket" []; obj "sample.SubPacket" [("fieldU32", HInt 1)]; obj "sample.RootPacket" [("msgType", HInt 3)]]%string.
Theorem C101_encoded_frame_refuted : exists h v h1 b1, hencode lib_env 3 h v empty_buf = (None, h1, b1) /\ (exists x, message_at Y 3 h v x) /\ (exists x, message_at Y 3 h1 v x)
  /\ exists m, do_calls lib_env 3 [(h, Put v 1); (h, Get v); (h1, Get v); (h1, Remove v); (h1, Put v 2); (h1, Get v)] [] = Some ([None; Some 1; None; None; None; Some 2], m) /\ map e_key m = [v; v].
Proof.
  exists h_frame, (HRef 2). eexists _, _. split; [vm_compute; reflexivity|]. split; [|split].
  1, 2: eexists; split; [apply cells_ok; vm_compute; reflexivity|]; split; [discriminate|]; do 2 eexists; split; [eexists; reflexivity|]; split; [apply (view_shows _ 9); vm_compute; reflexivity|]; split; [vm_compute; lia|]; split; vm_compute; reflexivity.
  eexists. split; vm_compute; reflexivity.
Qed.
(* no call returns for a message that holds an object of a field-less class, whatever the stack *)
Theorem C101_void_refuted : forall (A : Type) E d h (o : call A) m t c, classes E = lib_classes -> heap_ok lib_classes h -> key_of_call o <> HNull -> fits h (key_of_call o) (TObj c) -> shows h (key_of_call o) t ->
  has_void Y t = true -> do_call E d h o m = None.
Proof.
  intros A E d h o m t c HE OK N F S V. unfold do_call. rewrite (proj1 (C61_hash_and_text_unfold E (Build_printers (fun _ => []) (fun _ => [])) d h _ t c HE OK F S)).
  rewrite (C41_containing_void_refuted E c t HE (fits_object E h _ t c HE OK F N S) V d). reflexivity.
Qed.

Definition content_of (h : heap) (k : hval) : val := match k with HRef l => match nth_error h l with Some (CObj c _) => one_nan Y (seen 9 h k) (WObj c) | _ => VNull end | _ => VNull end.
Lemma is_message h k c l : k = HRef l -> forallb (cell_ok h lib_classes) h = true -> view h 9 k = Some (seen 9 h k) -> (exists fs, nth_error h l = Some (CObj c fs)) -> (nesting (seen 9 h k) <= 3)%nat -> has_void Y (seen 9 h k) = false -> message_at Y 3 h k (content_of h k).
Proof.
  intros -> C W (fs & F) N V. split; [apply cells_ok; exact C|]. split; [discriminate|]. exists (seen 9 h (HRef l)), c. split; [exists fs; exact F|]. split; [apply (view_shows _ 9); exact W|]. split; [exact N|]. split; [exact V|]. unfold content_of. rewrite F. reflexivity.
Qed.
(* two SubPackets with the same content, and a frame; the frame is put after it has been encoded, in the heap that leaves *)
Definition h_coded : heap := snd (fst (hencode lib_env 3 h_frame (HRef 2) empty_buf)).
Definition some_calls : list (heap * call Z) := [(h_frame, Put (HRef 0) 1); (h_frame, Get (HRef 4)); (h_coded, Put (HRef 2) 7); (h_coded, Put (HRef 4) 2); (h_coded, Remove (HRef 0)); (h_coded, Get (HRef 2)); (h_coded, Get (HRef 4))].
Example C101_meets : unchanging (content_of h_coded) Y 3 [] some_calls
  /\ (exists m, do_calls lib_env 3 some_calls [] = Some ([None; Some 1; None; Some 1; Some 2; Some 7; None], m) /\ List.length m = 1%nat)
  (* hypotheses of C101_encode_keeps: a SubPacket that is a part of the frame, and one that is not *)
  /\ fits h_frame (HRef 2) TCodec /\ h_coded <> h_frame /\ (forall f, ~ computed Y "sample.SubPacket" f) /\ (forall l, reach h_frame (HRef 4) l -> l = 4%nat)
  (* and of C101_decoded_finds *)
  /\ owns h_frame (HRef 2) (seen 9 h_frame (HRef 2)) [2; 1; 0; 3]%nat /\ parsable Y (factory lib_env) (seen 9 h_frame (HRef 2)) (WObj "sample.RootPacket") = true
  /\ canonical Y (seen 9 h_frame (HRef 2)) (WObj "sample.RootPacket") = true /\ exact_form Y (seen 9 h_frame (HRef 2)) (WObj "sample.RootPacket") = true
  (* and of C101_void_refuted *)
  /\ has_void Y (seen 9 [obj "sample.EmptyPacket" []]%string (HRef 0)) = true.
Proof.
  split.
  { assert (M0 : message_at Y 3 h_frame (HRef 0) (content_of h_coded (HRef 0))) by (replace (content_of h_coded (HRef 0)) with (content_of h_frame (HRef 0)) by (vm_compute; reflexivity); eapply is_message; [reflexivity|vm_compute; reflexivity|vm_compute; reflexivity|eexists; reflexivity|vm_compute; lia|vm_compute; reflexivity]).
    assert (M4 : message_at Y 3 h_frame (HRef 4) (content_of h_coded (HRef 4))) by (replace (content_of h_coded (HRef 4)) with (content_of h_frame (HRef 4)) by (vm_compute; reflexivity); eapply is_message; [reflexivity|vm_compute; reflexivity|vm_compute; reflexivity|eexists; reflexivity|vm_compute; lia|vm_compute; reflexivity]).
    assert (N0 : message_at Y 3 h_coded (HRef 0) (content_of h_coded (HRef 0))) by (eapply is_message; [reflexivity|vm_compute; reflexivity|vm_compute; reflexivity|eexists; vm_compute; reflexivity|vm_compute; lia|vm_compute; reflexivity]).
    assert (N2 : message_at Y 3 h_coded (HRef 2) (content_of h_coded (HRef 2))) by (eapply is_message; [reflexivity|vm_compute; reflexivity|vm_compute; reflexivity|eexists; vm_compute; reflexivity|vm_compute; lia|vm_compute; reflexivity]).
    assert (N4 : message_at Y 3 h_coded (HRef 4) (content_of h_coded (HRef 4))) by (eapply is_message; [reflexivity|vm_compute; reflexivity|vm_compute; reflexivity|eexists; vm_compute; reflexivity|vm_compute; lia|vm_compute; reflexivity]).
    unfold some_calls. cbn [unchanging key_of_call]. repeat (split; [repeat (apply Forall_cons; [assumption|]); apply Forall_nil|]). exact Logic.I. }
  split; [eexists; split; vm_compute; reflexivity|]. split; [eexists _, _; reflexivity|]. split; [vm_compute; discriminate|]. split.
  { intros f (L & w & F & G & C). vm_compute in F. injection F as <-. cbn [find fst snd] in G. repeat (destruct (String.eqb f _) in G; [injection G as <-; exact C|]). discriminate G. }
  split.
  { intros l R. inversion R as [l'|l' c fs f v m Hl I R'|l' vs v m Hl I R']; subst; [reflexivity| |discriminate Hl]. vm_compute in Hl. injection Hl as <- <-. cbn in I. repeat (destruct I as [I|I]; [injection I as <- <-; inversion R'|]). destruct I. }
  split; [apply (owned_owns _ 9); vm_compute; reflexivity|]. repeat split; vm_compute; reflexivity.
Qed.

Print Assumptions C101_by_content.
Print Assumptions C101_encode_keeps.
Print Assumptions C101_decoded_finds.
Print Assumptions C101_encoded_frame_refuted.
Print Assumptions C101_void_refuted.
