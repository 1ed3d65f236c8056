(* encode on any object graph: what it changes, and that it cannot come back from a cycle. *)
From Coq Require Import ZArith List Bool String Lia.
From Verif.Model Require Import JavaPrim ByteBuf Utf8 Codec Ast Interp Show Heap.
From Verif.Spec Require Import Bytes Wire Sharing.
From Verif.Proofs Require Import HeapFacts.
Import ListNotations.

Section Reach.
  Variable E : env.
  Lemma fe_in K fs gs f v : fields_evolve K fs gs -> In (f, v) gs -> In (f, v) fs \/ exists z, v = HInt z.
  Proof.
    intros H. induction H; cbn; intros I; auto.
    - destruct I as [I|I]; [left; left; exact I|]. destruct (IHfields_evolve I) as [A|A]; auto.
    - destruct I as [I|I]; [injection I as _ <-; right; eauto|]. destruct (IHfields_evolve I) as [A|A]; auto.
  Qed.
  Lemma fe_hget K fs gs f : fields_evolve K fs gs -> ~ In f K -> hget f gs = hget f fs.
  Proof. intros H N. induction H; cbn; auto; destruct (String.eqb_spec f f0) as [->|]; auto; contradiction. Qed.
  Lemma reach_back h h' v l : evolves E h h' -> reach h' v l -> reach h v l.
  Proof.
    intros V R. induction R as [l|l c fs f v m Hl I R IH|l vs v m Hl I R IH].
    - constructor.
    - pose proof (V l) as K. rewrite Hl in K. destruct (nth_error h l) as [[c0 fs0|]|] eqn:Hl0; cbn in K; try contradiction. destruct K as [-> K].
      destruct (fe_in _ _ _ f v K I) as [A|[z ->]]; [|inversion R]. eapply reach_field; eauto.
    - pose proof (V l) as K. rewrite Hl in K. destruct (nth_error h l) as [[c0 fs0|vs0]|] eqn:Hl0; cbn in K; try contradiction. subst vs0.
      eapply reach_elem; eauto.
  Qed.
  Lemma reach_field_of h l f m : reach h (field h l f) m -> reach h (HRef l) m.
  Proof.
    unfold field. destruct (nth_error h l) as [[c fs|vs]|] eqn:Hl; try (intros R; inversion R; fail). intros R.
    assert (I : In (f, hget f fs) fs \/ hget f fs = HNull).
    { clear. induction fs as [|[g v] fs IH]; cbn; auto. destruct (String.eqb_spec f g) as [->|]; auto. destruct IH; auto. }
    destruct I as [I|I]; [eapply reach_field; eauto|rewrite I in R; inversion R].
  Qed.

  (* only cells in P change *)
  Definition frames (P : nat -> Prop) (h h1 : heap) : Prop := evolves E h h1 /\ forall l, ~ P l -> nth_error h1 l = nth_error h l.
  Definition within (h : heap) (v : hval) (P : nat -> Prop) : Prop := forall l, reach h v l -> P l.
  Lemma frames_refl P h : frames P h h.
  Proof. split; auto. apply evolves_refl. Qed.
  Lemma frames_trans P h h1 h2 : frames P h h1 -> frames P h1 h2 -> frames P h h2.
  Proof. intros [V1 F1] [V2 F2]. split; [eapply evolves_trans; eauto|]. intros l N. rewrite F2, F1; auto. Qed.
  Lemma within_frames P h h1 v : frames P h h1 -> within h v P -> within h1 v P.
  Proof. intros [V _] W l R. apply W. eapply reach_back; eauto. Qed.
  Lemma within_field P h l f : within h (HRef l) P -> within h (field h l f) P.
  Proof. intros W m R. apply W. eapply reach_field_of; eauto. Qed.
  Lemma within_elements P h v vs x : within h v P -> elements h v = Some vs -> In x vs -> within h x P.
  Proof.
    intros W H I m R. apply W. unfold elements in H. destruct v; try discriminate. destruct (nth_error h l) as [[|ws]|] eqn:Hl; try discriminate.
    injection H as ->. eapply reach_elem; eauto.
  Qed.
  Definition framing (enc : heap -> hval -> bytebuf -> option exn * heap * bytebuf) : Prop :=
    forall P h v b, within h v P -> frames P h (snd (fst (enc h v b))).
  Lemma framing_elem enc x P h v b : framing enc -> within h v P -> frames P h (snd (fst (henc_elem enc x h v b))).
  Proof.
    intros S W. pose proof (frames_refl P h) as R. destruct x; cbn [henc_elem].
    - destruct v; try exact R. destruct (write_int o n z b). exact R.
    - destruct v; try exact R. destruct (write_int o n bits b). exact R.
    - destruct (hstring_of v); [|exact R]. destruct (write_fixed _ _ _ _ b). exact R.
    - destruct (hstring_of v); [|exact R]. destruct (write_dyn _ _ _ _ _ b). exact R.
    - apply S. exact W.
  Qed.
  Lemma framing_elems enc x P : framing enc -> forall vs h b, (forall v, In v vs -> within h v P) ->
    frames P h (snd (fst (henc_elems enc x h vs b))).
  Proof.
    intros S vs. induction vs as [|v vs IH]; intros h b I; cbn [henc_elems]; [apply frames_refl|].
    pose proof (framing_elem enc x P h v b S (I v (or_introl eq_refl))) as F. destruct (henc_elem enc x h v b) as [[e h1] b1]. cbn [fst snd] in F.
    destruct e as [e|]; [exact F|]. eapply frames_trans; [exact F|]. apply IH. intros w Hw. eapply within_frames; [exact F|]. apply I. right. exact Hw.
  Qed.
  Lemma put_frames (P : nat -> Prop) h l c fs f z : nth_error h l = Some (CObj c fs) -> In f (replaced E c) -> P l -> frames P h (put_field h l f (HInt z)).
  Proof.
    intros H I Pl. split; [eapply put_evolves; eauto|]. intros m N. apply put_off. intros ->. contradiction.
  Qed.

  (* the fields holding objects that encode goes into; true: a list of them *)
  Definition enters (s : estmt) : list (string * bool) :=
    match s with
    | EObj f | EObjOpt f => [(f, false)]
    | EList f _ _ _ _ _ XObj => [(f, true)]
    | _ => []
    end.
  (* the call x.encode for a part came back *)
  Definition returned (enc : heap -> hval -> bytebuf -> option exn * heap * bytebuf) (h : heap) (P : nat -> Prop) (v : hval) : Prop :=
    exists h' b', frames P h h' /\ fst (fst (enc h' v b')) = None.
  Lemma returned_later enc P h h1 v : frames P h h1 -> returned enc h1 P v -> returned enc h P v.
  Proof. intros F (h' & b' & F' & H). exists h', b'. split; auto. eapply frames_trans; eauto. Qed.

  Lemma elems_returned enc P : framing enc -> forall vs h b, (forall v, In v vs -> within h v P) ->
    fst (fst (henc_elems enc XObj h vs b)) = None -> forall v, In v vs -> returned enc h P v.
  Proof.
    intros S vs. induction vs as [|w vs IH]; intros h b I H v Hv; [destruct Hv|]. cbn [henc_elems henc_elem] in H.
    pose proof (S P h w b (I w (or_introl eq_refl))) as F. destruct (enc h w b) as [[e h1] b1] eqn:Q. cbn [fst snd] in F.
    destruct e as [e|]; [discriminate H|]. destruct Hv as [<-|Hv].
    - exists h, b. split; [apply frames_refl|rewrite Q; reflexivity].
    - eapply returned_later; [exact F|]. apply (IH h1 b1); auto. intros x Hx. eapply within_frames; [exact F|]. apply I. right. exact Hx.
  Qed.

  (* one statement: what it changes, and that its calls came back *)
  Lemma framing_stmt enc this c cd s P (h : heap) loc b : framing enc -> find_class E c = Some cd -> (exists fs, nth_error h this = Some (CObj c fs)) ->
    (forall p, In p (assigned_by [s]) -> In p (assigned_by (c_enc cd))) -> within h (HRef this) P ->
    let '(e, (h1, _, _)) := hexec_estmt enc (checksum E) this s (h, loc, b) in
    frames P h h1
    /\ (e = None -> forall f l, In (f, false) (enters s) -> field h this f = HRef l -> returned enc h P (HRef l))
    /\ (e = None -> forall f vs v, In (f, true) (enters s) -> elements h (field h this f) = Some vs -> In v vs -> returned enc h P v).
  Proof.
    intros S FC (fs & Hf) A W. pose proof (frames_refl P h) as R.
    assert (NONE : forall e : option exn, frames P h h
      /\ (e = None -> forall f l, In (f, false) [] -> field h this f = HRef l -> returned enc h P (HRef l))
      /\ (e = None -> forall f vs v, In (f, true) [] -> elements h (field h this f) = Some vs -> In v vs -> returned enc h P v)).
    { intros e. split; [exact R|]. split; intros _ f l; [intros []|]. intros v []. }
    destruct s; cbn [hexec_estmt enters].
    - destruct (field h this f); try apply NONE. destruct (write_int o n z b). apply NONE.
    - destruct (field h this f); try apply NONE. destruct (write_int o n bits b). apply NONE.
    - destruct (hstring_of (field h this f)); [|apply NONE]. destruct (write_fixed _ _ _ _ b). apply NONE.
    - destruct (hstring_of (field h this f)); [|apply NONE]. destruct (write_dyn _ _ _ _ _ b). apply NONE.
    - assert (X : forall (e : option exn) h1, frames P h h1 -> (e = None -> forall vs v, x = XObj -> elements h (field h this f) = Some vs -> In v vs -> returned enc h P v) ->
        frames P h h1
        /\ (e = None -> forall f0 l, In (f0, false) (match x with XObj => [(f, true)] | _ => [] end) -> field h this f0 = HRef l -> returned enc h P (HRef l))
        /\ (e = None -> forall f0 vs v, In (f0, true) (match x with XObj => [(f, true)] | _ => [] end) -> elements h (field h this f0) = Some vs -> In v vs -> returned enc h P v)).
      { intros e h1 F1 F2. split; auto. split; intros He f0.
        - intros l Hl. destruct x; cbn in Hl; try contradiction. destruct Hl as [Hl|[]]. discriminate Hl.
        - intros vs v Hl EE I. destruct x; cbn in Hl; try contradiction. destruct Hl as [Hl|[]]. injection Hl as <-. eapply F2; eauto. }
      assert (EN : forall vs, field h this f = HNull -> elements h (field h this f) = Some vs -> False) by (intros vs -> Q; discriminate Q).
      destruct (field h this f) as [|z|z|z|l] eqn:FF; cbn [elements] in *; try (apply X; auto; intros ? vs v _ Q; discriminate Q).
      + destruct (write_int zo zn 0 b). apply X; auto. intros ? vs v _ Q. discriminate Q.
      + destruct (nth_error h l) as [[|vs]|] eqn:Hl; try (apply X; auto; intros ? vs0 v _ Q; discriminate Q).
        destruct vs as [|v0 vs].
        * destruct (write_int zo zn 0 b). apply X; auto. intros ? vs v _ [= <-] [].
        * destruct (write_int o n _ b) as [e1 b1]. destruct e1 as [e1|]; [apply X; auto; discriminate|].
          assert (WE : forall v, In v (v0 :: vs) -> within h v P).
          { intros v I. eapply within_elements; [apply (within_field P h this f W)|rewrite FF; cbn; rewrite Hl; reflexivity|exact I]. }
          pose proof (framing_elems enc x P S (v0 :: vs) h b1 WE) as F. pose proof (elems_returned enc P S (v0 :: vs) h b1 WE) as G.
          destruct (henc_elems enc x h (v0 :: vs) b1) as [[e h2] b2] eqn:Q. apply X; [exact F|]. intros -> vs' v -> [= <-] I. apply G; auto. rewrite Q. reflexivity.
    - pose proof (S P h (field h this f) b (within_field P h this f W)) as F. destruct (enc h (field h this f) b) as [[e h2] b2] eqn:Q.
      split; [exact F|]. split; intros -> f0.
      + intros l [[= <-]|[]] HL. exists h, b. split; [apply frames_refl|]. rewrite <- HL, Q. reflexivity.
      + intros vs v [|[]]. discriminate.
    - pose proof (S P h (field h this f) b (within_field P h this f W)) as F. destruct (enc h (field h this f) b) as [[e h2] b2] eqn:Q.
      assert (X : frames P h h2
        /\ (e = None -> forall f0 l, In (f0, false) [(f, false)] -> field h this f0 = HRef l -> returned enc h P (HRef l))
        /\ (e = None -> forall f0 vs v, In (f0, true) [(f, false)] -> elements h (field h this f0) = Some vs -> In v vs -> returned enc h P v)).
      { split; [exact F|]. split; intros -> f0.
        - intros l [[= <-]|[]] HL. exists h, b. split; [apply frames_refl|]. rewrite <- HL, Q. reflexivity.
        - intros vs v [|[]]. discriminate. }
      destruct (field h this f) eqn:FF; try (rewrite Q; exact X).
      split; [exact R|]. split; intros _ f0.
      + intros l [[= <-]|[]] HL. congruence.
      + intros vs v [|[]]. discriminate.
    - apply NONE.
    - destruct (write_int o n 0 b). apply NONE.
    - destruct (assoc x loc), (assoc y loc); try apply NONE. split; [|apply (NONE None)].
      eapply put_frames; eauto; [|apply W; constructor]. unfold replaced. rewrite FC. apply in_map_iff. exists (f, None). split; auto. apply filter_In.
      split; auto. apply A. left. reflexivity.
    - destruct (assoc x loc); try apply NONE. destruct (field h this f); try apply NONE. destruct (set_int o n n0 z b). apply NONE.
    - destruct (checksum E alg) as [k|] eqn:CK; [|apply NONE]. split; [|apply (NONE None)].
      eapply put_frames; eauto; [|apply W; constructor]. unfold replaced. rewrite FC. apply in_map_iff. exists (f, Some alg). split; auto. apply filter_In.
      split; [apply A; left; reflexivity|]. cbn. rewrite CK. reflexivity.
  Qed.

  Definition all_enters (ss : list estmt) : list (string * bool) := flat_map enters ss.
  Lemma framing_stmts enc this c cd P : framing enc -> find_class E c = Some cd ->
    (forall p, In p (all_enters (c_enc cd)) -> ~ In (fst p) (map fst (assigned_by (c_enc cd)))) ->
    forall ss (h : heap) loc b, (exists fs, nth_error h this = Some (CObj c fs)) ->
    (forall p, In p (assigned_by ss) -> In p (assigned_by (c_enc cd))) -> (forall p, In p (all_enters ss) -> In p (all_enters (c_enc cd))) ->
    within h (HRef this) P ->
    let '(e, (h1, _, _)) := hexec_enc enc (checksum E) this ss (h, loc, b) in
    frames P h h1
    /\ (e = None -> forall f l, In (f, false) (all_enters ss) -> field h this f = HRef l -> returned enc h P (HRef l))
    /\ (e = None -> forall f vs v, In (f, true) (all_enters ss) -> elements h (field h this f) = Some vs -> In v vs -> returned enc h P v).
  Proof.
    intros S FC NK ss. induction ss as [|s ss IH]; intros h loc b (fs & Hf) A AE W.
    - cbn. split; [apply frames_refl|]. split; intros _ f l; [intros []|]. intros v [].
    - cbn [hexec_enc]. rewrite assigned_cons in A.
      pose proof (framing_stmt enc this c cd s P h loc b S FC (ex_intro _ fs Hf) (fun p H => A p (in_or_app _ _ _ (or_introl H))) W) as H.
      destruct (hexec_estmt enc (checksum E) this s (h, loc, b)) as [e [[h1 loc1] b1]]. destruct H as (F & R1 & R2).
      destruct e as [e|]; [split; [exact F|]; split; discriminate|].
      destruct (evolves_obj E h h1 this c fs (proj1 F) Hf) as (fs1 & Hf1 & FE).
      specialize (IH h1 loc1 b1 (ex_intro _ fs1 Hf1) (fun p H => A p (in_or_app _ _ _ (or_intror H))) (fun p H => AE p (in_or_app _ _ _ (or_intror H)))
        (within_frames P h h1 _ F W)).
      assert (SAME : forall p, In p (all_enters ss) -> field h1 this (fst p) = field h this (fst p)).
      { intros p Hp. rewrite (field_at h this _ c fs Hf), (field_at h1 this _ c fs1 Hf1). eapply fe_hget; [exact FE|]. intros I.
        apply (NK p); [apply AE, in_or_app; right; exact Hp|]. unfold replaced in I. rewrite FC in I. apply in_map_iff in I. destruct I as (q & <- & I).
        apply filter_In in I. apply in_map, I. }
      destruct (hexec_enc enc (checksum E) this ss (h1, loc1, b1)) as [e3 [[h3 loc3] b3]]. destruct IH as (F' & R1' & R2').
      split; [eapply frames_trans; eauto|]. split; intros He f.
      + intros l I HL. apply in_app_or in I. destruct I as [I|I]; [eapply R1; eauto|]. eapply returned_later; [exact F|]. apply (R1' He f l I).
        etransitivity; [exact (SAME _ I)|exact HL].
      + intros vs v I HE Hv. apply in_app_or in I. destruct I as [I|I]; [eapply R2; eauto|]. eapply returned_later; [exact F|]. apply (R2' He f vs v I); auto.
        replace (field h1 this f) with (field h this f) by (symmetry; exact (SAME _ I)). unfold elements in *. destruct (field h this f); try discriminate. destruct (nth_error h l) as [[|ws]|] eqn:Hl; try discriminate.
        rewrite (evolves_list E h h1 l ws (proj1 F) Hl). exact HE.
  Qed.

  Definition separate (cd : class_def) : bool :=
    forallb (fun p => negb (mem (fst p) (map fst (assigned_by (c_enc cd))))) (all_enters (c_enc cd)).
  Hypothesis SEP : forall c cd, find_class E c = Some cd -> separate cd = true.
  Lemma separate_not c cd : find_class E c = Some cd -> forall p, In p (all_enters (c_enc cd)) -> ~ In (fst p) (map fst (assigned_by (c_enc cd))).
  Proof.
    intros FC p Hp I. specialize (SEP c cd FC). unfold separate in SEP. rewrite forallb_forall in SEP. specialize (SEP p Hp). apply mem_in in I. rewrite I in SEP. discriminate.
  Qed.
  Lemma framing_encode d : framing (hencode E d).
  Proof.
    induction d as [|d IH]; intros P h v b W; pose proof (frames_refl P h) as R.
    - destruct v; exact R.
    - destruct v; try exact R. cbn [hencode]. destruct (nth_error h l) as [[c fs|]|] eqn:Hl; try exact R. destruct (find_class E c) as [cd|] eqn:FC; [|exact R].
      pose proof (framing_stmts (hencode E d) l c cd P IH FC (separate_not c cd FC) (c_enc cd) h [] b (ex_intro _ fs Hl) (fun p H => H) (fun p H => H) W) as H.
      destruct (hexec_enc (hencode E d) (checksum E) l (c_enc cd) (h, [], b)) as [e [[h1 loc1] b1]]. apply H.
  Qed.

  (* m is an object that encode of the object at l goes into *)
  Definition step_into (h : heap) (l m : nat) : Prop :=
    exists c fs cd f, nth_error h l = Some (CObj c fs) /\ find_class E c = Some cd
      /\ ((In (f, false) (all_enters (c_enc cd)) /\ field h l f = HRef m)
          \/ (In (f, true) (all_enters (c_enc cd)) /\ exists vs, elements h (field h l f) = Some vs /\ In (HRef m) vs)).
  Inductive descends (h : heap) : nat -> nat -> Prop :=
  | descends_0 l : descends h 0 l
  | descends_S n l m : step_into h l m -> descends h n m -> descends h (S n) l.
  Lemma step_into_evolves h h1 l m : evolves E h h1 -> step_into h l m -> step_into h1 l m.
  Proof.
    intros V (c & fs & cd & f & Hl & FC & H). destruct (evolves_obj E h h1 l c fs V Hl) as (fs1 & Hl1 & FE).
    assert (SAME : forall b0, In (f, b0) (all_enters (c_enc cd)) -> field h1 l f = field h l f).
    { intros b0 Hp. rewrite (field_at h l _ c fs Hl), (field_at h1 l _ c fs1 Hl1). eapply fe_hget; [exact FE|]. intros I.
      apply (separate_not c cd FC _ Hp). unfold replaced in I. rewrite FC in I. apply in_map_iff in I. destruct I as (q & <- & I).
      apply filter_In in I. exact (in_map fst _ _ (proj1 I)). }
    exists c, fs1, cd, f. split; auto. split; auto. destruct H as [[I HL]|[I (vs & HE & HL)]].
    - left. rewrite (SAME _ I). auto.
    - right. split; auto. exists vs. split; auto. rewrite (SAME _ I). unfold elements in *. destruct (field h l f) as [| | | |k]; try discriminate.
      destruct (nth_error h k) as [[|ws]|] eqn:Hk; try discriminate. rewrite (evolves_list E h h1 k ws V Hk). exact HE.
  Qed.
  Lemma descends_evolves h h1 n l : evolves E h h1 -> descends h n l -> descends h1 n l.
  Proof. intros V H. induction H; [constructor|]. econstructor; eauto. eapply step_into_evolves; eauto. Qed.
  Theorem encode_bounds_depth d : forall h l b n, fst (fst (hencode E d h (HRef l) b)) = None -> descends h n l -> (n < d)%nat.
  Proof.
    induction d as [|d IH]; intros h l b n H D; [discriminate H|]. cbn [hencode] in H. inversion D as [|n' ? m ST D']; subst; [lia|].
    pose proof ST as ST0. destruct ST0 as (c & fs & cd & f & Hl & FC & ST1). rewrite Hl, FC in H.
    pose proof (framing_stmts (hencode E d) l c cd (fun _ => True) (framing_encode d) FC (separate_not c cd FC) (c_enc cd) h [] b (ex_intro _ fs Hl)
      (fun p H => H) (fun p H => H) (fun _ _ => I)) as F.
    destruct (hexec_enc (hencode E d) (checksum E) l (c_enc cd) (h, [], b)) as [e [[h1 loc1] b1]]. cbn [fst] in H. subst e. destruct F as (_ & R1 & R2).
    assert (RET : returned (hencode E d) h (fun _ => True) (HRef m)).
    { destruct ST1 as [[I HL]|[I (vs & HE & HL)]]; [eapply R1; eauto|eapply R2; eauto]. }
    destruct RET as (h' & b' & [V _] & RET). specialize (IH h' m b' n' RET (descends_evolves h h' n' m V D')). lia.
  Qed.
End Reach.
