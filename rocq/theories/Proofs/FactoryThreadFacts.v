(* Any number of threads in SseBinary.BodyMessageFactory. *)
From Coq Require Import ZArith List Bool String Lia.
From Verif.Model Require Import JavaPrim ByteBuf Ast Interp Factory FactoryThreads.
From Verif.Spec Require Import PrivateTag.
From Verif.Proofs Require Import RegistryFacts.
Import ListNotations.

Lemma fstep_nth i : forall s us, match nth_error us i with
  | Some u => fst (fstep i s us) = fst (fthread_step s u) /\ nth_error (snd (fstep i s us)) i = Some (snd (fthread_step s u))
  | None => fstep i s us = (s, us)
  end.
Proof.
  induction i as [|i IH]; intros s [|u us]; cbn [nth_error fstep]; auto; [destruct (fthread_step s u); auto|]. specialize (IH s us). destruct (nth_error us i).
  - destruct (fstep i s us). exact IH.
  - rewrite IH. reflexivity.
Qed.
Lemma fstep_other i : forall s us j, j <> i -> nth_error (snd (fstep i s us)) j = nth_error us j.
Proof.
  induction i as [|i IH]; intros s [|u us] [|j] N; cbn [nth_error fstep]; auto; try congruence; try (destruct (fthread_step s u); reflexivity); try (destruct (fstep i s us) eqn:Q; reflexivity).
  specialize (IH s us j ltac:(congruence)). destruct (fstep i s us). exact IH.
Qed.
Lemma fsteps_keep (P : sse_factory -> list fthread -> Prop) : (forall i s us u, nth_error us i = Some u -> P s us -> P (fst (fstep i s us)) (snd (fstep i s us))) ->
  forall sched s us, P s us -> P (fst (fsteps sched s us)) (snd (fsteps sched s us)).
Proof.
  intros H sched. induction sched as [|i sched IH]; intros s us HP; cbn [fsteps]; auto. pose proof (fstep_nth i s us) as N. destruct (nth_error us i) as [u|] eqn:Q.
  - pose proof (H i s us u Q HP) as K. destruct (fstep i s us). apply IH. exact K.
  - rewrite N. apply IH. exact HP.
Qed.
(* an invariant of one thread with the maps that its own steps and the others' keep *)
Lemma fsteps_private (P : sse_factory -> fthread -> Prop) (K : fthread -> Prop) (i : nat) :
  (forall s u, P s u -> P (fst (fthread_step s u)) (snd (fthread_step s u))) ->
  (forall s u w, K w -> P s u -> K (snd (fthread_step s w)) /\ P (fst (fthread_step s w)) u) ->
  forall sched s us u, nth_error us i = Some u -> (forall j w, nth_error us j = Some w -> j <> i -> K w) -> P s u ->
  exists u', nth_error (snd (fsteps sched s us)) i = Some u' /\ P (fst (fsteps sched s us)) u'.
Proof.
  intros OWN OTHER. induction sched as [|k sched IH]; intros s us u Hu Q HP; cbn [fsteps]; [eauto|]. pose proof (fstep_nth k s us) as N. pose proof (fstep_other k s us) as O.
  destruct (nth_error us k) as [w|] eqn:Hk; [|rewrite N; apply (IH s us u); auto]. destruct N as [N1 N2]. destruct (fstep k s us) as [s1 us1]. cbn [fst snd] in *.
  destruct (PeanoNat.Nat.eq_dec k i) as [->|NE].
  - rewrite Hk in Hu. injection Hu as ->. apply (IH s1 us1 _ N2).
    + intros j w Hj D. rewrite O in Hj by auto. eauto.
    + rewrite N1. auto.
  - destruct (OTHER s u w (Q k w Hk NE) HP) as [Q1 Q2]. apply (IH s1 us1 u).
    + rewrite O; auto.
    + intros j x Hj D. destruct (PeanoNat.Nat.eq_dec j k) as [->|D2]; [rewrite N2 in Hj; injection Hj as <-; exact Q1|]. rewrite O in Hj by auto. eauto.
    + rewrite N1. exact Q2.
Qed.

(* ---- a message type only one thread changes ---- *)
Lemma key_int t t' : key_eqb (KInt t) (KInt t') = Z.eqb t t'.
Proof. reflexivity. Qed.
Definition tag_coming (t : Z) (s : sse_factory) (u : fthread) : list fanswer :=
  match fmid u with
  | Some (cl, t', c) => (if Z.eqb t' t then [QReg cl t' c] else []) ++ alone_tag t (f_get (body_map s) (KInt t)) (ftodo u)
  | None => alone_tag t (f_get (body_map s) (KInt t)) (ftodo u)
  end.
Lemma tag_own t s u : filter (about_tag t) (fgot u) ++ tag_coming t s u
  = filter (about_tag t) (fgot (snd (fthread_step s u))) ++ tag_coming t (fst (fthread_step s u)) (snd (fthread_step s u)).
Proof.
  unfold fthread_step, tag_coming. destruct u as [p [[[cl t'] c]|] g]; cbn [fmid ftodo fgot fst snd body_map].
  - rewrite filter_app, <- app_assoc. cbn [filter about_tag]. destruct (Z.eqb t' t); reflexivity.
  - destruct p as [|[cl t' c|t'|t'|cl] p]; [reflexivity| | | |]; cbn [fmid ftodo fgot fst snd body_map alone_tag].
    + rewrite f_get_put, key_int. destruct (Z.eqb_spec t' t) as [->|]; reflexivity.
    + rewrite filter_app, <- app_assoc. cbn [filter about_tag]. unfold sse_unregister, unregister; cbn [fst snd body_map]. rewrite f_get_remove, key_int. destruct (Z.eqb_spec t' t) as [->|]; reflexivity.
    + rewrite filter_app, <- app_assoc. cbn [filter about_tag]. unfold sse_create, create. destruct (Z.eqb_spec t' t) as [->|]; reflexivity.
    + rewrite filter_app, <- app_assoc. reflexivity.
Qed.
Definition tag_quiet (t : Z) (u : fthread) : Prop := (forall o, In o (ftodo u) -> ~ touches_tag t o).
Lemma tag_other t s u : tag_quiet t u -> tag_quiet t (snd (fthread_step s u)) /\ f_get (body_map (fst (fthread_step s u))) (KInt t) = f_get (body_map s) (KInt t).
Proof.
  unfold fthread_step, tag_quiet. destruct u as [p [[[cl t'] c]|] g]; cbn [fmid ftodo fgot fst snd body_map]; intros Q; auto.
  destruct p as [|o p]; [auto|]. assert (Q3 := Q _ (or_introl eq_refl)). assert (Q4 := fun o H => Q o (or_intror H)). destruct o as [cl t' c|t'|t'|cl]; cbn [fmid ftodo fgot fst snd body_map touches_tag] in *; auto.
  - split; auto. rewrite f_get_put, key_int. destruct (Z.eqb_spec t' t); [contradiction|reflexivity].
  - split; auto. unfold sse_unregister, unregister; cbn [snd body_map]. rewrite f_get_remove, key_int. destruct (Z.eqb_spec t' t); [contradiction|reflexivity].
Qed.
Theorem tag_answers t sched s ps i p s' us' u : fsteps sched s (map fstart ps) = (s', us') -> nth_error ps i = Some p -> nth_error us' i = Some u ->
  (forall j q o, nth_error ps j = Some q -> j <> i -> In o q -> ~ touches_tag t o) ->
  (exists later, alone_tag t (f_get (body_map s) (KInt t)) p = filter (about_tag t) (fgot u) ++ later) /\ (fdone u -> filter (about_tag t) (fgot u) = alone_tag t (f_get (body_map s) (KInt t)) p).
Proof.
  intros S Hp Hu Q. destruct (fsteps_private (fun s0 u0 => alone_tag t (f_get (body_map s) (KInt t)) p = filter (about_tag t) (fgot u0) ++ tag_coming t s0 u0) (tag_quiet t) i) with (sched := sched) (s := s) (us := map fstart ps) (u := fstart p) as (u' & U1 & U2).
  - intros s0 u0 H. rewrite H. apply tag_own.
  - intros s0 u0 w Hw H. destruct (tag_other t s0 w Hw) as [A B]. split; auto. rewrite H. unfold tag_coming. rewrite B. reflexivity.
  - rewrite nth_error_map, Hp. reflexivity.
  - intros j w Hj D. rewrite nth_error_map in Hj. destruct (nth_error ps j) as [q|] eqn:Hq; [|discriminate]. injection Hj as <-. intros o Ho. eapply Q; eauto.
  - reflexivity.
  - rewrite S in U1, U2. cbn [fst snd] in *. rewrite Hu in U1. injection U1 as <-. split; [eexists; exact U2|]. intros [D1 D2]. rewrite U2. unfold tag_coming. rewrite D1, D2. cbn. rewrite app_nil_r. reflexivity.
Qed.

(* ---- a class only one thread changes ---- *)
Definition class_coming (k : string) (s : sse_factory) (u : fthread) : list fanswer :=
  match fmid u with
  | Some (cl, t', c) => if String.eqb cl k then QReg cl t' c :: alone_class k (Some t') (ftodo u) else alone_class k (sse_get_msg_type s k) (ftodo u)
  | None => alone_class k (sse_get_msg_type s k) (ftodo u)
  end.
Lemma class_own k s u : filter (about_class k) (fgot u) ++ class_coming k s u
  = filter (about_class k) (fgot (snd (fthread_step s u))) ++ class_coming k (fst (fthread_step s u)) (snd (fthread_step s u)).
Proof.
  unfold fthread_step, class_coming. destruct u as [p [[[cl t'] c]|] g]; cbn [fmid ftodo fgot fst snd].
  - rewrite filter_app, <- app_assoc. cbn [filter about_class]. unfold sse_get_msg_type; cbn [reverse_map]. rewrite assoc_r_put. rewrite (String.eqb_sym k cl). destruct (String.eqb cl k); reflexivity.
  - destruct p as [|[cl t' c|t'|t'|cl] p]; [reflexivity| | | |]; cbn [fmid ftodo fgot fst snd alone_class].
    + unfold sse_get_msg_type; cbn [reverse_map]. destruct (String.eqb cl k); reflexivity.
    + rewrite filter_app, <- app_assoc. reflexivity.
    + rewrite filter_app, <- app_assoc. reflexivity.
    + rewrite filter_app, <- app_assoc. cbn [filter about_class]. destruct (String.eqb_spec cl k) as [->|]; reflexivity.
Qed.
Definition class_quiet (k : string) (u : fthread) : Prop := (forall o, In o (ftodo u) -> ~ touches_class k o) /\ (forall cl t c, fmid u = Some (cl, t, c) -> cl <> k).
Lemma class_other k s u : class_quiet k u -> class_quiet k (snd (fthread_step s u)) /\ sse_get_msg_type (fst (fthread_step s u)) k = sse_get_msg_type s k.
Proof.
  unfold fthread_step, class_quiet. destruct u as [p [[[cl t'] c]|] g]; cbn [fmid ftodo fgot fst snd]; intros [Q1 Q2].
  - split; [split; [auto|discriminate]|]. unfold sse_get_msg_type; cbn [reverse_map]. rewrite assoc_r_put. rewrite (String.eqb_sym k cl). destruct (String.eqb_spec cl k); auto. destruct (Q2 cl t' c eq_refl); auto.
  - destruct p as [|o p]; [repeat split; auto; discriminate|]. assert (Q3 := Q1 _ (or_introl eq_refl)). assert (Q4 := fun o H => Q1 o (or_intror H)).
    destruct o as [cl t' c|t'|t'|cl]; cbn [fmid ftodo fgot fst snd touches_class] in *; (split; [split|]); auto; try discriminate. intros ? ? ? [= <- _ _]. exact Q3.
Qed.
Theorem class_answers k sched s ps i p s' us' u : fsteps sched s (map fstart ps) = (s', us') -> nth_error ps i = Some p -> nth_error us' i = Some u ->
  (forall j q o, nth_error ps j = Some q -> j <> i -> In o q -> ~ touches_class k o) ->
  (exists later, alone_class k (sse_get_msg_type s k) p = filter (about_class k) (fgot u) ++ later) /\ (fdone u -> filter (about_class k) (fgot u) = alone_class k (sse_get_msg_type s k) p).
Proof.
  intros S Hp Hu Q. destruct (fsteps_private (fun s0 u0 => alone_class k (sse_get_msg_type s k) p = filter (about_class k) (fgot u0) ++ class_coming k s0 u0) (class_quiet k) i) with (sched := sched) (s := s) (us := map fstart ps) (u := fstart p) as (u' & U1 & U2).
  - intros s0 u0 H. rewrite H. apply class_own.
  - intros s0 u0 w Hw H. destruct (class_other k s0 w Hw) as [A B]. split; auto. rewrite H. unfold class_coming. rewrite B. reflexivity.
  - rewrite nth_error_map, Hp. reflexivity.
  - intros j w Hj D. rewrite nth_error_map in Hj. destruct (nth_error ps j) as [q|] eqn:Hq; [|discriminate]. injection Hj as <-. split; [intros o Ho; eapply Q; eauto|discriminate].
  - reflexivity.
  - rewrite S in U1, U2. cbn [fst snd] in *. rewrite Hu in U1. injection U1 as <-. split; [eexists; exact U2|]. intros [D1 D2]. rewrite U2. unfold class_coming. rewrite D1, D2. cbn. rewrite app_nil_r. reflexivity.
Qed.

(* ---- a known message type can be created, if nobody removes it ---- *)
Definition keeps_tag (t : Z) (us : list fthread) : Prop := forall u o, In u us -> In o (ftodo u) -> o <> PRem t.
Definition knows (t : Z) (a : fanswer) : Prop := match a with QType _ (Some t') => t' = t | QReg _ t' _ => t' = t | QCreate t' (inr _) => t' = t | _ => False end.
Definition held_tag (t : Z) (s : sse_factory) : Prop := f_get (body_map s) (KInt t) <> None.
Lemma ftodo_step s u o : In o (ftodo (snd (fthread_step s u))) -> In o (ftodo u).
Proof. unfold fthread_step. destruct u as [p [[[cl t'] c]|] g]; cbn; auto. destruct p as [|[cl t' c|t'|t'|cl] p]; cbn; auto. Qed.
Lemma keeps_step t i s us u : nth_error us i = Some u -> keeps_tag t us -> keeps_tag t (snd (fstep i s us)).
Proof.
  intros Hu U w o Hw Ho. pose proof (fstep_nth i s us) as N. rewrite Hu in N. destruct N as [_ N]. apply In_nth_error in Hw. destruct Hw as (j & Hj).
  destruct (PeanoNat.Nat.eq_dec j i) as [->|D]; [rewrite N in Hj; injection Hj as <-; apply ftodo_step in Ho; eapply U; eauto; eapply nth_error_In; eauto|].
  rewrite fstep_other in Hj by auto. eapply U; eauto. eapply nth_error_In; eauto.
Qed.
Lemma held_tag_step t s u : (forall o, In o (ftodo u) -> o <> PRem t) -> held_tag t s -> held_tag t (fst (fthread_step s u)).
Proof.
  unfold held_tag, fthread_step. destruct u as [p [[[cl t'] c]|] g]; cbn [fmid ftodo fgot fst snd body_map]; intros U H; auto.
  destruct p as [|o p]; auto. specialize (U _ (or_introl eq_refl)). destruct o as [cl t' c|t'|t'|cl]; cbn [fst body_map]; auto.
  - rewrite f_get_put, key_int. destruct (Z.eqb t' t); [discriminate|auto].
  - unfold sse_unregister, unregister; cbn [snd body_map]. rewrite f_get_remove, key_int. destruct (Z.eqb_spec t' t) as [->|]; [destruct U; reflexivity|auto].
Qed.
Definition mid_held (t : Z) (s : sse_factory) (u : fthread) : Prop := forall cl c, fmid u = Some (cl, t, c) -> held_tag t s.
Definition tag_inv (t : Z) (s : sse_factory) (us : list fthread) : Prop :=
  keeps_tag t us /\ (forall cl, sse_get_msg_type s cl = Some t -> held_tag t s) /\ (forall u, In u us -> mid_held t s u) /\ (forall u a, In u us -> In a (fgot u) -> knows t a -> held_tag t s).
Lemma tag_inv_step t i s us u : nth_error us i = Some u -> tag_inv t s us -> tag_inv t (fst (fstep i s us)) (snd (fstep i s us)).
Proof.
  intros Hu (I1 & I2 & I3 & I4). pose proof (keeps_step t i s us u Hu I1) as J1. pose proof (fstep_nth i s us) as N. rewrite Hu in N. destruct N as [N1 N2].
  assert (Iu : In u us) by (eapply nth_error_In; eauto). assert (HU : forall o, In o (ftodo u) -> o <> PRem t) by (intros o Ho; eapply I1; eauto).
  assert (UP : held_tag t s -> held_tag t (fst (fstep i s us))) by (rewrite N1; apply held_tag_step; auto).
  assert (NEW : (forall cl, sse_get_msg_type (fst (fthread_step s u)) cl = Some t -> held_tag t (fst (fthread_step s u)))
    /\ mid_held t (fst (fthread_step s u)) (snd (fthread_step s u)) /\ (forall a, In a (fgot (snd (fthread_step s u))) -> knows t a -> held_tag t (fst (fthread_step s u)))).
  { rewrite N1 in UP. specialize (I3 u Iu). assert (I5 := fun a => I4 u a Iu). clear - UP I2 I3 I5. unfold fthread_step, mid_held in *. destruct u as [p [[[cl t'] c]|] g]; cbn [fmid ftodo fgot fst snd] in *.
    - split; [|split; [discriminate|]].
      + intros k. unfold sse_get_msg_type; cbn [reverse_map]. rewrite assoc_r_put. destruct (String.eqb k cl); [intros [= ->]; apply UP; eapply I3; reflexivity|intros H; apply UP; eapply I2; eauto].
      + intros a Ha Ka. apply in_app_iff in Ha. destruct Ha as [Ha|[<-|[]]]; [apply UP; eapply I5; eauto|]. cbn in Ka. subst t'. apply UP. eapply I3. reflexivity.
    - destruct p as [|[cl t' c|t'|t'|cl] p]; cbn [fmid ftodo fgot fst snd] in *.
      + split; [intros k H; apply UP; eapply I2; eauto|]. split; [discriminate|]. intros a Ha Ka. apply UP. eapply I5; eauto.
      + split; [intros k H; apply UP; eapply I2; eauto|]. split; [|intros a Ha Ka; apply UP; eapply I5; eauto]. intros k d [= <- <- <-]. unfold held_tag; cbn [body_map]. rewrite f_get_put, key_int, Z.eqb_refl. discriminate.
      + split; [intros k H; apply UP; eapply I2; eauto|]. split; [discriminate|]. intros a Ha Ka. apply in_app_iff in Ha. destruct Ha as [Ha|[<-|[]]]; [apply UP; eapply I5; eauto|destruct Ka].
      + split; [intros k H; apply UP; eapply I2; eauto|]. split; [discriminate|]. intros a Ha Ka. apply in_app_iff in Ha. destruct Ha as [Ha|[<-|[]]]; [apply UP; eapply I5; eauto|].
        unfold knows, sse_create, create in Ka. unfold held_tag. destruct (f_get (body_map s) (KInt t')) eqn:G; [|destruct Ka]. subst t'. congruence.
      + split; [intros k H; apply UP; eapply I2; eauto|]. split; [discriminate|]. intros a Ha Ka. apply in_app_iff in Ha. destruct Ha as [Ha|[<-|[]]]; [apply UP; eapply I5; eauto|].
        unfold knows in Ka. destruct (sse_get_msg_type s cl) eqn:G; [|destruct Ka]. subst. eapply I2; eauto. }
  rewrite <- N1 in NEW. destruct NEW as (NE1 & NE2 & NE3). split; [exact J1|]. split; [exact NE1|]. split.
  - intros w Hw. apply In_nth_error in Hw. destruct Hw as (j & Hj). destruct (PeanoNat.Nat.eq_dec j i) as [->|D].
    + rewrite N2 in Hj. injection Hj as <-. exact NE2.
    + rewrite fstep_other in Hj by auto. intros cl c M. apply UP. exact (I3 w (nth_error_In _ _ Hj) cl c M).
  - intros w a Hw Ha Ka. apply In_nth_error in Hw. destruct Hw as (j & Hj). destruct (PeanoNat.Nat.eq_dec j i) as [->|D].
    + rewrite N2 in Hj. injection Hj as <-. eapply NE3; eauto.
    + rewrite fstep_other in Hj by auto. apply UP. exact (I4 w a (nth_error_In _ _ Hj) Ha Ka).
Qed.
Lemma tag_inv_start t s ps : (forall cl, sse_get_msg_type s cl = Some t -> held_tag t s) -> (forall p, In p ps -> ~ In (PRem t) p) -> tag_inv t s (map fstart ps).
Proof.
  intros H U. assert (M : forall u, In u (map fstart ps) -> exists p, In p ps /\ u = fstart p) by (intros u Hu; apply in_map_iff in Hu; destruct Hu as (p & <- & Hp); eauto).
  split; [|split; [exact H|split]].
  - intros u o Hu Ho ->. destruct (M u Hu) as (p & Hp & ->). exact (U p Hp Ho).
  - intros u Hu. destruct (M u Hu) as (p & _ & ->). intros cl c E. discriminate.
  - intros u a Hu Ha. destruct (M u Hu) as (p & _ & ->). contradiction.
Qed.
(* from a moment on at which t can be created *)
Lemma held_run t : forall sched s us s' us', fsteps sched s us = (s', us') -> keeps_tag t us -> held_tag t s ->
  held_tag t s' /\ forall i u, nth_error us i = Some u -> exists u' new, nth_error us' i = Some u' /\ fgot u' = fgot u ++ new /\ forall r, In (QCreate t r) new -> exists c, r = inr c.
Proof.
  induction sched as [|k sched IH]; intros s us s' us' S U H; cbn [fsteps] in S.
  - injection S as <- <-. split; auto. intros i u Hu. exists u, []. rewrite app_nil_r. repeat split; auto. intros r [].
  - pose proof (fstep_nth k s us) as N. pose proof (fstep_other k s us) as O. destruct (nth_error us k) as [w|] eqn:Hk; [|rewrite N in S; eapply IH; eauto]. destruct N as [N1 N2].
    pose proof (keeps_step t k s us w Hk U) as U1. destruct (fstep k s us) as [s1 us1]. cbn [fst snd] in *.
    assert (H1 : held_tag t s1) by (rewrite N1; apply held_tag_step; auto; intros o Ho; eapply U; eauto; eapply nth_error_In; eauto).
    destruct (IH s1 us1 s' us' S U1 H1) as [F IH1]. split; auto. intros i u Hu. destruct (PeanoNat.Nat.eq_dec i k) as [->|D]; [|apply IH1; rewrite O; auto].
    rewrite Hk in Hu. injection Hu as ->. destruct (IH1 k _ N2) as (u' & more & A & B & C).
    assert (G : exists one, fgot (snd (fthread_step s u)) = fgot u ++ one /\ forall r, In (QCreate t r) one -> exists c, r = inr c).
    { clear - H. unfold fthread_step. destruct u as [p [[[cl t'] c]|] g]; cbn [fmid ftodo fgot fst snd].
      - eexists. split; [reflexivity|]. intros r [X|[]]. discriminate.
      - destruct p as [|[cl t' c|t'|t'|cl] p]; cbn [fgot snd].
        + exists []. rewrite app_nil_r. split; auto. intros r [].
        + exists []. rewrite app_nil_r. split; auto. intros r [].
        + eexists. split; [reflexivity|]. intros r [X|[]]. discriminate.
        + eexists. split; [reflexivity|]. intros r [X|[]]. injection X as -> <-. unfold sse_create, create. unfold held_tag in H. destruct (f_get (body_map s) (KInt t)); [eauto|contradiction].
        + eexists. split; [reflexivity|]. intros r [X|[]]. discriminate. }
    destruct G as (one & G1 & G2). exists u', (one ++ more). split; auto. rewrite B, G1, app_assoc. split; auto. intros r Hr. apply in_app_iff in Hr. destruct Hr; eauto.
Qed.
Lemma fsteps_app a : forall b s us, fsteps (a ++ b) s us = let '(s1, us1) := fsteps a s us in fsteps b s1 us1.
Proof. induction a as [|i a IH]; intros b s us; cbn [fsteps app]; auto. destruct (fstep i s us). apply IH. Qed.
Theorem known_creates t sched s ps s1 us1 u a sched2 s2 us2 : fsteps sched s (map fstart ps) = (s1, us1) ->
  (forall cl, sse_get_msg_type s cl = Some t -> held_tag t s) -> (forall p, In p ps -> ~ In (PRem t) p) ->
  In u us1 -> In a (fgot u) -> knows t a -> fsteps sched2 s1 us1 = (s2, us2) ->
  forall i w, nth_error us1 i = Some w -> exists w' new, nth_error us2 i = Some w' /\ fgot w' = fgot w ++ new /\ forall r, In (QCreate t r) new -> exists c, r = inr c.
Proof.
  intros S H U Iu Ia Ka S2. pose proof (fsteps_keep (tag_inv t) (fun i s us u => tag_inv_step t i s us u) sched s (map fstart ps) (tag_inv_start t s ps H U)) as K.
  rewrite S in K. cbn [fst snd] in K. destruct K as (K1 & _ & _ & K4). exact (proj2 (held_run t sched2 s1 us1 s2 us2 S2 K1 (K4 u a Iu Ia Ka))).
Qed.
