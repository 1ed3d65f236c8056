(* Any number of threads in the checksum registry. *)
From Coq Require Import List Bool String Lia.
From Verif.Model Require Import Checksum Threads.
From Verif.Spec Require Import Private.
From Verif.Proofs Require Import RegistryFacts.
Import ListNotations.

Lemma step_nth i : forall c ts, match nth_error ts i with
  | Some t => fst (step i c ts) = fst (thread_step c t) /\ nth_error (snd (step i c ts)) i = Some (snd (thread_step c t))
  | None => step i c ts = (c, ts)
  end.
Proof.
  induction i as [|i IH]; intros c [|t ts]; cbn; auto; [destruct (thread_step c t); auto|]. specialize (IH c ts). destruct (nth_error ts i).
  - destruct (step i c ts). exact IH.
  - rewrite IH. reflexivity.
Qed.
Lemma step_other i : forall c ts j, j <> i -> nth_error (snd (step i c ts)) j = nth_error ts j.
Proof.
  induction i as [|i IH]; intros c [|t ts] [|j] N; cbn; auto; try congruence; try (destruct (thread_step c t); reflexivity); try (destruct (step i c ts) eqn:Q; reflexivity).
  specialize (IH c ts j ltac:(congruence)). destruct (step i c ts). exact IH.
Qed.
Lemma steps_app a : forall b c ts, steps (a ++ b) c ts = let '(c1, ts1) := steps a c ts in steps b c1 ts1.
Proof. induction a as [|i a IH]; intros b c ts; cbn; auto. destruct (step i c ts). apply IH. Qed.

(* an invariant that every step keeps *)
Lemma steps_keep (P : cache -> list thread -> Prop) : (forall i c ts t, nth_error ts i = Some t -> P c ts -> P (fst (step i c ts)) (snd (step i c ts))) ->
  forall sched c ts, P c ts -> P (fst (steps sched c ts)) (snd (steps sched c ts)).
Proof.
  intros H sched. induction sched as [|i sched IH]; intros c ts HP; cbn; auto. pose proof (step_nth i c ts) as N. destruct (nth_error ts i) as [t|] eqn:Q.
  - pose proof (H i c ts t Q HP) as K. destruct (step i c ts). apply IH. exact K.
  - rewrite N. apply IH. exact HP.
Qed.

(* ---- a name only one thread changes ---- *)
Definition coming (n : string) (c : cache) (t : thread) : list answer :=
  match mid t with
  | Some s => if String.eqb (algorithm s) n then AReg s true :: expected n (Some s) (todo t) else expected n (cache_get c n) (todo t)
  | None => expected n (cache_get c n) (todo t)
  end.
Definition quiet (n : string) (t : thread) : Prop := (forall o, In o (todo t) -> ~ touches n o) /\ (forall s, mid t = Some s -> algorithm s <> n).
Lemma own_step n c t : filter (about n) (got t) ++ coming n c t = filter (about n) (got (snd (thread_step c t))) ++ coming n (fst (thread_step c t)) (snd (thread_step c t)).
Proof.
  unfold thread_step, coming. destruct t as [p [s|] g]; cbn [mid todo got fst snd].
  - rewrite filter_app, <- app_assoc. cbn [filter about]. rewrite get_put. destruct (String.eqb (algorithm s) n); reflexivity.
  - destruct p as [|[s|m| |m] p]; [reflexivity| | | |].
    + destruct (cache_get c (algorithm s)) eqn:Q; cbn [fst snd mid todo got expected].
      * rewrite filter_app, <- app_assoc. cbn [filter about]. destruct (String.eqb_spec (algorithm s) n) as [<-|]; [rewrite Q|]; reflexivity.
      * destruct (String.eqb_spec (algorithm s) n) as [<-|]; [rewrite Q|]; reflexivity.
    + cbn [fst snd mid todo got expected]. rewrite filter_app, <- app_assoc. cbn [filter about]. unfold remove_service. rewrite get_remove. destruct (String.eqb m n); reflexivity.
    + cbn [fst snd mid todo got expected]. rewrite filter_app, <- app_assoc. reflexivity.
    + cbn [fst snd mid todo got expected]. rewrite filter_app, <- app_assoc. cbn [filter about]. unfold get_service. destruct (String.eqb_spec m n) as [->|]; reflexivity.
Qed.
Lemma quiet_step n c t : quiet n t -> quiet n (snd (thread_step c t)) /\ cache_get (fst (thread_step c t)) n = cache_get c n.
Proof.
  unfold thread_step. destruct t as [p [s|] g]; intros [Q1 Q2]; cbn [mid todo got fst snd] in *.
  - split; [split; [exact Q1|discriminate]|]. rewrite get_put. destruct (String.eqb_spec (algorithm s) n); auto. destruct (Q2 s eq_refl); auto.
  - destruct p as [|[s|m| |m] p]; [repeat split; auto; discriminate| | | |]; assert (Q3 := Q1 _ (or_introl eq_refl)); assert (Q4 := fun o H => Q1 o (or_intror H)); cbn [touches] in Q3.
    + destruct (cache_get c (algorithm s)); (split; [split|]); cbn; auto; try discriminate. intros s0 [= <-]. exact Q3.
    + split; [split; [exact Q4|discriminate]|]. cbn [fst]; unfold remove_service; rewrite get_remove. destruct (String.eqb_spec m n); auto. contradiction.
    + destruct Q3. exact I.
    + repeat split; auto; discriminate.
Qed.
Lemma private_run n i : forall sched c ts t, nth_error ts i = Some t -> (forall j u, nth_error ts j = Some u -> j <> i -> quiet n u) ->
  exists t', nth_error (snd (steps sched c ts)) i = Some t' /\ filter (about n) (got t) ++ coming n c t = filter (about n) (got t') ++ coming n (fst (steps sched c ts)) t'.
Proof.
  induction sched as [|k sched IH]; intros c ts t Ht Q; cbn [steps]; [eauto|]. pose proof (step_nth k c ts) as N. pose proof (step_other k c ts) as O.
  destruct (nth_error ts k) as [u|] eqn:Hk; [|rewrite N; apply IH; auto]. destruct N as [N1 N2]. destruct (step k c ts) as [c1 ts1]. cbn [fst snd] in *.
  destruct (PeanoNat.Nat.eq_dec k i) as [->|NE].
  - rewrite Hk in Ht. injection Ht as ->. destruct (IH c1 ts1 _ N2) as (t' & T1 & T2).
    + intros j w Hj D. rewrite O in Hj by auto. eauto.
    + exists t'. split; auto. rewrite <- T2, N1. apply own_step.
  - destruct (quiet_step n c u (Q k u Hk NE)) as [Q1 Q2]. destruct (IH c1 ts1 t) as (t' & T1 & T2).
    + rewrite O; auto.
    + intros j w Hj D. destruct (PeanoNat.Nat.eq_dec j k) as [->|D2]; [rewrite N2 in Hj; injection Hj as <-; exact Q1|]. rewrite O in Hj by auto. eauto.
    + exists t'. split; auto. rewrite <- T2. unfold coming. rewrite N1, Q2. reflexivity.
Qed.
Theorem private_answers n sched c ps i p c' ts' t : steps sched c (map start ps) = (c', ts') -> nth_error ps i = Some p -> nth_error ts' i = Some t ->
  (forall j q o, nth_error ps j = Some q -> j <> i -> In o q -> ~ touches n o) ->
  (exists later, expected n (get_service c n) p = filter (about n) (got t) ++ later) /\ (done t -> filter (about n) (got t) = expected n (get_service c n) p).
Proof.
  intros S Hp Ht Q. destruct (private_run n i sched c (map start ps) (start p)) as (t' & T1 & T2).
  - rewrite nth_error_map, Hp. reflexivity.
  - intros j u Hj D. rewrite nth_error_map in Hj. destruct (nth_error ps j) as [q|] eqn:Hq; [|discriminate]. injection Hj as <-. split; [intros o Ho; eapply Q; eauto|discriminate].
  - rewrite S in T1, T2. cbn [fst snd] in *. rewrite Ht in T1. injection T1 as <-. cbn [start got filter app] in T2. unfold coming in T2 at 1. cbn [start mid todo] in T2.
    split; [eexists; exact T2|]. intros [D1 D2]. change (get_service c n) with (cache_get c n). rewrite T2. unfold coming. rewrite D1, D2. cbn. rewrite app_nil_r. reflexivity.
Qed.

(* ---- where answers come from ---- *)
Definition told (ts : list thread) (s : service) : Prop := exists t, In t ts /\ In (AReg s true) (got t).
Definition origin (c0 : cache) (ts : list thread) (n : string) (s : service) : Prop := cache_get c0 n = Some s \/ (algorithm s = n /\ told ts s).
Lemma got_grows c t : exists new, got (snd (thread_step c t)) = got t ++ new.
Proof.
  unfold thread_step. destruct t as [p [s|] g]; cbn; [eauto|]. destruct p as [|[s|m| |m] p]; cbn; eauto; [exists []; rewrite app_nil_r; reflexivity|].
  destruct (cache_get c (algorithm s)); cbn; eauto. exists []. rewrite app_nil_r. reflexivity.
Qed.
Lemma told_step i c ts s : told ts s -> told (snd (step i c ts)) s.
Proof.
  intros (t & It & Ig). apply In_nth_error in It. destruct It as (j & Hj). pose proof (step_nth i c ts) as N. pose proof (step_other i c ts j) as O.
  destruct (PeanoNat.Nat.eq_dec j i) as [->|D].
  - rewrite Hj in N. destruct N as [_ N]. destruct (got_grows c t) as (new & G). exists (snd (thread_step c t)). split; [eapply nth_error_In; eauto|]. rewrite G. apply in_or_app. auto.
  - exists t. split; auto. eapply nth_error_In. rewrite O; eauto.
Qed.
Definition sourced (c0 : cache) (c : cache) (ts : list thread) : Prop :=
  (forall n s, cache_get c n = Some s -> origin c0 ts n s) /\ (forall t n s, In t ts -> In (AGet n (Some s)) (got t) -> origin c0 ts n s).
Lemma sourced_step c0 i c ts t : nth_error ts i = Some t -> sourced c0 c ts -> sourced c0 (fst (step i c ts)) (snd (step i c ts)).
Proof.
  intros Ht [S1 S2]. assert (UP : forall n s, origin c0 ts n s -> origin c0 (snd (step i c ts)) n s) by (intros n s [H|[H1 H2]]; [left; auto|right; split; auto; apply told_step; auto]).
  pose proof (step_nth i c ts) as N. rewrite Ht in N. destruct N as [N1 N2].
  assert (NEW : forall n s, cache_get (fst (thread_step c t)) n = Some s -> cache_get c n = Some s \/ (algorithm s = n /\ In (AReg s true) (got (snd (thread_step c t))))).
  { intros n s. unfold thread_step. destruct t as [p [u|] g]; cbn [mid todo got fst snd].
    - rewrite get_put. destruct (String.eqb_spec (algorithm u) n) as [<-|]; auto. intros [= <-]. right. split; auto. apply in_or_app. right. left. reflexivity.
    - destruct p as [|[u|m| |m] p]; auto; [destruct (cache_get c (algorithm u)); auto| |discriminate]. cbn. unfold remove_service. rewrite get_remove. destruct (String.eqb m n); [discriminate|auto]. }
  assert (ANS : forall n s, In (AGet n (Some s)) (got (snd (thread_step c t))) -> In (AGet n (Some s)) (got t) \/ cache_get c n = Some s).
  { intros n s. unfold thread_step. destruct t as [p [u|] g]; cbn [mid todo got fst snd].
    - rewrite in_app_iff. intros [H|[H|[]]]; auto. discriminate.
    - destruct p as [|[u|m| |m] p]; cbn [got]; auto.
      + destruct (cache_get c (algorithm u)); cbn [got snd]; auto. rewrite in_app_iff. intros [H|[H|[]]]; auto. discriminate.
      + cbn [got snd]. rewrite in_app_iff. intros [H|[H|[]]]; auto. discriminate.
      + cbn [got snd]. rewrite in_app_iff. intros [H|[H|[]]]; auto. discriminate.
      + cbn [got snd]. rewrite in_app_iff. intros [H|[H|[]]]; auto. injection H as <- <-. auto. }
  split.
  - intros n s H. rewrite N1 in H. destruct (NEW n s H) as [K|[K1 K2]]; [auto|]. right. split; auto. exists (snd (thread_step c t)). split; auto. eapply nth_error_In; eauto.
  - intros u n s Hu Ha. apply In_nth_error in Hu. destruct Hu as (j & Hj). destruct (PeanoNat.Nat.eq_dec j i) as [->|D].
    + rewrite N2 in Hj. injection Hj as <-. destruct (ANS n s Ha); eauto. apply UP. eapply S2; eauto. eapply nth_error_In; eauto.
    + rewrite step_other in Hj by auto. apply UP. eapply S2; eauto. eapply nth_error_In; eauto.
Qed.
Theorem get_origin sched c ps c' ts' t n s : steps sched c (map start ps) = (c', ts') -> In t ts' -> In (AGet n (Some s)) (got t) -> origin c ts' n s.
Proof.
  intros S It Ig. assert (K : sourced c (fst (steps sched c (map start ps))) (snd (steps sched c (map start ps)))).
  { apply (steps_keep (sourced c)); [intros i c0 ts t0 H; eapply sourced_step; eauto|]. split; [left; auto|]. intros u m r Hu Hr. apply in_map_iff in Hu. destruct Hu as (p & <- & _). contradiction. }
  rewrite S in K. exact (proj2 K t n s It Ig).
Qed.

(* ---- while no one frees the name ---- *)
Definition unfreed (n : string) (ts : list thread) : Prop := forall t o, In t ts -> In o (todo t) -> ~ freeing n o.
Lemma todo_step c t o : In o (todo (snd (thread_step c t))) -> In o (todo t).
Proof.
  unfold thread_step. destruct t as [p [s|] g]; cbn; auto. destruct p as [|[s|m| |m] p]; cbn; auto. destruct (cache_get c (algorithm s)); cbn; auto.
Qed.
Lemma unfreed_step n i c ts t : nth_error ts i = Some t -> unfreed n ts -> unfreed n (snd (step i c ts)).
Proof.
  intros Ht U u o Hu Ho. pose proof (step_nth i c ts) as N. rewrite Ht in N. destruct N as [_ N]. apply In_nth_error in Hu. destruct Hu as (j & Hj).
  destruct (PeanoNat.Nat.eq_dec j i) as [->|D]; [rewrite N in Hj; injection Hj as <-; apply todo_step in Ho; eapply U; eauto; eapply nth_error_In; eauto|].
  rewrite step_other in Hj by auto. eapply U; eauto. eapply nth_error_In; eauto.
Qed.
Lemma held_step n c t : (forall o, In o (todo t) -> ~ freeing n o) -> cache_get c n <> None -> cache_get (fst (thread_step c t)) n <> None.
Proof.
  unfold thread_step. destruct t as [p [s|] g]; cbn [mid todo got fst snd]; intros U H.
  - rewrite get_put. destruct (String.eqb (algorithm s) n); [discriminate|exact H].
  - destruct p as [|[s|m| |m] p]; auto; [destruct (cache_get c (algorithm s)); auto| |]; specialize (U _ (or_introl eq_refl)); cbn [freeing] in U.
    + cbn. unfold remove_service. rewrite get_remove. destruct (String.eqb_spec m n); [contradiction|exact H].
    + contradiction.
Qed.
(* answers of a thread from a moment on at which the name is taken *)
Definition taken_answers (n : string) (m : option service) (new : list answer) : Prop :=
  (forall r, In (AGet n r) new -> r <> None) /\ (forall s, In (AReg s true) new -> algorithm s = n -> m = Some s).
Lemma taken_step n c t m0 new : cache_get c n <> None -> (forall s, mid t = Some s -> algorithm s = n -> m0 = Some s) -> taken_answers n m0 new ->
  exists more, got (snd (thread_step c t)) = got t ++ more /\ taken_answers n m0 (new ++ more) /\ (forall s, mid (snd (thread_step c t)) = Some s -> algorithm s = n -> m0 = Some s).
Proof.
  intros H M [T1 T2]. assert (ONE : forall a, (forall r, a = AGet n r -> r <> None) -> (forall s, a = AReg s true -> algorithm s = n -> m0 = Some s) -> taken_answers n m0 (new ++ [a])).
  { intros a A1 A2. split.
    - intros r I. apply in_app_iff in I. destruct I as [I|[I|[]]]; eauto.
    - intros s I E. apply in_app_iff in I. destruct I as [I|[I|[]]]; eauto. }
  assert (NONE : taken_answers n m0 (new ++ [])) by (rewrite app_nil_r; split; auto).
  unfold thread_step. destruct t as [p [s|] g]; cbn [mid todo got fst snd] in *.
  - exists [AReg s true]. split; auto. split; [|discriminate]. apply ONE; [discriminate|]. intros s0 [= <-]. auto.
  - destruct p as [|[s|m| |m] p].
    + exists []. rewrite app_nil_r. cbn. repeat split; auto; try apply NONE.
    + destruct (cache_get c (algorithm s)) eqn:Q; cbn [got mid snd].
      * exists [AReg s false]. split; auto. split; [|discriminate]. apply ONE; discriminate.
      * exists []. rewrite app_nil_r. split; auto. split; [exact NONE|]. intros s0 [= <-] E. rewrite E in Q. contradiction.
    + exists [ARem m]. split; auto. split; [|discriminate]. apply ONE; discriminate.
    + exists [AClear]. split; auto. split; [|discriminate]. apply ONE; discriminate.
    + exists [AGet m (get_service c m)]. split; auto. split; [|discriminate]. apply ONE; [|discriminate]. intros r [= -> <-]. exact H.
Qed.
Theorem taken_run n : forall sched c ts c' ts', steps sched c ts = (c', ts') -> unfreed n ts -> get_service c n <> None ->
  get_service c' n <> None /\ forall i t, nth_error ts i = Some t -> exists t' new, nth_error ts' i = Some t' /\ got t' = got t ++ new /\ taken_answers n (mid t) new.
Proof.
  intros sched. assert (G : forall c ts c' ts', steps sched c ts = (c', ts') -> unfreed n ts -> get_service c n <> None ->
    get_service c' n <> None /\ forall i t m0 new, nth_error ts i = Some t -> (forall s, mid t = Some s -> algorithm s = n -> m0 = Some s) -> taken_answers n m0 new ->
    exists t' more, nth_error ts' i = Some t' /\ got t' = got t ++ more /\ taken_answers n m0 (new ++ more)).
  { induction sched as [|k sched IH]; intros c ts c' ts' S U H; cbn [steps] in S.
    - injection S as <- <-. split; auto. intros i t m0 new Ht _ T. exists t, []. rewrite !app_nil_r. auto.
    - pose proof (step_nth k c ts) as N. pose proof (step_other k c ts) as O. destruct (nth_error ts k) as [u|] eqn:Hk; [|rewrite N in S; eapply IH; eauto]. destruct N as [N1 N2].
      pose proof (unfreed_step n k c ts u Hk U) as U1. destruct (step k c ts) as [c1 ts1]. cbn [fst snd] in *.
      assert (H1 : get_service c1 n <> None) by (unfold get_service; rewrite N1; apply held_step; auto; intros o Ho; eapply U; eauto; eapply nth_error_In; eauto).
      destruct (IH c1 ts1 c' ts' S U1 H1) as [F IH1]. split; auto. intros i t m0 new Ht M T. destruct (PeanoNat.Nat.eq_dec i k) as [->|D].
      + rewrite Hk in Ht. injection Ht as ->. destruct (taken_step n c t m0 new H M T) as (more & G1 & G2 & G3). destruct (IH1 k _ m0 (new ++ more) N2 G3 G2) as (t' & more2 & R1 & R2 & R3).
        exists t', (more ++ more2). rewrite !app_assoc. rewrite R2, G1. auto.
      + apply (IH1 i t m0 new); auto. rewrite O; auto. }
  intros c ts c' ts' S U H. destruct (G c ts c' ts' S U H) as [F K]. split; auto. intros i t Ht. destruct (K i t (mid t) [] Ht) as (t' & more & A & B & D); auto; [split; intros ? []|]. eauto.
Qed.
(* a name about which a registration was answered, or a query found a service, is taken from then on *)
Definition mentions (n : string) (a : answer) : Prop := match a with AReg s _ => algorithm s = n | AGet m r => m = n /\ r <> None | _ => False end.
Theorem answered_taken n sched c ps c' ts' t a : steps sched c (map start ps) = (c', ts') -> (forall p o, In p ps -> In o p -> ~ freeing n o) ->
  In t ts' -> In a (got t) -> mentions n a -> get_service c' n <> None.
Proof.
  intros S U It Ia M. set (P := fun c ts => unfreed n ts /\ forall t a, In t ts -> In a (got t) -> mentions n a -> cache_get c n <> None).
  assert (K : P (fst (steps sched c (map start ps))) (snd (steps sched c (map start ps)))).
  { apply (steps_keep P).
    - intros i c0 ts u Hu [P1 P2]. pose proof (unfreed_step n i c0 ts u Hu P1) as U1. pose proof (step_nth i c0 ts) as N. rewrite Hu in N. destruct N as [N1 N2]. split; auto.
      assert (HU : forall o, In o (todo u) -> ~ freeing n o) by (intros o Ho; eapply P1; eauto; eapply nth_error_In; eauto).
      intros w x Hw Hx Mx. rewrite N1. apply In_nth_error in Hw. destruct Hw as (j & Hj). destruct (PeanoNat.Nat.eq_dec j i) as [->|D].
      + rewrite N2 in Hj. injection Hj as <-. assert (OLD : In x (got u) -> cache_get (fst (thread_step c0 u)) n <> None) by (intros I; apply held_step; auto; eapply P2; eauto; eapply nth_error_In; eauto).
        clear - Hx Mx OLD HU. unfold thread_step in *. destruct u as [p [s|] g]; cbn [mid todo got fst snd] in *.
        * apply in_app_iff in Hx. destruct Hx as [Hx|[<-|[]]]; auto. cbn in Mx. subst n. rewrite get_put, String.eqb_refl. discriminate.
        * destruct p as [|[s|m| |m] p]; auto.
          -- destruct (cache_get c0 (algorithm s)) eqn:Q; cbn [got snd fst] in *; auto. apply in_app_iff in Hx. destruct Hx as [Hx|[<-|[]]]; auto. cbn in Mx. subst n. congruence.
          -- cbn [got snd fst] in *. apply in_app_iff in Hx. destruct Hx as [Hx|[<-|[]]]; [auto|destruct Mx].
          -- cbn [got snd fst] in *. apply in_app_iff in Hx. destruct Hx as [Hx|[<-|[]]]; [auto|destruct Mx].
          -- cbn [got snd fst] in *. apply in_app_iff in Hx. destruct Hx as [Hx|[<-|[]]]; auto. destruct Mx as [<- Mx]. exact Mx.
      + rewrite step_other in Hj by auto. apply held_step; auto. eapply P2; eauto. eapply nth_error_In; eauto.
    - split; [|intros u x Hu Hx; apply in_map_iff in Hu; destruct Hu as (p & <- & _); contradiction]. intros u o Hu Ho. apply in_map_iff in Hu. destruct Hu as (p & <- & Hp). eauto. }
  rewrite S in K. destruct K as [_ K]. eapply K; eauto.
Qed.
Lemma unfreed_run n sched c ps : (forall p o, In p ps -> In o p -> ~ freeing n o) -> unfreed n (snd (steps sched c (map start ps))).
Proof.
  intros U. apply (steps_keep (fun _ ts => unfreed n ts)); [intros i c0 ts t H; eapply unfreed_step; eauto|]. intros u o Hu Ho. apply in_map_iff in Hu. destruct Hu as (p & <- & Hp). eauto.
Qed.
