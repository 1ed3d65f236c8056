(* encode while the registry changes (Model/RegistryThreads.v). *)
From Coq Require Import ZArith List Bool String Lia.
From Verif.Model Require Import JavaPrim ByteBuf Utf8 Codec Checksum Ast Interp Factory Heap EncodeThreads Threads RegistryThreads.
From Verif.Spec Require Import Sharing Registries.
From Verif.Proofs Require Import HeapFacts HeapFrame EncodeThreadFacts EncodeSteps EncodeRace EncodeEnds.
Import ListNotations.
Open Scope list_scope.

Definition nosum (s : estmt) : bool := match s with ESum _ _ => false | _ => true end.
(* no call, and the registry is not asked *)
Definition simple (s : estmt) : bool := match s with ESum _ _ | EObj _ | EObjOpt _ | EList _ _ _ _ _ _ _ => false | _ => true end.
(* nothing but simple statements after the registry was asked; what it is asked for satisfies P *)
Fixpoint late (P : string -> Prop) (ss : list estmt) : Prop := match ss with [] => True | ESum a _ :: r => P a /\ forallb simple r = true | _ :: r => late P r end.

Section Facts.
  Variable C : list (string * class_def).
  Variable W : factories.
  Notation now c := (env_of C W c).
  Variable c0 : cache.
  Notation E := (now c0).
  Variable h0 : heap.
  Variable l : nat.
  Hypothesis CP : calm_parts E h0 l.
  Variable P0 : string -> Prop.

  Definition part (m : nat) : Prop := exists f, reach h0 (field h0 l f) m.
  Definition okv (v : hval) : Prop := match v with HRef m => part m | _ => True end.
  Definition kind_at (h : heap) (m : nat) : option string := match nth_error h m with Some (CObj c _) => Some c | _ => None end.
  Record tidy (h : heap) : Prop := {
    t_kind : forall m, kind_at h m = kind_at h0 m;
    t_part : forall m f, part m -> okv (field h m f);
    t_root : forall f, okv (field h l f);
    t_list : forall v vs, okv v -> elements h v = Some vs -> Forall okv vs
  }.
  Lemma okv_reach v : (forall m, reach h0 v m -> part m) -> okv v.
  Proof. destruct v; cbn; auto. intros H. apply H. constructor. Qed.
  Lemma hget_in f (fs : list (string * hval)) : In (f, hget f fs) fs \/ hget f fs = HNull.
  Proof. induction fs as [|[k v] fs IH]; cbn; auto. destruct (String.eqb_spec f k) as [->|]; [left; auto|]. destruct IH; auto. Qed.
  Lemma tidy0 : tidy h0.
  Proof.
    split; [reflexivity| | |].
    - intros m f (g & R). unfold field. destruct (nth_error h0 m) as [[c fs|vs]|] eqn:Q; try exact Logic.I. destruct (hget_in f fs) as [I| ->]; [|exact Logic.I].
      destruct (hget f fs) as [|z|z|s|n] eqn:V; try exact Logic.I. exists g. eapply reach_points; [exact R|exact Q|]. exists f. exact I.
    - intros f. destruct (field h0 l f) as [|z|z|s|n] eqn:V; try exact Logic.I. exists f. rewrite V. constructor.
    - intros v vs O EL. destruct v as [|z|z|s|m]; try discriminate EL. cbn in EL. destruct (nth_error h0 m) as [[c fs|ws]|] eqn:Q; try discriminate EL. injection EL as ->. apply Forall_forall. intros x I. destruct x as [|z|z|s|n]; try exact Logic.I.
      destruct O as (g & R). exists g. eapply reach_points; [exact R|exact Q|]. exact I.
  Qed.
  Lemma tidy_shrinks h h' : tidy h -> shrinks h h' -> tidy h'.
  Proof.
    intros T [->|(m & f & x & SX & ->)]; [exact T|]. destruct T as [T1 T2 T3 T4]. assert (OX : okv x) by (destruct x; try exact Logic.I; contradiction). split.
    - intros n. unfold kind_at. rewrite put_kind. apply T1.
    - intros n g P. destruct (put_field_cases h m f x n g) as [->| ->]; auto.
    - intros g. destruct (put_field_cases h m f x l g) as [->| ->]; auto.
    - intros v vs O. rewrite put_elements. apply T4. exact O.
  Qed.
  Lemma part_quiet h m cn fs cd c : tidy h -> part m -> nth_error h m = Some (CObj cn fs) -> find_class (now c) cn = Some cd -> forallb nosum (c_enc cd) = true.
  Proof.
    intros T (f & R) Q K. pose proof (t_kind h T m) as KA. unfold kind_at in KA. rewrite Q in KA. destruct (nth_error h0 m) as [[c' gs|vs]|] eqn:Q0; try discriminate. injection KA as <-.
    pose proof (CP f m cn gs R Q0) as F. unfold frame_class in F. change (find_class E cn) with (find_class (now c) cn) in F. rewrite K in F. apply forallb_forall. intros s I. destruct s; try reflexivity.
    exfalso. enough (existsb assigner (c_enc cd) = true) by congruence. apply existsb_exists. eexists. split; [exact I|reflexivity].
  Qed.

  Definition fair (i : item) : Prop := match i with Body m ss _ => part m /\ forallb nosum ss = true | Loop _ vs => Forall okv vs end.
  (* the registry has not been asked *)
  Definition before (t : encoder) : Prop := stack t = [] \/ exists k ss loc, stack t = k ++ [Body l ss loc] /\ Forall fair k /\ late P0 ss.
  (* it has been asked, or never will be *)
  Definition after (t : encoder) : Prop := stack t = [] \/ exists ss loc, stack t = [Body l ss loc] /\ forallb simple ss = true.

  Lemma simple_stmt enc enc' sums sums' this s st : simple s = true -> hexec_estmt enc sums this s st = hexec_estmt enc' sums' this s st.
  Proof. destruct s; try discriminate; reflexivity. Qed.
  Lemma simple_all enc enc' sums sums' this : forall ss st, forallb simple ss = true -> hexec_enc enc sums this ss st = hexec_enc enc' sums' this ss st.
  Proof.
    induction ss as [|s ss IH]; intros st H; [reflexivity|]. cbn [forallb] in H. apply andb_true_iff in H. destruct H as [H1 H2]. cbn [hexec_enc]. rewrite (simple_stmt enc enc' sums sums' this s st H1).
    destruct (hexec_estmt enc' sums' this s st) as [[e|] st']; [reflexivity|]. apply IH. exact H2.
  Qed.
  Lemma after_same h t c c' : after t -> outcome (now c) h t = outcome (now c') h t.
  Proof.
    unfold outcome. intros A. destruct (ended t); [reflexivity|]. destruct A as [->|(ss & loc & -> & S)]; [reflexivity|]. cbn [rest].
    rewrite (simple_all (hencode (now c) (room t)) (hencode (now c') (room t)) (checksum (now c)) (checksum (now c')) l ss (h, loc, out t) S). reflexivity.
  Qed.
  (* a statement that is not the question *)
  Lemma nosum_stmt c c' this s st : nosum s = true -> hexec_estmt no_call (checksum (now c)) this s st = hexec_estmt no_call (checksum (now c')) this s st.
  Proof. destruct s; try discriminate; reflexivity. Qed.

  Lemma enter_before h v k ss loc t c : tidy h -> okv v -> ended t = None -> Forall fair k -> late P0 ss -> before (enter (now c) h v (k ++ [Body l ss loc]) t).
  Proof.
    intros T O EN F L. unfold enter, before. destruct v as [|z|z|s|m]; [left; reflexivity|destruct (room t); left; reflexivity..|]. destruct (room t) as [|d]; [left; reflexivity|].
    destruct (nth_error h m) as [[cn fs|vs]|] eqn:Q; try (left; reflexivity). destruct (find_class (now c) cn) as [cd|] eqn:K; [|left; reflexivity]. right. cbn [stack].
    exists (Body m (c_enc cd) [] :: k), ss, loc. split; [reflexivity|]. split; [|exact L]. constructor; [|exact F]. split; [exact O|]. eapply part_quiet; eauto.
  Qed.
  Lemma goes_before k ss loc d e b : Forall fair k -> late P0 ss -> before (goes_on (k ++ [Body l ss loc]) d e b).
  Proof. intros F L. destruct e; [left; reflexivity|]. right. exists k, ss, loc. auto. Qed.

  (* one step of the thread: the same whatever is registered, or the question *)
  Definition asks (t : encoder) : Prop := ended t = None /\ exists a f r loc, stack t = [Body l (ESum a f :: r) loc].
  (* a statement of an object whose parts are parts of the message; [K]: the stack below, without the statement *)
  Lemma stmt_step h t c this s r loc (K : list (string * nat) -> list item) :
    tidy h -> ended t = None -> stack t = Body this (s :: r) loc :: skipn 1 (K loc) -> (forall lc, K lc = Body this r lc :: skipn 1 (K loc)) -> nosum s = true -> (forall f, okv (field h this f)) ->
    (forall lc d e b, before (goes_on (K lc) d e b)) -> (forall v, okv v -> before (enter (now c) h v (K loc) t)) -> (forall x vs d e b, Forall okv vs -> before (goes_on (Loop x vs :: K loc) d e b)) ->
    (forall d b, before {| stack := K loc; room := d; out := b; ended := None |}) ->
    let '(h', t') := encoder_step (now c) h t in (forall c', encoder_step (now c') h t = (h', t')) /\ before t'.
  Proof.
    intros T EN ST KE NS OF GO EN' LO PL. unfold encoder_step. rewrite EN, ST.
    assert (PLAIN : match s with EObj _ | EObjOpt _ | EList _ _ _ _ _ _ _ => False | _ => True end -> let '(h', t') := (let '(e, (g, loc', b)) := hexec_estmt no_call (checksum (now c)) this s (h, loc, out t) in (g, goes_on (Body this r loc' :: skipn 1 (K loc)) (room t) e b)) in
      (forall c', (let '(e, (g, loc', b)) := hexec_estmt no_call (checksum (now c')) this s (h, loc, out t) in (g, goes_on (Body this r loc' :: skipn 1 (K loc)) (room t) e b)) = (h', t')) /\ before t').
    { intros _. destruct (hexec_estmt no_call (checksum (now c)) this s (h, loc, out t)) as [e [[g lc] b]] eqn:X. split.
      - intros c'. rewrite (nosum_stmt c' c this s _ NS), X. reflexivity.
      - rewrite <- KE. apply GO. }
    destruct s as [n o f|n o f|f len pad lft|f zn zo n o|f zn zo ct n o x|f|f|y|n o|f y z|n o y f|a f]; try discriminate NS; try (apply PLAIN; exact Logic.I).
    - destruct (field h this f) as [|z|z|u|m] eqn:V;
        try (destruct (elements h _) as [[|w ws]|] eqn:EL; [destruct (write_int zo zn 0 (out t)) as [e b]|destruct (write_int o n _ (out t)) as [e b]|]);
        try (destruct (write_int zo zn 0 (out t)) as [e b]).
      all: rewrite <- (KE loc); split; [reflexivity|]; try apply GO.
      all: apply LO; eapply (t_list h T); [|exact EL]; try exact Logic.I. rewrite <- V. apply OF.
    - rewrite <- (KE loc). split; [reflexivity|]. apply EN'. apply OF.
    - rewrite <- (KE loc). pose proof (OF f) as O. destruct (field h this f) as [|z|z|u|m] eqn:V; (split; [reflexivity|]); first [apply PL|apply EN'; exact O].
  Qed.
  Lemma step_before h t c : tidy h -> before t -> ~ asks t -> let '(h', t') := encoder_step (now c) h t in (forall c', encoder_step (now c') h t = (h', t')) /\ before t' /\ tidy h'.
  Proof.
    intros T B NA. destruct (encoder_step (now c) h t) as [h' t'] eqn:ST.
    enough (X : (forall c', encoder_step (now c') h t = (h', t')) /\ before t').
    { destruct X as [X1 X2]. split; [exact X1|]. split; [exact X2|]. destruct (step_weight (now c) h t h' t' ST) as [SH _]. eapply tidy_shrinks; eauto. }
    destruct (ended t) as [e|] eqn:EN.
    { unfold encoder_step in *. rewrite EN in *. injection ST as <- <-. split; [reflexivity|exact B]. }
    destruct B as [Q|(k & ss & loc & Q & F & L)].
    { unfold encoder_step in *. rewrite EN, Q in *. injection ST as <- <-. split; [reflexivity|left; reflexivity]. }
    destruct k as [|i k].
    - (* the message itself *)
      cbn [app] in Q. destruct ss as [|s r].
      + unfold encoder_step in *. rewrite EN, Q in *. injection ST as <- <-. split; [reflexivity|left; reflexivity].
      + assert (NS : nosum s = true) by (destruct s; try reflexivity; exfalso; apply NA; split; [exact EN|]; do 4 eexists; exact Q). assert (LR : late P0 r) by (destruct s; try exact L; discriminate NS).
        pose proof (stmt_step h t c l s r loc (fun lc => [Body l r lc]) T EN Q (fun lc => eq_refl) NS (t_root h T)) as SS. rewrite ST in SS. apply SS.
        * intros lc d e b. apply (goes_before [] r lc d e b); auto.
        * intros v O. apply (enter_before h v [] r loc t c); auto.
        * intros x vs d e b O. apply (goes_before [Loop x vs] r loc d e b); auto.
        * intros d b. right. exists [], r, loc. auto.
    - inversion F as [|? ? Fi Fk]; subst. destruct i as [m [|s r] lc|x [|v vs]]; cbn [app] in Q.
      + unfold encoder_step in *. rewrite EN, Q in *. injection ST as <- <-. split; [reflexivity|]. right. exists k, ss, loc. auto.
      + destruct Fi as [P NS]. cbn [forallb] in NS. apply andb_true_iff in NS. destruct NS as [NS NR].
        pose proof (stmt_step h t c m s r lc (fun lc => Body m r lc :: k ++ [Body l ss loc]) T EN Q (fun lc => eq_refl) NS (fun f => t_part h T m f P)) as SS. rewrite ST in SS.
        assert (FB : forall lc, Forall fair (Body m r lc :: k)) by (intros lc'; constructor; [split; auto|exact Fk]). apply SS.
        * intros lc' d e b. apply (goes_before (Body m r lc' :: k) ss loc d e b); auto.
        * intros v O. apply (enter_before h v (Body m r lc :: k) ss loc t c); auto.
        * intros x vs d e b O. apply (goes_before (Loop x vs :: Body m r lc :: k) ss loc d e b); [constructor; [exact O|apply FB]|exact L].
        * intros d b. right. exists (Body m r lc :: k), ss, loc. auto.
      + unfold encoder_step in *. rewrite EN, Q in *. injection ST as <- <-. split; [reflexivity|]. right. exists k, ss, loc. auto.
      + inversion Fi as [|? ? Ov Ovs]; subst. assert (FL : Forall fair (Loop x vs :: k)) by (constructor; auto). unfold encoder_step in *. rewrite EN, Q in *.
        destruct x; try (injection ST as <- <-; split; [reflexivity|]; apply (enter_before h v (Loop XObj vs :: k) ss loc t c); auto; fail).
        all: split; [intros c'; exact ST|]; destruct (henc_elem no_call _ h v (out t)) as [[e g] b]; injection ST as <- <-; apply (goes_before (Loop _ vs :: k) ss loc (room t) e b); auto.
  Qed.
  Lemma step_asks h t c : before t -> asks t -> let '(h', t') := encoder_step (now c) h t in after t'.
  Proof.
    intros B (EN & a & f & r & loc & Q). assert (S : forallb simple r = true).
    { destruct B as [X|(k & ss & lc & X & F & L)]; rewrite Q in X; [discriminate|]. destruct k as [|i k]; cbn in X; [injection X as <- _; exact (proj2 L)|]. injection X as _ X. destruct k; discriminate. }
    unfold encoder_step. rewrite EN, Q. destruct (hexec_estmt no_call _ l (ESum a f) (h, loc, out t)) as [e [[g lc] b]]. destruct e; [left; reflexivity|]. right. exists r, lc. auto.
  Qed.
  Lemma step_after h t c : after t -> let '(h', t') := encoder_step (now c) h t in after t'.
  Proof.
    intros A. unfold encoder_step. destruct (ended t); [exact A|]. destruct A as [->|(ss & loc & -> & S)]; [left; reflexivity|]. destruct ss as [|s r]; [left; reflexivity|].
    cbn [forallb] in S. apply andb_true_iff in S. destruct S as [S1 S2].
    assert (G : forall lc d e b, after (goes_on [Body l r lc] d e b)) by (intros lc d e b; destruct e; [left; reflexivity|right; exists r, lc; auto]).
    destruct s; try discriminate S1; match goal with |- context [hexec_estmt ?x ?y ?z ?u ?w] => destruct (hexec_estmt x y z u w) as [e [[g lc] b]] end; apply G.
  Qed.
  Lemma asks_dec t : asks t \/ ~ asks t.
  Proof.
    unfold asks. destruct (ended t); [right; intros [X _]; discriminate|]. destruct (stack t) as [|[m [|s r] loc|x vs] [|j k]]; try (right; intros (_ & a & f & r' & lc & X); discriminate).
    destruct s; try (right; intros (_ & a' & f' & r' & lc & X); discriminate). destruct (PeanoNat.Nat.eq_dec m l) as [->|N]; [left; split; [reflexivity|]; do 4 eexists; reflexivity|right; intros (_ & a' & f' & r' & lc & X); congruence].
  Qed.

  Lemma asks_said t : before t -> asks t -> exists a f r loc, stack t = [Body l (ESum a f :: r) loc] /\ P0 a.
  Proof.
    intros B (EN & a & f & r & loc & Q). exists a, f, r, loc. split; [exact Q|]. destruct B as [X|(k & ss & lc & X & F & L)]; rewrite Q in X; [discriminate|]. destruct k as [|i k]; cbn in X; [injection X as <- _; exact (proj1 L)|]. injection X as _ X. destruct k; discriminate.
  Qed.
  Lemma step_after_same h t c c' : after t -> encoder_step (now c) h t = encoder_step (now c') h t.
  Proof.
    intros A. unfold encoder_step. destruct (ended t); [reflexivity|]. destruct A as [->|(ss & loc & -> & S)]; [reflexivity|]. destruct ss as [|s r]; [reflexivity|].
    cbn [forallb] in S. apply andb_true_iff in S. destruct S as [S1 _]. destruct s; try discriminate S1; reflexivity.
  Qed.
  (* a run in which the services it asks for stay as they are *)
  Lemma same_run : forall sched c ts h t c' ts' h' t', (tidy h /\ before t) \/ after t -> (forall x a, In x (registries sched c ts) -> P0 a -> get_service x a = get_service c0 a) ->
    mixed_run C W sched c ts h t = (c', ts', h', t') -> outcome E h' t' = outcome E h t.
  Proof.
    induction sched as [|[|i] sched IH]; intros c ts h t c' ts' h' t' S I R; cbn [mixed_run registries] in *.
    - injection R as _ _ <- <-. reflexivity.
    - assert (ST : encoder_step (now c) h t = encoder_step E h t).
      { destruct S as [[T B]|A]; [|apply step_after_same; exact A]. destruct (asks_dec t) as [AK|NA].
        - destruct (asks_said t B AK) as (a & f & r & loc & Q & Pa). unfold encoder_step. rewrite (proj1 AK), Q. cbn [hexec_estmt]. cbn [checksum env_of]. rewrite (I c a (or_introl eq_refl) Pa). reflexivity.
        - pose proof (step_before h t c T B NA) as X. destruct (encoder_step (now c) h t) as [g u]. symmetry. apply (proj1 X). }
      assert (S' : let '(g, u) := encoder_step (now c) h t in (tidy g /\ before u) \/ after u).
      { destruct S as [[T B]|A].
        - destruct (asks_dec t) as [AK|NA].
          + pose proof (step_asks h t c B AK) as A. destruct (encoder_step (now c) h t) as [g u]. right. exact A.
          + pose proof (step_before h t c T B NA) as X. destruct (encoder_step (now c) h t) as [g u]. left. split; apply X.
        - pose proof (step_after h t c A) as A'. destruct (encoder_step (now c) h t) as [g u]. right. exact A'. }
      destruct (encoder_step (now c) h t) as [g u]. rewrite (IH c ts g u c' ts' h' t' S'); [|intros x a Ix; apply I; right; exact Ix|exact R]. symmetry in ST. apply (outcome_step E h t g u ST).
    - destruct (step i c ts) as [d us]. cbn [fst snd] in I. eapply IH; eauto.
  Qed.

  (* ---- a run ---- *)
  Variable v0 : option exn * heap * bytebuf -> cache -> Prop.   (* the outcome from the start with the registry c *)
  Definition stage (seen : list cache) (h : heap) (t : encoder) : Prop :=
    (tidy h /\ before t /\ forall c, v0 (outcome (now c) h t) c) \/ (after t /\ exists c, In c seen /\ forall c', v0 (outcome (now c') h t) c).
  Lemma stage_step seen h t c : stage seen h t -> In c seen -> let '(h', t') := encoder_step (now c) h t in stage seen h' t'.
  Proof.
    intros S I. destruct (encoder_step (now c) h t) as [h' t'] eqn:ST. destruct S as [(T & B & O)|(A & cs & Ic & O)].
    - destruct (asks_dec t) as [AK|NA].
      + pose proof (step_asks h t c B AK) as A. rewrite ST in A. right. split; [exact A|]. exists c. split; [exact I|]. intros c'. rewrite (after_same h' t' c' c A), (outcome_step (now c) h t h' t' ST). apply O.
      + pose proof (step_before h t c T B NA) as X. rewrite ST in X. destruct X as (X & B' & T'). left. split; [exact T'|]. split; [exact B'|]. intros c'. rewrite (outcome_step (now c') h t h' t' (X c')). apply O.
    - pose proof (step_after h t c A) as A'. rewrite ST in A'. right. split; [exact A'|]. exists cs. split; [exact Ic|]. intros c'. rewrite (after_same h' t' c' c A'), (outcome_step (now c) h t h' t' ST). apply O.
  Qed.
  Lemma stage_run : forall sched seen c ts h t c' ts' h' t', stage seen h t -> incl (registries sched c ts) seen -> mixed_run C W sched c ts h t = (c', ts', h', t') -> stage seen h' t'.
  Proof.
    induction sched as [|[|i] sched IH]; intros seen c ts h t c' ts' h' t' S I R; cbn [mixed_run registries] in *.
    - injection R as _ _ <- <-. exact S.
    - pose proof (stage_step seen h t c S (I c (or_introl eq_refl))) as S'. destruct (encoder_step (now c) h t) as [g u]. eapply IH; [exact S'| |exact R]. intros x Ix. apply I. right. exact Ix.
    - destruct (step i c ts) as [d us]. cbn [fst snd] in I. eapply IH; eauto.
  Qed.
End Facts.

Lemma mixed_ends C W : forall sched c ts h t c' ts' h' t' n, mixed_run C W sched c ts h t = (c', ts', h', t') -> (weight (env_of C W c) h t <= n)%nat -> (n <= List.length (registries sched c ts))%nat -> ended t' <> None.
Proof.
  induction sched as [|[|i] sched IH]; intros c ts h t c' ts' h' t' n R Wt N; cbn [mixed_run registries] in *.
  - injection R as _ _ _ <-. unfold weight in Wt. destruct (ended t); [discriminate|]. cbn in N. lia.
  - destruct (encoder_step (env_of C W c) h t) as [g u] eqn:ST. destruct (step_weight (env_of C W c) h t g u ST) as (_ & DEC & STAY). cbn [List.length] in N. destruct n as [|n].
    + apply (IH c ts g u c' ts' h' t' 0%nat R); [|lia]. destruct (ended t) eqn:EN; [|unfold weight in Wt; rewrite EN in Wt; lia]. rewrite STAY by discriminate. unfold weight. rewrite EN. lia.
    + apply (IH c ts g u c' ts' h' t' n R); [|lia]. destruct (ended t) eqn:EN; [|specialize (DEC eq_refl); lia]. rewrite STAY by discriminate. unfold weight. rewrite EN. lia.
  - destruct (step i c ts) as [d us]. cbn [fst snd] in N. apply (IH d us h t c' ts' h' t' n R); [exact Wt|exact N].
Qed.
