(* Threads that encode (Model/EncodeThreads.v) end: a bound on the steps a thread still has to make. *)
From Coq Require Import ZArith List Bool String Lia.
From Verif.Model Require Import JavaPrim ByteBuf Utf8 Codec Ast Interp Heap EncodeThreads.
From Verif.Proofs Require Import HeapFacts EncodeSteps EncodeRace.
Import ListNotations.

Section Ends.
  Variable E : env.
  Definition sum {A : Type} (f : A -> nat) (l : list A) : nat := fold_right (fun x n => S (f x + n)) 0%nat l.
  Lemma sum_le {A : Type} (f g : A -> nat) l : (forall x, In x l -> f x <= g x)%nat -> (sum f l <= sum g l)%nat.
  Proof. induction l as [|x l IH]; intros H; cbn; [lia|]. pose proof (H x (or_introl eq_refl)). specialize (IH (fun y I => H y (or_intror I))). unfold sum in *. lia. Qed.

  Definition inside (C : hval -> nat) (h : heap) (this : nat) (s : estmt) : nat :=
    match s with
    | EObj f | EObjOpt f => C (field h this f)
    | EList f _ _ _ _ _ _ => match elements h (field h this f) with Some vs => S (sum C vs) | None => 0%nat end
    | _ => 0%nat
    end.
  Fixpoint cost (d : nat) (h : heap) (v : hval) : nat :=
    match d, v with
    | S d', HRef l => match nth_error h l with
                      | Some (CObj c _) => match find_class E c with Some cd => S (sum (inside (cost d' h) h l) (c_enc cd)) | None => 0%nat end
                      | _ => 0%nat
                      end
    | _, _ => 0%nat
    end.
  Fixpoint due (h : heap) (k : list item) (d : nat) : nat :=
    match k with
    | [] => 0%nat
    | Body this ss _ :: k' => (S (sum (inside (cost d h) h this) ss) + due h k' (S d))%nat
    | Loop x vs :: k' => (S (sum (cost d h) vs) + due h k' d)%nat
    end.
  Definition weight (h : heap) (t : encoder) : nat := match ended t with Some _ => 0%nat | None => S (due h (stack t) (room t)) end.

  (* an assignment of a number, a string or null makes nothing longer *)
  Definition single (v : hval) : Prop := match v with HRef _ => False | _ => True end.
  Definition shrinks (h h' : heap) : Prop := h' = h \/ exists l f x, single x /\ h' = put_field h l f x.
  Lemma put_kind h l f x m : match nth_error (put_field h l f x) m with Some (CObj c _) => Some c | _ => None end = match nth_error h m with Some (CObj c _) => Some c | _ => None end.
  Proof.
    destruct (PeanoNat.Nat.eq_dec m l) as [->|N]; [|rewrite put_off by exact N; reflexivity]. destruct (nth_error h l) as [[c fs|vs]|] eqn:Q.
    - rewrite (put_at h l f x c fs Q). reflexivity.
    - unfold put_field. rewrite Q, Q. reflexivity.
    - unfold put_field. rewrite Q, Q. reflexivity.
  Qed.
  Lemma put_elements h l f x v : elements (put_field h l f x) v = elements h v.
  Proof.
    destruct v as [|z|z|s|m]; try reflexivity. cbn. destruct (PeanoNat.Nat.eq_dec m l) as [->|N]; [|rewrite put_off by exact N; reflexivity]. destruct (nth_error h l) as [[c fs|vs]|] eqn:Q.
    - rewrite (put_at h l f x c fs Q). reflexivity.
    - unfold put_field. rewrite Q, Q. reflexivity.
    - unfold put_field. rewrite Q, Q. reflexivity.
  Qed.
  Lemma hget_set f x g (l : list (string * hval)) : hget g (hset f x l) = hget g l \/ hget g (hset f x l) = x.
  Proof.
    induction l as [|[k v] l IH]; cbn; auto. destruct (String.eqb f k) eqn:K; cbn; destruct (String.eqb g k); auto.
  Qed.
  Lemma put_field_cases h l f x m g : field (put_field h l f x) m g = field h m g \/ field (put_field h l f x) m g = x.
  Proof.
    unfold field. destruct (PeanoNat.Nat.eq_dec m l) as [->|N]; [|rewrite put_off by exact N; auto]. destruct (nth_error h l) as [[c fs|vs]|] eqn:Q.
    - rewrite (put_at h l f x c fs Q). apply hget_set.
    - unfold put_field. rewrite Q, Q. auto.
    - unfold put_field. rewrite Q, Q. auto.
  Qed.
  Lemma inside_le (C C' : hval -> nat) h h' this s : shrinks h h' -> (forall v, C' v <= C v)%nat -> (forall x, single x -> C' x = 0%nat) -> (inside C' h' this s <= inside C h this s)%nat.
  Proof.
    intros SH LE ZE. assert (EL : forall v, elements h' v = elements h v) by (destruct SH as [->|(l & f & z & _ & ->)]; [reflexivity|apply put_elements]).
    assert (FI : forall f, field h' this f = field h this f \/ single (field h' this f)) by (intros g; destruct SH as [->|(l & f & x & SX & ->)]; [auto|destruct (put_field_cases h l f x this g) as [Q|Q]; rewrite Q; auto]).
    destruct s; cbn; try lia.
    - destruct (FI f) as [->|SX]; [|destruct (field h' this f); try contradiction; cbn; lia]. rewrite EL. destruct (elements h (field h this f)) as [vs|]; [|lia]. pose proof (sum_le C' C vs (fun v _ => LE v)). lia.
    - destruct (FI f) as [->|SX]; [apply LE|rewrite ZE by exact SX; lia].
    - destruct (FI f) as [->|SX]; [apply LE|rewrite ZE by exact SX; lia].
  Qed.
  Lemma cost_le h h' : shrinks h h' -> forall d v, (cost d h' v <= cost d h v)%nat.
  Proof.
    intros SH. induction d as [|d IH]; intros v; [cbn; lia|]. destruct v as [|z|z|s|l]; try (cbn; lia). cbn [cost].
    assert (K : match nth_error h' l with Some (CObj c _) => Some c | _ => None end = match nth_error h l with Some (CObj c _) => Some c | _ => None end) by (destruct SH as [->|(m & f & z & _ & ->)]; [reflexivity|apply put_kind]).
    destruct (nth_error h' l) as [[c' gs|]|]; destruct (nth_error h l) as [[c fs|]|]; try discriminate; try lia. injection K as ->. destruct (find_class E c) as [cd|]; [|lia].
    apply le_n_S. apply sum_le. intros s _. apply inside_le; auto. intros x SX. destruct d, x; try reflexivity; contradiction.
  Qed.
  Lemma due_le h h' : shrinks h h' -> forall k d, (due h' k d <= due h k d)%nat.
  Proof.
    intros SH. induction k as [|[this ss loc|x vs] k IH]; intros d; cbn [due]; [lia| |].
    - specialize (IH (S d)). assert (sum (inside (cost d h') h' this) ss <= sum (inside (cost d h) h this) ss)%nat; [|lia]. apply sum_le. intros s _. apply inside_le; auto; [intros v; apply cost_le; auto|]. intros x SX. destruct d, x; try reflexivity; contradiction.
    - specialize (IH d). pose proof (sum_le (cost d h') (cost d h) vs (fun v _ => cost_le h h' SH d v)). lia.
  Qed.
  Lemma weight_le h h' t : shrinks h h' -> (weight h' t <= weight h t)%nat.
  Proof. intros SH. unfold weight. destruct (ended t); [lia|]. pose proof (due_le h h' SH (stack t) (room t)). lia. Qed.

  Lemma enter_weight h v k t : (weight h (enter E h v k t) <= S (cost (room t) h v + due h k (room t)))%nat.
  Proof.
    unfold enter, weight. destruct v as [|z|z|s|l]; cbn [ended]; try (destruct (room t); cbn [ended]; lia).
    destruct (room t) as [|d]; cbn [ended]; [lia|]. cbn [cost]. destruct (nth_error h l) as [[c fs|vs]|]; cbn [ended]; try lia. destruct (find_class E c) as [cd|]; cbn [ended stack room due]; lia.
  Qed.
  Lemma goes_on_weight h k d e b : (weight h (goes_on k d e b) <= S (due h k d))%nat.
  Proof. destruct e; cbn; lia. Qed.
  Lemma stmt_shrinks enc this s h loc b e h' loc' b' : match s with EObj _ | EObjOpt _ | EList _ _ _ _ _ _ _ => False | _ => True end -> hexec_estmt enc (checksum E) this s (h, loc, b) = (e, (h', loc', b')) -> shrinks h h'.
  Proof.
    unfold shrinks. intros NC X. destruct s; try contradiction; cbn [hexec_estmt] in X.
    all: repeat match type of X with context [match ?y with _ => _ end] => destruct y end; injection X as <- <- <- <-; try (left; reflexivity); right; eexists _, _, _; (split; [|reflexivity]; exact I).
  Qed.
  Lemma elem_same x h v b e h' b' : henc_elem no_call x h v b = (e, h', b') -> h' = h.
  Proof. destruct x; cbn; unfold no_call; intros X; repeat match type of X with context [match ?y with _ => _ end] => destruct y end; injection X as <- <- <-; reflexivity. Qed.
  Lemma step_weight h t h' t' : encoder_step E h t = (h', t') -> shrinks h h' /\ (ended t = None -> (weight h' t' < weight h t)%nat) /\ (ended t <> None -> t' = t).
  Proof.
    unfold encoder_step. destruct (ended t) as [e|] eqn:EN; intros X; [injection X as <- <-; split; [left; reflexivity|]; split; [discriminate|auto]|].
    assert (GOAL : shrinks h h' -> (weight h' t' < weight h t)%nat -> shrinks h h' /\ (@None (option exn) = None -> (weight h' t' < weight h t)%nat) /\ (@None (option exn) <> None -> t' = t)) by (intros A B; split; [exact A|]; split; [auto|congruence]).
    assert (W : weight h t = S (due h (stack t) (room t))) by (unfold weight; rewrite EN; reflexivity).
    destruct (stack t) as [|[this [|s ss] loc|x [|v vs]] k] eqn:ST.
    - injection X as <- <-. apply GOAL; [left; reflexivity|]. rewrite W. cbn. lia.
    - injection X as <- <-. apply GOAL; [left; reflexivity|]. rewrite W. unfold weight. cbn [ended stack room due]. cbn [sum fold_right]. lia.
    - assert (PLAIN : match s with EObj _ | EObjOpt _ | EList _ _ _ _ _ _ _ => False | _ => True end ->
        (let '(e, (g, loc', b)) := hexec_estmt no_call (checksum E) this s (h, loc, out t) in (g, goes_on (Body this ss loc' :: k) (room t) e b)) = (h', t') -> shrinks h h' /\ (weight h' t' < weight h t)%nat).
      { intros NC Z. destruct (hexec_estmt no_call (checksum E) this s (h, loc, out t)) as [e [[g l'] b]] eqn:S. injection Z as <- <-. assert (SH : shrinks h g) by (eapply stmt_shrinks; eauto). split; [exact SH|].
        pose proof (goes_on_weight g (Body this ss l' :: k) (room t) e b). pose proof (due_le h g SH (Body this ss loc :: k) (room t)). rewrite W. cbn [due sum fold_right] in *. unfold sum in *. lia. }
      assert (LOCAL : forall e b, (h, goes_on (Body this ss loc :: k) (room t) e b) = (h', t') -> shrinks h h' /\ (weight h' t' < weight h t)%nat).
      { intros e b Z. injection Z as <- <-. split; [left; reflexivity|]. pose proof (goes_on_weight h (Body this ss loc :: k) (room t) e b). rewrite W. cbn [due sum fold_right] in *. unfold sum in *. lia. }
      assert (CALL : forall v, inside (cost (room t) h) h this s = cost (room t) h v -> (h, enter E h v (Body this ss loc :: k) t) = (h', t') -> shrinks h h' /\ (weight h' t' < weight h t)%nat).
      { intros v IN Z. injection Z as <- <-. split; [left; reflexivity|]. pose proof (enter_weight h v (Body this ss loc :: k) t). rewrite W. cbn [due sum fold_right] in *. rewrite IN. unfold sum in *. lia. }
      assert (R : shrinks h h' /\ (weight h' t' < weight h t)%nat); [|destruct R; apply GOAL; auto].
      destruct s as [n o f|n o f|f len pad lft|f zn zo n o|f zn zo ct n o x|f|f|y|n o|f y z|n o y f|a f]; try (apply PLAIN; [exact I|exact X]).
      + cbn [inside] in *. destruct (field h this f) as [|z|z|u|l] eqn:F; try (destruct (write_int zo zn 0 (out t)) as [e b]; apply (LOCAL e b); exact X); try (apply (LOCAL (Some TYPE) (out t)); exact X).
        destruct (elements h (HRef l)) as [[|v vs]|] eqn:EL; try (destruct (write_int zo zn 0 (out t)) as [e b]; apply (LOCAL e b); exact X); try (apply (LOCAL (Some TYPE) (out t)); exact X).
        destruct (write_int o n (wrap ct (Z.of_nat (List.length (v :: vs)))) (out t)) as [e b]. injection X as <- <-. split; [left; reflexivity|]. pose proof (goes_on_weight h (Loop x (v :: vs) :: Body this ss loc :: k) (room t) e b).
        rewrite W. cbn [due sum fold_right inside] in *. rewrite F, EL. unfold sum in *. cbn [fold_right] in *. lia.
      + apply (CALL (field h this f)); [reflexivity|exact X].
      + cbn [inside] in *. destruct (field h this f) as [|z|z|u|l] eqn:F; try (apply (LOCAL None (out t)); exact X); apply (CALL _ eq_refl X).
    - injection X as <- <-. apply GOAL; [left; reflexivity|]. rewrite W. unfold weight. cbn [ended stack room due sum fold_right]. lia.
    - assert (CALL : (h, enter E h v (Loop x vs :: k) t) = (h', t') -> shrinks h h' /\ (weight h' t' < weight h t)%nat).
      { intros Z. injection Z as <- <-. split; [left; reflexivity|]. pose proof (enter_weight h v (Loop x vs :: k) t). rewrite W. cbn [due sum fold_right] in *. unfold sum in *. lia. }
      assert (ELEM : (let '(e, g, b) := henc_elem no_call x h v (out t) in (g, goes_on (Loop x vs :: k) (room t) e b)) = (h', t') -> shrinks h h' /\ (weight h' t' < weight h t)%nat).
      { intros Z. destruct (henc_elem no_call x h v (out t)) as [[e g] b] eqn:S. apply elem_same in S. injection Z as <- <-. subst g. split; [left; reflexivity|]. pose proof (goes_on_weight h (Loop x vs :: k) (room t) e b).
        rewrite W. cbn [due sum fold_right] in *. unfold sum in *. lia. }
      assert (R : shrinks h h' /\ (weight h' t' < weight h t)%nat) by (destruct x; first [apply CALL; exact X|apply ELEM; exact X]). destruct R; apply GOAL; auto.
  Qed.

  Lemma run_ends i : forall sched h ts h' ts' t t', encoders_run E sched h ts = (h', ts') -> nth_error ts i = Some t -> nth_error ts' i = Some t' -> (weight h t <= count_occ PeanoNat.Nat.eq_dec sched i)%nat -> ended t' <> None.
  Proof.
    induction sched as [|j sched IH]; intros h ts h' ts' t t' R T T' W.
    - cbn in R, W. injection R as <- <-. rewrite T in T'. injection T' as <-. unfold weight in W. destruct (ended t); [discriminate|lia].
    - cbn [encoders_run] in R. destruct (encoders_step E j h ts) as [g us] eqn:S. cbn [count_occ] in W. destruct (step_one E j h ts g us S) as [(NT & -> & ->)|(u & u' & NT & ST & NT' & OT)].
      + destruct (PeanoNat.Nat.eq_dec j i) as [->|NE]; [congruence|]. eapply IH; eauto.
      + destruct (step_weight h u g u' ST) as (SH & DEC & STAY). destruct (PeanoNat.Nat.eq_dec j i) as [->|NE].
        * rewrite T in NT. injection NT as <-. eapply IH; eauto. destruct (ended t) as [x|] eqn:EN.
          -- assert (u' = t) by (apply STAY; discriminate). subst u'. unfold weight. rewrite EN. lia.
          -- specialize (DEC eq_refl). lia.
        * eapply IH; eauto; [rewrite OT by congruence; exact T|]. pose proof (weight_le h g t SH). lia.
  Qed.

  (* ---- one thread with nobody else: the step machine computes encode ---- *)
  Definition outcome (h : heap) (t : encoder) : option exn * heap * bytebuf := match ended t with Some e => (e, h, out t) | None => rest E h (stack t) (room t) (out t) end.
  Lemma outcome_enter h v k t : outcome h (enter E h v k t) = match hencode E (room t) h v (out t) with (None, h', b') => rest E h' k (room t) b' | (Some e, h', b') => (Some e, h', b') end.
  Proof.
    unfold outcome, enter. destruct v as [|z|z|s|l]; cbn [ended out]; try (destruct (room t); reflexivity). destruct (room t) as [|d]; [reflexivity|]. cbn [hencode]. destruct (nth_error h l) as [[c fs|vs]|]; try reflexivity.
    destruct (find_class E c) as [cd|]; [|reflexivity]. cbn [ended stack room out rest]. destruct (hexec_enc (hencode E d) (checksum E) l (c_enc cd) (h, [], out t)) as [[e|] [[h' l'] b']]; reflexivity.
  Qed.
  Lemma outcome_on h k d e b : outcome h (goes_on k d e b) = match e with None => rest E h k d b | Some e => (Some e, h, b) end.
  Proof. destruct e; reflexivity. Qed.
  Lemma outcome_step h t h' t' : encoder_step E h t = (h', t') -> outcome h' t' = outcome h t.
  Proof.
    unfold encoder_step. destruct (ended t) as [e|] eqn:EN; intros X; [injection X as <- <-; reflexivity|].
    assert (O : outcome h t = rest E h (stack t) (room t) (out t)) by (unfold outcome; rewrite EN; reflexivity). rewrite O. clear O.
    destruct (stack t) as [|[this [|s ss] loc|x [|v vs]] k] eqn:ST.
    - injection X as <- <-. reflexivity.
    - injection X as <- <-. reflexivity.
    - assert (REST : rest E h (Body this (s :: ss) loc :: k) (room t) (out t) = match hexec_estmt (hencode E (room t)) (checksum E) this s (h, loc, out t) with (None, (g, l', b')) => rest E g (Body this ss l' :: k) (room t) b' | (Some e, (g, _, b')) => (Some e, g, b') end).
      { cbn [rest hexec_enc]. destruct (hexec_estmt (hencode E (room t)) (checksum E) this s (h, loc, out t)) as [[e|] [[g l'] b']]; reflexivity. }
      rewrite REST. clear REST.
      assert (PLAIN : match s with EObj _ | EObjOpt _ | EList _ _ _ _ _ _ _ => False | _ => True end ->
        (let '(e, (g, loc', b)) := hexec_estmt no_call (checksum E) this s (h, loc, out t) in (g, goes_on (Body this ss loc' :: k) (room t) e b)) = (h', t') -> outcome h' t' = match hexec_estmt (hencode E (room t)) (checksum E) this s (h, loc, out t) with (None, (g, l', b')) => rest E g (Body this ss l' :: k) (room t) b' | (Some e, (g, _, b')) => (Some e, g, b') end).
      { intros NC Z. rewrite (no_call_stmt E (hencode E (room t))) in Z by exact NC. destruct (hexec_estmt (hencode E (room t)) (checksum E) this s (h, loc, out t)) as [e [[g l'] b]]. injection Z as <- <-. rewrite outcome_on. destruct e; reflexivity. }
      destruct s as [n o f|n o f|f len pad lft|f zn zo n o|f zn zo ct n o x|f|f|y|n o|f y z|n o y f|a f]; try (apply PLAIN; [exact I|exact X]).
      + cbn [hexec_estmt]. destruct (field h this f) as [|z|z|u|l]; try (destruct (write_int zo zn 0 (out t)) as [e b]; injection X as <- <-; rewrite outcome_on; destruct e; reflexivity); try (injection X as <- <-; reflexivity).
        destruct (elements h (HRef l)) as [[|v vs]|]; try (destruct (write_int zo zn 0 (out t)) as [e b]; injection X as <- <-; rewrite outcome_on; destruct e; reflexivity); try (injection X as <- <-; reflexivity).
        destruct (write_int o n (wrap ct (Z.of_nat (List.length (v :: vs)))) (out t)) as [[e|] b]; injection X as <- <-; [reflexivity|].
        change (match henc_elems (hencode E (room t)) x h (v :: vs) b with (None, g, b') => rest E g (Body this ss loc :: k) (room t) b' | (Some e, g, b') => (Some e, g, b') end
          = match (let '(e, g, b'') := henc_elems (hencode E (room t)) x h (v :: vs) b in (e, (g, loc, b''))) with (None, (g, l', b')) => rest E g (Body this ss l' :: k) (room t) b' | (Some e, (g, _, b')) => (Some e, g, b') end).
        destruct (henc_elems (hencode E (room t)) x h (v :: vs) b) as [[[e|] g] b']; reflexivity.
      + injection X as <- <-. rewrite outcome_enter. cbn [hexec_estmt]. destruct (hencode E (room t) h (field h this f) (out t)) as [[[e|] g] b']; reflexivity.
      + cbn [hexec_estmt]. destruct (field h this f) as [|z|z|u|l]; pose proof (f_equal fst X) as X1; pose proof (f_equal snd X) as X2; cbn [fst snd] in X1, X2; subst h' t'; [reflexivity|rewrite outcome_enter; destruct (hencode E (room t) h _ (out t)) as [[[e|] g] b']; reflexivity..].
    - injection X as <- <-. reflexivity.
    - assert (ELEM : x <> XObj -> (let '(e, g, b) := henc_elem no_call x h v (out t) in (g, goes_on (Loop x vs :: k) (room t) e b)) = (h', t') -> outcome h' t' = rest E h (Loop x (v :: vs) :: k) (room t) (out t)).
      { intros NX Z. rewrite (no_call_same (hencode E (room t))) in Z by exact NX. cbn [rest henc_elems]. destruct (henc_elem (hencode E (room t)) x h v (out t)) as [[[e|] g] b]; injection Z as <- <-; reflexivity. }
      destruct x; try (apply ELEM; [discriminate|exact X]). injection X as <- <-. rewrite outcome_enter. cbn [rest henc_elems henc_elem]. destruct (hencode E (room t) h v (out t)) as [[[e|] g] b]; reflexivity.
  Qed.
  Lemma outcome_alone : forall sched h t h' ts', encoders_run E sched h [t] = (h', ts') -> exists t', ts' = [t'] /\ outcome h' t' = outcome h t.
  Proof.
    induction sched as [|i sched IH]; intros h t h' ts' R; cbn in R; [injection R as <- <-; eauto|]. destruct i as [|i]; cbn in R.
    - destruct (encoder_step E h t) as [g u] eqn:S. destruct (IH g u h' ts' R) as (t' & -> & O). exists t'. split; auto. rewrite O. apply outcome_step. exact S.
    - destruct i; cbn in R; exact (IH h t h' ts' R).
  Qed.
End Ends.
