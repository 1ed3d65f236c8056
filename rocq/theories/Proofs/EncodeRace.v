(* Several threads that encode at the same time (Model/EncodeThreads.v): each gets what it would have got alone. *)
From Coq Require Import ZArith List Bool String Lia.
From Verif.Model Require Import JavaPrim ByteBuf Utf8 Codec Ast Interp Heap EncodeThreads.
From Verif.Spec Require Import Sharing Together.
From Verif.Proofs Require Import HeapFacts SameBytes EncodeThreadFacts EncodeSteps.
Import ListNotations.

Section Race.
  Variable E : env.
  Variable h0 : heap.
  Notation near0 := (near0 E h0).
  Notation calm := (calm E h0).
  Notation sums := (checksum E).
  Notation rest := (rest E).
  Notation run := (run E h0).
  Notation quiet_item := (quiet_item E h0).

  Section One.
    Variable r : nat.
    Variable c : string.
    Variable fs : list (string * hval).
    Variable cd : class_def.
    Hypothesis Qr : nth_error h0 r = Some (CObj c fs).
    Hypothesis Kr : find_class E c = Some cd.
    Hypothesis CP : calm_parts E h0 r.
    Hypothesis SQ : sequenced (c_enc cd) = true.

    (* what the statements done so far have assigned is still there *)
    Definition agree (pre : list estmt) (h hs : heap) : Prop := forall f, assigned E pre f -> field h r f = field hs r f.
    Inductive inv (d : nat) (b0 : bytebuf) (h : heap) (t : encoder) : Prop :=
    | InvEnd e hs loc : ended t = Some e -> run r d b0 (c_enc cd) = (e, (hs, loc, out t)) -> (e = None -> agree (c_enc cd) h hs) -> inv d b0 h t
    | InvRet hs loc : ended t = None -> stack t = [] -> run r d b0 (c_enc cd) = (None, (hs, loc, out t)) -> agree (c_enc cd) h hs -> inv d b0 h t
    | InvAt pre post hs loc : ended t = None -> stack t = [Body r post loc] -> room t = d -> c_enc cd = pre ++ post -> run r d b0 pre = (None, (hs, loc, out t)) -> agree pre h hs -> inv d b0 h t
    | InvIn i k pre s post hs loc b1 e b' : ended t = None -> stack t = (i :: k) ++ [Body r post loc] -> Forall quiet_item (i :: k) -> (room t + bodies (i :: k) = d)%nat -> c_enc cd = pre ++ s :: post ->
        run r d b0 pre = (None, (hs, loc, b1)) -> agree pre h hs -> assigns E s = None -> hexec_estmt (hencode E d) sums r s (hs, loc, b1) = (e, (hs, loc, b')) ->
        rest h0 (i :: k) (room t) (out t) = (e, h0, b') -> inv d b0 h t.

    (* the heap after a step: as before, or with one field of the object set, to what the statement sets it to when the thread is alone *)
    Definition sets (d : nat) (b0 : bytebuf) (h h' : heap) : Prop :=
      exists pre s post hs loc b f z, c_enc cd = pre ++ s :: post /\ run r d b0 pre = (None, (hs, loc, b)) /\ assigns E s = Some f
        /\ hexec_estmt (hencode E d) sums r s (hs, loc, b) = (None, (put_field hs r f (HInt z), loc, b)) /\ h' = put_field h r f (HInt z).

    Lemma same_reads d b0 pre s post hs loc b h : near0 h -> c_enc cd = pre ++ s :: post -> run r d b0 pre = (None, (hs, loc, b)) -> agree pre h hs -> forall f, reads s = Some f -> field h r f = field hs r f.
    Proof.
      intros N Q R A f RD. destruct (run_tame E h0 r c fs cd Qr Kr CP d b0 pre (s :: post) None hs loc b Q R) as [[NS _] FS]. rewrite Q in SQ. apply sequenced_app in SQ. cbn [sequenced] in SQ. rewrite RD in SQ.
      rewrite !andb_true_iff in SQ. destruct SQ as [[M _] _]. apply negb_true_iff in M.
      assert (D : assigned E pre f \/ ~ assigned E pre f).
      { clear. induction pre as [|x pre IH]; [right; intros (s & [] & _)|]. destruct IH as [(s & I & A)|NA]; [left; exists s; split; [right|]; auto|].
        destruct (assigns E x) as [g|] eqn:X; [destruct (String.eqb_spec g f) as [->|]|]; [left; exists x; split; [left|]; auto|right|right]; intros (s & [->|I] & W); try congruence; apply NA; exists s; auto. }
      destruct D as [D|D]; [apply A; exact D|]. rewrite (FS f D). eapply near0_field; eauto. intros (cd' & K & W). rewrite Kr in K. injection K as <-. rewrite Q in W. apply assigned_app in W. destruct W as [W|W]; [contradiction|].
      apply assigned_targets in W. apply mem_in in W. congruence.
    Qed.
    Lemma agree_more pre s h hs : agree pre h hs -> assigns E s = None -> agree (pre ++ [s]) h hs.
    Proof. intros A N f W. apply assigned_app in W. destruct W as [W|(x & [->|[]] & X)]; [auto|congruence]. Qed.
    Lemma run_more d b0 pre s hs loc b : run r d b0 pre = (None, (hs, loc, b)) -> run r d b0 (pre ++ [s]) = hexec_estmt (hencode E d) sums r s (hs, loc, b).
    Proof. intros R. rewrite (run_app E h0), R. cbn [hexec_enc]. destruct (hexec_estmt (hencode E d) sums r s (hs, loc, b)) as [[e|] st]; reflexivity. Qed.
    Lemma run_fails d b0 pre s post hs loc b e st : c_enc cd = pre ++ s :: post -> run r d b0 pre = (None, (hs, loc, b)) -> hexec_estmt (hencode E d) sums r s (hs, loc, b) = (Some e, st) -> run r d b0 (c_enc cd) = (Some e, st).
    Proof. intros Q R X. rewrite Q, (run_app E h0), R. cbn [hexec_enc]. rewrite X. reflexivity. Qed.
    Lemma split_more (pre : list estmt) s post : pre ++ s :: post = (pre ++ [s]) ++ post.
    Proof. rewrite <- app_assoc. reflexivity. Qed.

    Lemma own_step d b0 h t h' t' : near0 h -> inv d b0 h t -> encoder_step E h t = (h', t') -> inv d b0 h' t' /\ (h' = h \/ sets d b0 h h').
    Proof.
      intros N [e hs loc EN R A|hs loc EN ST R A|pre post hs loc EN ST RM Q R A|i k pre s post hs loc b1 e b' EN ST QI RB Q R A NS X RE] STEP.
      - unfold encoder_step in STEP. rewrite EN in STEP. injection STEP as <- <-. split; auto. eapply InvEnd; eauto.
      - unfold encoder_step in STEP. rewrite EN, ST in STEP. injection STEP as <- <-. split; auto. eapply InvEnd; cbn; eauto.
      - destruct post as [|s post].
        { unfold encoder_step in STEP. rewrite EN, ST in STEP. injection STEP as <- <-. split; auto. rewrite app_nil_r in Q. rewrite <- Q in R, A. eapply InvRet; cbn; eauto. }
        destruct (run_tame E h0 r c fs cd Qr Kr CP d b0 pre (s :: post) None hs loc (out t) Q R) as [[NSs CF] _].
        pose proof (same_reads d b0 pre s post hs loc (out t) h N Q R A) as SR.
        (* a statement that is not an assignment and calls nothing *)
        assert (PLAIN : assigns E s = None -> forall e l' b', hexec_estmt (hencode E d) sums r s (hs, loc, out t) = (e, (hs, l', b')) -> (h, goes_on [Body r post l'] (room t) e b') = (h', t') -> inv d b0 h' t' /\ (h' = h \/ sets d b0 h h')).
        { intros NA e l' b' X F. injection F as <- <-. split; auto. destruct e as [e|]; cbn [goes_on].
          - eapply InvEnd; cbn; eauto; [eapply run_fails; eauto|discriminate].
          - eapply (InvAt _ _ _ _ (pre ++ [s]) post hs l'); cbn; auto; [rewrite <- split_more; exact Q|rewrite (run_more d b0 pre s hs loc (out t) R); exact X|apply agree_more; auto]. }
        assert (NOCALL : assigner s = false -> match s with EObj _ | EObjOpt _ | EList _ _ _ _ _ _ _ => False | _ => True end ->
          (let '(e, (g, l', b)) := hexec_estmt no_call sums r s (h, loc, out t) in (g, goes_on [Body r post l'] (room t) e b)) = (h', t') -> inv d b0 h' t' /\ (h' = h \/ sets d b0 h h')).
        { intros AS NC F. rewrite (no_call_stmt E (hencode E d)) in F by exact NC.
          destruct (same_stmt E h0 (hencode E d) (same_encode E h0 d) h hs r s loc (out t) N NSs AS SR (fun f => or_introl (CF f))) as (e & l' & b' & X1 & X2). rewrite X2 in F.
          apply (PLAIN (ltac:(destruct s; try discriminate AS; reflexivity)) e l' b'); auto. }
        assert (CALL : forall v, assigns E s = None -> calm v -> (forall b, hexec_estmt (hencode E d) sums r s (hs, loc, b) = let '(e, g, b') := hencode E d hs v b in (e, (g, loc, b'))) ->
          (h, enter E h v [Body r post loc] t) = (h', t') -> inv d b0 h' t' /\ (h' = h \/ sets d b0 h h')).
        { intros v NA C X F. injection F as <- <-. split; auto. destruct (same_encode E h0 d hs v (out t) NSs C) as (e & b' & P1 & P2). specialize (X (out t)). rewrite P2 in X.
          destruct (enter_next E h0 h v [] [Body r post loc] t N C EN) as [(T1 & j & T2 & T3 & T4 & T5 & T6)|(e' & T1 & T2)]; cbn [app] in *.
          - apply (InvIn _ _ _ _ j [] pre s post hs loc (out t) e b'); auto; [lia|]. rewrite T6, RM, P1. destruct e; reflexivity.
          - rewrite RM, P1 in T2. injection T2 as -> ->. eapply InvEnd; eauto; [eapply run_fails; eauto|discriminate]. }
        assert (SET : forall f z, assigns E s = Some f -> hexec_estmt (hencode E d) sums r s (hs, loc, out t) = (None, (put_field hs r f (HInt z), loc, out t)) ->
          (put_field h r f (HInt z), goes_on [Body r post loc] (room t) None (out t)) = (h', t') -> inv d b0 h' t' /\ (h' = h \/ sets d b0 h h')).
        { intros f z AS X F. injection F as <- <-. split; [|right; exists pre, s, post, hs, loc, (out t), f, z; auto].
          eapply (InvAt _ _ _ _ (pre ++ [s]) post _ loc); cbn; auto; [rewrite <- split_more; exact Q|rewrite (run_more d b0 pre s hs loc (out t) R); exact X|].
          intros g W. rewrite !(field_put E h0 r c fs Qr) by assumption. destruct (String.eqb_spec f g) as [->|NE]; [reflexivity|]. apply assigned_app in W. destruct W as [W|(x & [->|[]] & W)]; [auto|congruence]. }
        unfold encoder_step in STEP. rewrite EN, ST in STEP.
        destruct s as [n o f|n o f|f len pad lft|f zn zo n o|f zn zo ct n o x|f|f|y|n o|f y z|n o y f|a f]; try (apply NOCALL; [reflexivity|exact I|exact STEP]).
        + rewrite (SR f eq_refl) in STEP. pose proof (PLAIN eq_refl) as PL. cbn [hexec_estmt] in PL. pose proof (CF f) as CFf. destruct (field hs r f) as [|z|z|u|l] eqn:Qf.
          * destruct (write_int zo zn 0 (out t)) as [e b'] eqn:W. eapply PL; [reflexivity|exact STEP].
          * eapply PL; [reflexivity|exact STEP].
          * eapply PL; [reflexivity|exact STEP].
          * eapply PL; [reflexivity|exact STEP].
          * rewrite (near0_elements E h0 h (HRef l) N) in STEP. rewrite (near0_elements E h0 hs (HRef l) NSs) in PL. destruct (elements h0 (HRef l)) as [[|v vs]|] eqn:EL.
            -- destruct (write_int zo zn 0 (out t)) as [e b'] eqn:W. eapply PL; [reflexivity|exact STEP].
            -- assert (FC : Forall calm (v :: vs)) by (apply Forall_forall; intros w Hw; apply (calm_elem E h0 (HRef l) (v :: vs)); auto).
               destruct (write_int o n (wrap ct (Z.of_nat (List.length (v :: vs)))) (out t)) as [[e|] b'] eqn:W; [eapply PL; [reflexivity|exact STEP]|].
               injection STEP as <- <-. split; auto. destruct (same_elems E h0 (hencode E d) (same_encode E h0 d) hs x (v :: vs) b' NSs FC) as (e & b2 & P1 & P2).
               apply (InvIn _ _ _ _ (Loop x (v :: vs)) [] pre (EList f zn zo ct n o x) post hs loc (out t) e b2); auto.
               ++ cbn [goes_on room bodies]. rewrite RM. lia.
               ++ cbn [hexec_estmt]. rewrite Qf, (near0_elements E h0 hs (HRef l) NSs), EL, W, P2. reflexivity.
               ++ cbn [goes_on room out]. rewrite RM. change (match henc_elems (hencode E d) x h0 (v :: vs) b' with (None, g, b'') => (None, g, b'') | (Some e, g, b'') => (Some e, g, b'') end = (e, h0, b2)). rewrite P1. destruct e; reflexivity.
            -- eapply PL; [reflexivity|exact STEP].
        + rewrite (SR f eq_refl) in STEP. apply (CALL (field hs r f)); auto.
        + rewrite (SR f eq_refl) in STEP. pose proof (CF f) as CFf. pose proof (PLAIN eq_refl) as PL. pose proof (CALL (field hs r f) eq_refl CFf) as CA. cbn [hexec_estmt] in PL, CA. destruct (field hs r f) as [|z|z|u|l] eqn:Qf; [eapply PL; [reflexivity|exact STEP]|apply CA; auto..].
        + cbn [hexec_estmt] in STEP. cbn [assigns] in *. destruct (assoc y loc) as [p|] eqn:P1; [destruct (assoc z loc) as [q|] eqn:P2|].
          * eapply SET; [reflexivity| |exact STEP]. cbn [hexec_estmt]. rewrite P1, P2. reflexivity.
          * injection STEP as <- <-. split; auto. eapply InvEnd; cbn; eauto; [eapply run_fails; eauto; cbn [hexec_estmt]; rewrite P1, P2; reflexivity|discriminate].
          * injection STEP as <- <-. split; auto. eapply InvEnd; cbn; eauto; [eapply run_fails; eauto; cbn [hexec_estmt]; rewrite P1; reflexivity|discriminate].
        + cbn [hexec_estmt] in STEP. destruct (sums a) as [cs|] eqn:SA.
          * eapply SET; [cbn; rewrite SA; reflexivity| |exact STEP]. cbn [hexec_estmt]. rewrite SA. reflexivity.
          * eapply PLAIN; [cbn; rewrite SA; reflexivity| |exact STEP]. cbn [hexec_estmt]. rewrite SA. reflexivity.
      - pose proof (inner_step E h0 h t i k [Body r post loc] N EN ST QI) as [HS W]. rewrite STEP in HS, W. cbn [fst snd] in HS, W. subst h'. split; auto.
        destruct W as [(T1 & [|j k'] & T2 & T3 & T4 & T5)|(e' & T1 & T2)].
        + cbn [app bodies] in T2, T4, RB. rewrite RE in T5. cbn [EncodeSteps.rest] in T5. injection T5 as <- <-.
          eapply (InvAt _ _ _ _ (pre ++ [s]) post hs loc); auto; [lia|rewrite <- split_more; exact Q|rewrite (run_more d b0 pre s hs loc b1 R); exact X|apply agree_more; auto].
        + eapply (InvIn _ _ _ _ j k' pre s post hs loc b1 e b'); auto; [lia|rewrite T5; exact RE].
        + rewrite RE in T2. injection T2 as -> ->. eapply InvEnd; eauto; [eapply run_fails; eauto|discriminate].
    Qed.

    (* other threads *)
    Lemma sets_near0 d b0 h h' : near0 h -> sets d b0 h h' -> near0 h'.
    Proof.
      intros N (pre & s & post & hs & loc & b & f & z & Q & _ & A & _ & ->). apply (near0_put E h0 r c fs Qr); auto. exists cd. split; auto. exists s. split; auto. rewrite Q. apply in_app_iff. right. left. reflexivity.
    Qed.
    Lemma agree_other d1 d2 b1 b2 h h' pre post hs loc b : near0 h -> compatible E cd b1 b2 -> sets d1 b1 h h' -> c_enc cd = pre ++ post -> run r d2 b2 pre = (None, (hs, loc, b)) -> agree pre h hs -> agree pre h' hs.
    Proof.
      intros N CO (pre1 & s & post1 & hs1 & loc1 & x & f & z & Q1 & R1 & A1 & X1 & ->) Q R A g W. destruct (String.eqb_spec f g) as [->|NE].
      - symmetry. apply (same_value E h0 r c fs cd Qr Kr CP SQ d1 d2 b1 b2 pre1 s post1 hs1 loc1 x g z pre post hs loc b CO Q1 R1 A1 X1 Q R W h N).
      - rewrite (field_put E h0 r c fs Qr) by exact N. destruct (String.eqb_spec f g); [contradiction|]. apply A. exact W.
    Qed.
    Lemma inv_mono d b0 h h' t : (forall pre post hs loc b, c_enc cd = pre ++ post -> run r d b0 pre = (None, (hs, loc, b)) -> agree pre h hs -> agree pre h' hs) -> inv d b0 h t -> inv d b0 h' t.
    Proof.
      intros M [e hs loc EN R A|hs loc EN ST R A|pre post hs loc EN ST RM Q R A|i k pre s post hs loc b1 e b' EN ST QI RB Q R A NS X RE].
      - eapply InvEnd; eauto. intros ->. eapply (M (c_enc cd) []); eauto. rewrite app_nil_r. reflexivity.
      - eapply InvRet; eauto. eapply (M (c_enc cd) []); eauto. rewrite app_nil_r. reflexivity.
      - eapply InvAt; eauto.
      - eapply InvIn; eauto.
    Qed.
    Lemma inv_begin d b0 t : begin E h0 (HRef r) (S d) b0 = t -> inv d b0 h0 t.
    Proof.
      unfold begin, enter. cbn [room]. rewrite Qr, Kr. intros <-. eapply (InvAt _ _ _ _ [] (c_enc cd) h0 []); cbn; auto. intros f (s & [] & _).
    Qed.
    Lemma inv_result d b0 h t e : near0 h -> inv d b0 h t -> ended t = Some e -> exists hs, hencode E (S d) h0 (HRef r) b0 = (e, hs, out t) /\ (e = None -> forall f, field h r f = field hs r f).
    Proof.
      intros N [e' hs loc EN R A|hs loc EN ST R A|pre post hs loc EN ST RM Q R A|i k pre s post hs loc b1 e' b' EN ST QI RB Q R A NS X RE] EE; try congruence.
      rewrite EN in EE. injection EE as ->. exists hs. split.
      - cbn [hencode]. rewrite Qr, Kr. unfold EncodeSteps.run in R. rewrite R. reflexivity.
      - intros -> f. destruct (run_tame E h0 r c fs cd Qr Kr CP d b0 (c_enc cd) [] None hs loc (out t)) as [_ FS]; [rewrite app_nil_r; reflexivity|exact R|].
        assert (D : assigned E (c_enc cd) f \/ ~ assigned E (c_enc cd) f).
        { clear. induction (c_enc cd) as [|x pre IH]; [right; intros (s & [] & _)|]. destruct IH as [(s & I & A)|NA]; [left; exists s; split; [right|]; auto|].
          destruct (assigns E x) as [g|] eqn:X; [destruct (String.eqb_spec g f) as [->|]|]; [left; exists x; split; [left|]; auto|right|right]; intros (s & [->|I] & W); try congruence; apply NA; exists s; auto. }
        destruct D as [D|D]; [apply A; auto|]. rewrite (FS f D). eapply near0_field; eauto. intros (cd' & K & W). rewrite Kr in K. injection K as <-. contradiction.
    Qed.
  End One.

  (* ---- all threads ---- *)
  Hypothesis ALLSQ : forall c cd, find_class E c = Some cd -> sequenced (c_enc cd) = true.
  Lemma step_one i h ts h' ts' : encoders_step E i h ts = (h', ts') -> (nth_error ts i = None /\ h' = h /\ ts' = ts) \/
    exists t t', nth_error ts i = Some t /\ encoder_step E h t = (h', t') /\ nth_error ts' i = Some t' /\ forall j, j <> i -> nth_error ts' j = nth_error ts j.
  Proof.
    revert i ts'. induction ts as [|t ts IH]; intros [|i] ts' H; cbn in H.
    - injection H as <- <-. left. auto.
    - injection H as <- <-. left. auto.
    - destruct (encoder_step E h t) as [g t'] eqn:S. injection H as <- <-. right. exists t, t'. split; [reflexivity|]. split; [exact S|]. split; [reflexivity|]. intros [|j] N; [contradiction|reflexivity].
    - destruct (encoders_step E i h ts) as [g r] eqn:S. injection H as <- <-. destruct (IH i r S) as [(N & -> & ->)|(u & u' & N & SS & N' & O)]; [left; auto|right]. exists u, u'. split; [exact N|]. split; [exact SS|]. split; [exact N'|].
        intros [|j] NE; [reflexivity|]. cbn. apply O. congruence.
  Qed.

  Variable jobs : list job.
  Hypothesis CALM : forall j, In j jobs -> calm_parts E h0 (whom j).
  Hypothesis COMP : forall i j c fs cd, In i jobs -> In j jobs -> whom i = whom j -> nth_error h0 (whom i) = Some (CObj c fs) -> find_class E c = Some cd -> compatible E cd (into i) (into j).
  Definition started (j : job) : encoder := begin E h0 (HRef (whom j)) (limit j) (into j).
  Definition tinv (h : heap) (j : job) (t : encoder) : Prop :=
    (exists e, ended t = Some (Some e) /\ hencode E (limit j) h0 (HRef (whom j)) (into j) = (Some e, h0, out t))
    \/ exists d c fs cd, limit j = S d /\ nth_error h0 (whom j) = Some (CObj c fs) /\ find_class E c = Some cd /\ inv (whom j) cd d (into j) h t.
  Definition all_inv (h : heap) (ts : list encoder) : Prop :=
    near0 h /\ (forall l, ~ In l (map whom jobs) -> nth_error h l = nth_error h0 l) /\ forall i j t, nth_error jobs i = Some j -> nth_error ts i = Some t -> tinv h j t.
  Lemma started_inv j : In j jobs -> tinv h0 j (started j).
  Proof.
    intros I. unfold started. destruct (limit j) as [|d] eqn:D.
    - left. exists SOE. rewrite D. auto.
    - destruct (nth_error h0 (whom j)) as [[c fs|vs]|] eqn:Q.
      + destruct (find_class E c) as [cd|] eqn:K.
        * right. exists d, c, fs, cd. split; [auto|]. split; [auto|]. split; [auto|]. eapply inv_begin; eauto.
        * left. exists TYPE. rewrite D. cbn. rewrite Q, K. auto.
      + left. exists TYPE. rewrite D. cbn. rewrite Q. auto.
      + left. exists TYPE. rewrite D. cbn. rewrite Q. auto.
  Qed.
  Lemma all_started : all_inv h0 (map started jobs).
  Proof.
    split; [apply near0_refl|]. split; auto. intros i j t J T. rewrite nth_error_map, J in T. injection T as <-. apply started_inv. eapply nth_error_In; eauto.
  Qed.
  Lemma all_step i h ts h' ts' : List.length ts = List.length jobs -> all_inv h ts -> encoders_step E i h ts = (h', ts') -> all_inv h' ts'.
  Proof.
    intros LEN (N & FR & T) S. destruct (step_one i h ts h' ts' S) as [(_ & -> & ->)|(t & t' & NT & ST & NT' & OT)]; [split; auto|].
    assert (exists j, nth_error jobs i = Some j) as [j J].
    { destruct (nth_error jobs i) as [j|] eqn:J; eauto. apply nth_error_None in J. assert (nth_error ts i <> None) by congruence. apply nth_error_Some in H. lia. }
    assert (IJ : In j jobs) by (eapply nth_error_In; eauto).
    assert (KEEP : forall t1, encoder_step E h t1 = (h', t') -> h' = h -> tinv h j t' -> all_inv h' ts').
    { intros t1 _ -> TI. split; auto. split; auto. intros k jk tk JK TK. destruct (PeanoNat.Nat.eq_dec k i) as [->|NE]; [|rewrite OT in TK by exact NE; eauto]. rewrite NT' in TK. injection TK as <-. rewrite J in JK. injection JK as <-. exact TI. }
    destruct (T i j t J NT) as [(e & EN & R)|(d & c & fs & cd & D & Q & K & I)].
    - unfold encoder_step in ST. rewrite EN in ST. injection ST as <- <-. apply (KEEP t); [unfold encoder_step; rewrite EN; reflexivity|reflexivity|left; eauto].
    - destruct (own_step (whom j) c fs cd Q K (CALM j IJ) (ALLSQ c cd K) d (into j) h t h' t' N I ST) as [I' [->|SE]].
      + apply (KEEP t ST eq_refl). right. exists d, c, fs, cd. auto.
      + assert (N' : near0 h') by (eapply sets_near0; eauto). split; [exact N'|]. split.
        * intros l NL. destruct SE as (pre & s & post & hs & loc & b & f & z & _ & _ & _ & _ & ->). rewrite put_off; [apply FR; exact NL|]. intros ->. apply NL. apply in_map. exact IJ.
        * intros k jk tk JK TK. destruct (PeanoNat.Nat.eq_dec k i) as [->|NE].
          -- rewrite NT' in TK. injection TK as <-. rewrite J in JK. injection JK as <-. right. exists d, c, fs, cd. auto.
          -- rewrite OT in TK by exact NE. assert (IK : In jk jobs) by (eapply nth_error_In; eauto). destruct (T k jk tk JK TK) as [L|(d2 & c2 & fs2 & cd2 & D2 & Q2 & K2 & I2)]; [left; exact L|]. right. exists d2, c2, fs2, cd2. split; [auto|]. split; [auto|]. split; [auto|].
             destruct (PeanoNat.Nat.eq_dec (whom j) (whom jk)) as [EW|NW].
             ++ pose proof Q2 as Q3. rewrite <- EW, Q in Q3. injection Q3 as <- <-. rewrite K in K2. injection K2 as <-. pose proof (COMP j jk c fs cd IJ IK EW Q K) as CO. rewrite <- EW in I2 |- *.
                eapply inv_mono; [|exact I2]. intros pre post hs loc b QQ RR AA. exact (agree_other (whom j) c fs cd Q K (CALM j IJ) (ALLSQ c cd K) d d2 (into j) (into jk) h h' pre post hs loc b N CO SE QQ RR AA).
             ++ eapply inv_mono; [|exact I2]. intros pre post hs loc b QQ RR AA f W. rewrite <- (AA f W). destruct SE as (pre1 & s & post1 & hs1 & loc1 & b1 & f1 & z & _ & _ & _ & _ & ->). unfold field. rewrite put_off by congruence. reflexivity.
  Qed.
  Lemma step_len i h : forall ts h' ts', encoders_step E i h ts = (h', ts') -> List.length ts' = List.length ts.
  Proof.
    revert i. intros i ts. revert i. induction ts as [|t ts IH]; intros [|i] h' ts' H; cbn in H; try (injection H as _ <-; reflexivity).
    - destruct (encoder_step E h t). injection H as _ <-. reflexivity.
    - destruct (encoders_step E i h ts) eqn:S. injection H as _ <-. cbn. rewrite (IH _ _ _ S). reflexivity.
  Qed.
  Lemma all_run : forall sched h ts h' ts', List.length ts = List.length jobs -> all_inv h ts -> encoders_run E sched h ts = (h', ts') -> all_inv h' ts'.
  Proof.
    induction sched as [|i sched IH]; intros h ts h' ts' L A R; cbn in R; [injection R as <- <-; exact A|]. destruct (encoders_step E i h ts) as [g us] eqn:S.
    eapply IH; [|eapply all_step; eauto|exact R]. rewrite (step_len _ _ _ _ _ S). exact L.
  Qed.
  Lemma all_result sched h' ts : encoders_run E sched h0 (map started jobs) = (h', ts) -> near0 h' /\ (forall l, ~ In l (map whom jobs) -> nth_error h' l = nth_error h0 l)
    /\ forall i j t e, nth_error jobs i = Some j -> nth_error ts i = Some t -> ended t = Some e ->
       exists hs, hencode E (limit j) h0 (HRef (whom j)) (into j) = (e, hs, out t) /\ (e = None -> forall f, field h' (whom j) f = field hs (whom j) f).
  Proof.
    intros R. assert (A : all_inv h' ts) by (eapply all_run; [|apply all_started|exact R]; apply map_length). destruct A as (N & FR & T). split; [exact N|]. split; [exact FR|].
    intros i j t e J NT EN. destruct (T i j t J NT) as [(x & EN' & H)|(d & c & fs & cd & D & Q & K & I)].
    - rewrite EN in EN'. injection EN' as ->. exists h0. split; [exact H|discriminate].
    - rewrite D. eapply inv_result; eauto. apply CALM. eapply nth_error_In; eauto.
  Qed.
End Race.
