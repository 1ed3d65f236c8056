(* Threads that encode messages of one heap. *)
From Coq Require Import ZArith List Bool String Lia.
From Verif.Model Require Import JavaPrim ByteBuf Utf8 Codec Ast Interp Heap EncodeThreads.
From Verif.Spec Require Import Sharing.
From Verif.Proofs Require Import HeapFacts SameBytes.
Import ListNotations.

Definition assigner (s : estmt) : bool := match s with EDiff _ _ _ | ESum _ _ => true | _ => false end.

(* the field of this that a statement reads, and the one it may assign *)
Definition reads (s : estmt) : option string :=
  match s with EWrite _ _ f | EWriteF _ _ f | EFix f _ _ _ | EDyn f _ _ _ _ | EList f _ _ _ _ _ _ | EObj f | EObjOpt f | EPatch _ _ _ f => Some f | _ => None end.
Definition target (s : estmt) : option string := match s with EDiff f _ _ | ESum _ f => Some f | _ => None end.

Section Heap0.
  Variable E : env.
  Variable h0 : heap.

  (* objects of this class have fields that encode assigns *)
  Definition frame_class (c : string) : bool := match find_class E c with Some cd => existsb assigner (c_enc cd) | None => false end.
  (* nothing that can be reached from v has such fields *)
  Definition calm (v : hval) : Prop := forall l c fs, reach h0 v l -> nth_error h0 l = Some (CObj c fs) -> frame_class c = false.
  (* the field a statement assigns, given the registry *)
  Definition assigns (s : estmt) : option string :=
    match s with EDiff f _ _ => Some f | ESum a f => match checksum E a with Some _ => Some f | None => None end | _ => None end.
  Definition assigned (ss : list estmt) (f : string) : Prop := exists s, In s ss /\ assigns s = Some f.
  Definition assigned_in (c f : string) : Prop := exists cd, find_class E c = Some cd /\ assigned (c_enc cd) f.
  (* h is h0 up to fields that encode assigns *)
  Definition near0 (h : heap) : Prop := forall l, match nth_error h0 l with
    | Some (CObj c fs) => exists gs, nth_error h l = Some (CObj c gs) /\ map fst gs = map fst fs /\ (frame_class c = false -> gs = fs) /\ (forall f, ~ assigned_in c f -> hget f gs = hget f fs)
    | o => nth_error h l = o
    end.
  Lemma near0_refl : near0 h0.
  Proof. intros l. destruct (nth_error h0 l) as [[c fs|vs]|] eqn:Q; auto. exists fs. auto. Qed.
  Lemma near0_class h l : near0 h -> match nth_error h l with Some (CObj c _) => Some c | _ => None end = match nth_error h0 l with Some (CObj c _) => Some c | _ => None end.
  Proof. intros N. specialize (N l). destruct (nth_error h0 l) as [[c fs|vs]|]; [destruct N as (gs & -> & _)|rewrite N|rewrite N]; reflexivity. Qed.
  Lemma near0_elements h v : near0 h -> elements h v = elements h0 v.
  Proof. intros N. destruct v as [| | | |l]; auto. cbn. specialize (N l). destruct (nth_error h0 l) as [[c fs|vs]|]; [destruct N as (gs & -> & _)|rewrite N|rewrite N]; reflexivity. Qed.
  Lemma near0_field h l f c fs : near0 h -> nth_error h0 l = Some (CObj c fs) -> ~ assigned_in c f -> field h l f = field h0 l f.
  Proof. intros N Q A. specialize (N l). rewrite Q in N. destruct N as (gs & G & _ & _ & K). unfold field. rewrite G, Q. auto. Qed.
  Lemma no_assigner c f : frame_class c = false -> ~ assigned_in c f.
  Proof.
    intros H (cd & F & s & I & A). unfold frame_class in H. rewrite F in H. assert (X : existsb assigner (c_enc cd) = true) by (apply existsb_exists; exists s; split; auto; destruct s; cbn in *; try discriminate; reflexivity). congruence.
  Qed.

  Lemma calm_field l c fs f : calm (HRef l) -> nth_error h0 l = Some (CObj c fs) -> calm (field h0 l f).
  Proof.
    intros C Q m d gs R. unfold field in R. rewrite Q in R.
    assert (D : hget f fs = HNull \/ exists g, In (g, hget f fs) fs).
    { clear. induction fs as [|[g v] fs IH]; cbn; auto. destruct (String.eqb f g); [right; exists g; left; reflexivity|]. destruct IH as [->|(g' & H)]; [auto|right; exists g'; right; exact H]. }
    destruct D as [D|(g & D)]; [rewrite D in R; inversion R|]. apply C. eapply reach_field; eauto.
  Qed.
  Lemma calm_elem v vs x : calm v -> elements h0 v = Some vs -> In x vs -> calm x.
  Proof.
    intros C Q I m d gs R. destruct v as [| | | |l]; try discriminate. cbn in Q. destruct (nth_error h0 l) as [[|ws]|] eqn:N; try discriminate. injection Q as ->. apply C. eapply reach_elem; eauto.
  Qed.
  (* the root of a thread may be a frame; its parts are not *)
  Definition calm_parts (l : nat) : Prop := forall f, calm (field h0 l f).

  Definition quiet_object (l : nat) : Prop := exists c fs, nth_error h0 l = Some (CObj c fs) /\ frame_class c = false.

  (* ---- encode of a part is the same whatever the frames contain ---- *)
  Section Depth.
    Variable enc : heap -> hval -> bytebuf -> option exn * heap * bytebuf.
    Hypothesis IH : forall h v b, near0 h -> calm v -> exists e b', enc h0 v b = (e, h0, b') /\ enc h v b = (e, h, b').
    Lemma same_elem h x v b : near0 h -> calm v -> exists e b', henc_elem enc x h0 v b = (e, h0, b') /\ henc_elem enc x h v b = (e, h, b').
    Proof.
      intros N C. destruct x; cbn [henc_elem]; [| | | |apply IH; auto].
      - destruct v; eauto. destruct (write_int o n z b); eauto.
      - destruct v; eauto. destruct (write_int o n bits b); eauto.
      - destruct (hstring_of v) as [s|]; eauto. destruct (write_fixed s len pad left b); eauto.
      - destruct (hstring_of v) as [s|]; eauto. destruct (write_dyn s zn zo n o b); eauto.
    Qed.
    Lemma same_elems h x : forall vs b, near0 h -> Forall calm vs -> exists e b', henc_elems enc x h0 vs b = (e, h0, b') /\ henc_elems enc x h vs b = (e, h, b').
    Proof.
      induction vs as [|v vs IHv]; intros b N C; cbn [henc_elems]; eauto. inversion C as [|? ? C1 C2]; subst. destruct (same_elem h x v b N C1) as (e & b' & -> & ->). destruct e; eauto.
    Qed.
    (* a statement that assigns nothing, on two heaps in which this has the same field values *)
    Lemma same_stmt h hs this s loc b : near0 h -> near0 hs -> assigner s = false -> (forall f, reads s = Some f -> field h this f = field hs this f) -> (forall f, calm (field hs this f) \/ (forall v, ~ calls hs this s v)) ->
      exists e loc' b', hexec_estmt enc (checksum E) this s (hs, loc, b) = (e, (hs, loc', b')) /\ hexec_estmt enc (checksum E) this s (h, loc, b) = (e, (h, loc', b')).
    Proof.
      intros N NS A F CM. assert (CALL : forall v, calm v -> exists e b', enc hs v b = (e, hs, b') /\ enc h v b = (e, h, b')).
      { intros v C. destruct (IH h v b N C) as (e & b' & Q1 & Q2). destruct (IH hs v b NS C) as (e2 & b2 & Q3 & Q4). rewrite Q1 in Q3. injection Q3 as <- <-. eauto. }
      destruct s as [n o f|n o f|f len pad lft|f zn zo n o|f zn zo ct n o x|f|f|y|n o|f y z|n o y f|a f]; try discriminate; cbn [hexec_estmt]; try rewrite (F f eq_refl).
      - destruct (field hs this f); eauto. destruct (write_int o n z b); eauto.
      - destruct (field hs this f); eauto. destruct (write_int o n bits b); eauto.
      - destruct (hstring_of (field hs this f)) as [u|]; eauto. destruct (write_fixed u len pad lft b); eauto.
      - destruct (hstring_of (field hs this f)) as [u|]; eauto. destruct (write_dyn u zn zo n o b); eauto.
      - assert (EL := near0_elements hs (field hs this f) NS). pose proof (CM f) as C.
        destruct (field hs this f) as [| | | |l] eqn:Qf; cbn [elements]; eauto; [destruct (write_int zo zn 0 b); eauto|].
        change (match nth_error h l with Some (CList vs) => Some vs | _ => None end) with (elements h (HRef l)). change (match nth_error hs l with Some (CList vs) => Some vs | _ => None end) with (elements hs (HRef l)).
        rewrite (near0_elements h), (near0_elements hs) by auto. cbn [elements] in EL. cbn [elements].
        destruct (nth_error h0 l) as [[|vs]|] eqn:Q; eauto. destruct vs as [|v vs]; [destruct (write_int zo zn 0 b); eauto|].
        destruct (write_int o n _ b) as [[e|] b1]; eauto.
        assert (S : exists e b', henc_elems enc x hs (v :: vs) b1 = (e, hs, b') /\ henc_elems enc x h (v :: vs) b1 = (e, h, b')).
        { assert (D : x = XObj \/ x <> XObj) by (destruct x; auto; right; discriminate). assert (CV : x = XObj -> Forall calm (v :: vs)).
          { intros ->. destruct C as [C|C]; [|destruct (C v); cbn; exists (v :: vs); rewrite Qf; cbn [elements]; rewrite EL; cbn; auto]. apply Forall_forall. intros w Hw. apply (calm_elem (HRef l) (v :: vs)); auto. cbn. rewrite Q. reflexivity. }
          destruct D as [->|D].
          - destruct (same_elems h XObj (v :: vs) b1 N (CV eq_refl)) as (e & b' & Q1 & Q2). destruct (same_elems hs XObj (v :: vs) b1 NS (CV eq_refl)) as (e2 & b2 & Q3 & Q4). rewrite Q1 in Q3. injection Q3 as <- <-. eauto.
          - clear - D. generalize (v :: vs) b1. intros ws. induction ws as [|w ws IHw]; intros b; cbn [henc_elems]; eauto. destruct (even_write x hs w D) as (wr & _ & W1).
            assert (K : exists e b', henc_elem enc x hs w b = (e, hs, b') /\ henc_elem enc x h w b = (e, h, b')).
            { destruct x; cbn [henc_elem]; [| | | |contradiction].
              - destruct w; eauto. destruct (write_int o n z b); eauto.
              - destruct w; eauto. destruct (write_int o n bits b); eauto.
              - destruct (hstring_of w) as [s|]; eauto. destruct (write_fixed s len pad left b); eauto.
              - destruct (hstring_of w) as [s|]; eauto. destruct (write_dyn s zn zo n o b); eauto. }
            destruct K as (e & b' & -> & ->). destruct e; eauto. }
        destruct S as (e & b' & -> & ->). eauto.
      - destruct (CM f) as [C|C]; [|destruct (C (field hs this f)); reflexivity]. destruct (CALL _ C) as (e & b' & -> & ->). eauto.
      - pose proof (CM f) as C. destruct (field hs this f) as [| | | |l] eqn:Qf; eauto; (destruct C as [C|C]; [|destruct (C (field hs this f)); cbn; auto]; destruct (CALL _ C) as (e & b' & -> & ->); eauto).
      - eauto.
      - destruct (write_int o n 0 b); eauto.
      - destruct (assoc y loc) as [i|]; eauto. destruct (field hs this f); eauto. destruct (set_int o n i z b); eauto.
    Qed.
    Lemma same_body h this : near0 h -> quiet_object this -> calm (HRef this) -> forall ss loc b, Forall (fun s => assigner s = false) ss ->
      exists e loc' b', hexec_enc enc (checksum E) this ss (h0, loc, b) = (e, (h0, loc', b')) /\ hexec_enc enc (checksum E) this ss (h, loc, b) = (e, (h, loc', b')).
    Proof.
      intros N (c & fs & Q & FC) C ss. induction ss as [|s ss IHs]; intros loc b A; cbn [hexec_enc]; eauto. inversion A as [|? ? A1 A2]; subst.
      destruct (same_stmt h h0 this s loc b N near0_refl A1) as (e & loc' & b' & -> & ->).
      - intros f _. eapply near0_field; eauto. apply no_assigner. exact FC.
      - intros f. left. eapply calm_field; eauto.
      - destruct e; eauto.
    Qed.
  End Depth.
  Lemma quiet_calm l : calm (HRef l) -> forall c fs, nth_error h0 l = Some (CObj c fs) -> quiet_object l /\ forall cd, find_class E c = Some cd -> Forall (fun s => assigner s = false) (c_enc cd).
  Proof.
    intros C c fs Q. pose proof (C l c fs (reach_here h0 l) Q) as F. split; [exists c, fs; auto|]. intros cd K. unfold frame_class in F. rewrite K in F. apply Forall_forall. intros s I.
    destruct (assigner s) eqn:A; auto. assert (X : existsb assigner (c_enc cd) = true) by (apply existsb_exists; eauto). congruence.
  Qed.
  Lemma same_encode d : forall h v b, near0 h -> calm v -> exists e b', hencode E d h0 v b = (e, h0, b') /\ hencode E d h v b = (e, h, b').
  Proof.
    induction d as [|d IH]; intros h v b N C.
    - destruct v; cbn; eauto.
    - destruct v as [| | | |l]; cbn [hencode]; eauto. pose proof (near0_class h l N) as CL. destruct (nth_error h0 l) as [[c fs|vs]|] eqn:Q.
      + destruct (nth_error h l) as [[c' gs|]|]; try discriminate. injection CL as ->. destruct (find_class E c) as [cd|] eqn:K; eauto.
        destruct (quiet_calm l C c fs Q) as [QO A]. destruct (same_body (hencode E d) IH h l N QO C (c_enc cd) [] b (A cd K)) as (e & loc' & b' & -> & ->). eauto.
      + destruct (nth_error h l) as [[|]|]; try discriminate; eauto.
      + destruct (nth_error h l) as [[|]|]; try discriminate; eauto.
  Qed.
  (* two encodes of the same part *)
  Lemma even_encode : forall d1 d2 v, calm v -> even (hencode E d1) (hencode E d2) h0 v.
  Proof.
    induction d1 as [|d1 IH]; intros d2 v C B1 B2 bs b1 b2 h1 h2 b1' b2' F1 F2 W1 W2.
    - destruct v; discriminate.
    - destruct (same_encode (S d1) h0 v b1 near0_refl C) as (e1 & c1 & Q1 & _). destruct (same_encode d2 h0 v b2 near0_refl C) as (e2 & c2 & Q2 & _).
      assert (h1 = h0) by congruence. assert (h2 = h0) by congruence. subst h1 h2. split; auto. split; auto. clear e1 c1 e2 c2 Q1 Q2.
      destruct v as [| | | |l]; try discriminate. destruct d2 as [|d2]; [discriminate|]. cbn [hencode] in W1, W2. destruct (nth_error h0 l) as [[c fs|]|] eqn:Q; try discriminate.
      destruct (find_class E c) as [cd|] eqn:K; [|discriminate]. destruct (quiet_calm l C c fs Q) as [QO A]. specialize (A cd K).
      assert (G : forall ss l1 l2 c1 c2 g1 g2 l1' l2' c1' c2', Forall (fun s => assigner s = false) ss -> twins b1 b2 l1 l2 c1 c2 ->
        hexec_enc (hencode E d1) (checksum E) l ss (h0, l1, c1) = (None, (g1, l1', c1')) -> hexec_enc (hencode E d2) (checksum E) l ss (h0, l2, c2) = (None, (g2, l2', c2')) -> twins b1 b2 l1' l2' c1' c2').
      { clear W1 W2. induction ss as [|s ss IHs]; intros l1 l2 c1 c2 g1 g2 l1' l2' c1' c2' AS T W1 W2; cbn [hexec_enc] in W1, W2; [injection W1 as _ <- <-; injection W2 as _ <- <-; exact T|].
        inversion AS as [|? ? A1 A2]; subst.
        assert (SAME1 : exists e loc' b', hexec_estmt (hencode E d1) (checksum E) l s (h0, l1, c1) = (e, (h0, loc', b'))).
        { destruct (same_stmt (hencode E d1) (same_encode d1) h0 h0 l s l1 c1 near0_refl near0_refl A1 (fun f _ => eq_refl)) as (e & lo & bb & X & _); [intros f; left; eapply calm_field; eauto|eauto]. }
        assert (SAME2 : exists e loc' b', hexec_estmt (hencode E d2) (checksum E) l s (h0, l2, c2) = (e, (h0, loc', b'))).
        { destruct (same_stmt (hencode E d2) (same_encode d2) h0 h0 l s l2 c2 near0_refl near0_refl A1 (fun f _ => eq_refl)) as (e & lo & bb & X & _); [intros f; left; eapply calm_field; eauto|eauto]. }
        destruct SAME1 as (e1 & m1 & x1 & X1). destruct SAME2 as (e2 & m2 & x2 & X2). rewrite X1 in W1. rewrite X2 in W2. destruct e1; [discriminate|]. destruct e2; [discriminate|].
        destruct (twin_stmt (hencode E d1) (hencode E d2) (checksum E) l s h0 b1 b2 l1 l2 c1 c2 h0 h0 m1 m2 x1 x2) as [_ T']; auto.
        - apply F1.
        - apply F2.
        - intros w CL. apply IH. clear - CL C Q. destruct s; cbn [calls] in CL; try contradiction; [destruct x; try contradiction; destruct CL as (vs & EL & I); apply (calm_elem (field h0 l f) vs); auto; eapply calm_field; eauto| |]; subst w; eapply calm_field; eauto.
        - destruct s; try exact I; discriminate A1.
        - eapply IHs; eauto. }
      destruct (hexec_enc (hencode E d1) (checksum E) l (c_enc cd) (h0, [], b1)) as [e1 [[g1 m1] x1]] eqn:X1. destruct (hexec_enc (hencode E d2) (checksum E) l (c_enc cd) (h0, [], b2)) as [e2 [[g2 m2] x2]] eqn:X2.
      injection W1 as -> -> <-. injection W2 as -> -> <-.
      assert (S1 : sound b1) by apply F1. assert (S2 : sound b2) by apply F2.
      destruct (G (c_enc cd) [] [] b1 b2 h0 h0 m1 m2 x1 x2 A) as (xs & ks & Y1 & Y2 & _); auto.
      + exists [], []. unfold follows. rewrite !app_nil_r. repeat split; auto; try apply S1; try apply S2.
      + exists xs. destruct F1 as (FA & FB & _). destruct F2 as (FC & FD & _). destruct Y1 as (YA & YB & YC). destruct Y2 as (YD & YE & YF). unfold follows. rewrite YA, FA, YD, FC, !app_assoc, YB, YE. auto.
  Qed.
  Lemma even_near d1 d2 h v : near0 h -> calm v -> even (hencode E d1) (hencode E d2) h v.
  Proof.
    intros N C B1 B2 bs b1 b2 h1 h2 b1' b2' F1 F2 W1 W2. destruct (same_encode d1 h v b1 N C) as (e1 & c1 & P1 & Q1). destruct (same_encode d2 h v b2 N C) as (e2 & c2 & P2 & Q2).
    rewrite Q1 in W1. rewrite Q2 in W2. injection W1 as -> <- <-. injection W2 as -> <- <-. split; auto. split; auto. exact (proj2 (proj2 (even_encode d1 d2 v C B1 B2 bs b1 b2 h0 h0 c1 c2 F1 F2 P1 P2))).
  Qed.
End Heap0.
