(* One encode into two buffers: when both succeed they write the same bytes. *)
From Coq Require Import ZArith List Bool String Lia.
From Verif.Model Require Import JavaPrim ByteBuf Utf8 Codec Ast Interp Heap.
From Verif.Proofs Require Import BufFacts.
Import ListNotations.
Open Scope Z_scope.

(* the indices are in order *)
Definition sound (b : bytebuf) : Prop := (widx b <= List.length (arr b))%nat /\ Z.of_nat (List.length (arr b)) <= maxcap b.
(* b is B with bs behind it *)
Definition follows (B : bytebuf) (bs : list Z) (b : bytebuf) : Prop := content b = content B ++ bs /\ ridx b = ridx B /\ sound b.
Lemma content_len b : sound b -> List.length (content b) = widx b.
Proof. intros [H _]. unfold content. rewrite firstn_length. lia. Qed.
Lemma follows_widx B bs b : sound B -> follows B bs b -> widx b = (widx B + List.length bs)%nat.
Proof. intros S (C & _ & T). rewrite <- (content_len b T), C, app_length, (content_len B S). reflexivity. Qed.
Lemma grown_len b n : sound b -> Z.of_nat (widx b + n) <= maxcap b -> (widx b + n <= List.length (grown b n))%nat /\ Z.of_nat (List.length (grown b n)) <= maxcap b.
Proof.
  intros [H1 H2] Hn. unfold grown. destruct (Nat.leb_spec (widx b + n) (List.length (arr b))); [lia|].
  rewrite app_length, map_length, seq_length. set (t := Z.min _ _). assert (Z.of_nat (widx b + n) <= t <= maxcap b) by lia. lia.
Qed.
Lemma write_follows B bs b xs b' : follows B bs b -> write_bytes xs b = (None, b') -> follows B (bs ++ xs) b'.
Proof.
  intros (C & R & S) W. unfold write_bytes in W. destruct (Z.leb_spec (Z.of_nat (widx b + List.length xs)) (maxcap b)); [|discriminate]. injection W as <-.
  destruct (grown_len b (List.length xs) S) as [G1 G2]; [lia|]. split; [|split; [exact R|]].
  - unfold content. cbn [widx arr set_widx set_arr]. rewrite firstn_splice by lia. rewrite firstn_grown by apply S. fold (content b). rewrite C, app_assoc. reflexivity.
  - split; cbn [widx arr maxcap set_widx set_arr]; rewrite splice_length by lia; lia.
Qed.

(* functions that write the same bytes into every buffer they succeed on *)
Definition steady (w : bytebuf -> option exn * bytebuf) : Prop := forall B1 B2 bs b1 b2 b1' b2', follows B1 bs b1 -> follows B2 bs b2 ->
  w b1 = (None, b1') -> w b2 = (None, b2') -> exists xs, follows B1 (bs ++ xs) b1' /\ follows B2 (bs ++ xs) b2'.
Lemma steady_bytes xs : steady (write_bytes xs).
Proof. intros B1 B2 bs b1 b2 b1' b2' F1 F2 W1 W2. exists xs. split; eapply write_follows; eauto. Qed.
Lemma steady_int o n z : steady (write_int o n z).
Proof. apply steady_bytes. Qed.
Lemma steady_skip : steady (fun b => (None, b)).
Proof. intros B1 B2 bs b1 b2 b1' b2' F1 F2 [= <-] [= <-]. exists []. rewrite app_nil_r. auto. Qed.
Lemma steady_then w1 w2 : steady w1 -> steady w2 -> steady (fun b => match w1 b with (None, b') => w2 b' | r => r end).
Proof.
  intros S1 S2 B1 B2 bs b1 b2 b1' b2' F1 F2 W1 W2. destruct (w1 b1) as [[e1|] c1] eqn:Q1; [discriminate|]. destruct (w1 b2) as [[e2|] c2] eqn:Q2; [discriminate|].
  destruct (S1 B1 B2 bs b1 b2 c1 c2 F1 F2 Q1 Q2) as (xs & G1 & G2). destruct (S2 B1 B2 _ c1 c2 b1' b2' G1 G2 W1 W2) as (ys & H1 & H2). exists (xs ++ ys). rewrite app_assoc. auto.
Qed.
Lemma steady_ext w w' : (forall b, w b = w' b) -> steady w -> steady w'.
Proof. intros H S B1 B2 bs b1 b2 b1' b2' F1 F2 W1 W2. rewrite <- H in W1, W2. eauto. Qed.
Lemma steady_fail (e : exn) : steady (fun b => (Some e, b)).
Proof. intros B1 B2 bs b1 b2 b1' b2' F1 F2 W1. discriminate. Qed.
Lemma steady_if (c : bool) w w' : steady w -> steady w' -> steady (fun b => if c then w b else w' b).
Proof. destruct c; auto. Qed.
Lemma steady_pad n ch : steady (pad_loop n ch).
Proof. induction n as [|n IH]; [exact steady_skip|]. exact (steady_then _ _ (steady_int BE 1 ch) IH). Qed.
Lemma steady_prefix bs len : steady (write_prefix bs len).
Proof. unfold write_prefix. apply steady_if; [apply steady_fail|apply steady_bytes]. Qed.
Lemma steady_fixed s len ch lft : steady (write_fixed s len ch lft).
Proof.
  destruct s as [[|u s]|].
  - apply steady_ext with (fun b => if negb lft && (0 <? len) then pad_char (len - 0) ch b else (None, b)); [reflexivity|]. apply steady_if; [apply steady_pad|apply steady_skip].
  - set (bytes := utf8_encode (u :: s)). set (wr := Z.min (Z.of_nat (List.length bytes)) len).
    apply steady_ext with (fun b => match (fun b => match (if lft && (wr <? len) then pad_char (len - wr) ch b else (None, b)) with (None, b') => write_prefix bytes wr b' | r => r end) b with
      | (None, b') => if negb lft && (wr <? len) then pad_char (len - wr) ch b' else (None, b') | r => r end).
    + intros b. unfold write_fixed. fold bytes. fold wr. destruct (if lft && (wr <? len) then pad_char (len - wr) ch b else (None, b)) as [[e|] b0]; [reflexivity|]. destruct (write_prefix bytes wr b0) as [[e|] b1]; reflexivity.
    + apply (steady_then (fun b => match (if lft && (wr <? len) then pad_char (len - wr) ch b else (None, b)) with (None, b') => write_prefix bytes wr b' | r => r end)).
      * apply (steady_then (fun b => if lft && (wr <? len) then pad_char (len - wr) ch b else (None, b))); [apply steady_if; [apply steady_pad|apply steady_skip]|apply steady_prefix].
      * apply steady_if; [apply steady_pad|apply steady_skip].
  - apply steady_ext with (fun b => if negb lft && (0 <? len) then pad_char (len - 0) ch b else (None, b)); [reflexivity|]. apply steady_if; [apply steady_pad|apply steady_skip].
Qed.
Lemma steady_dyn s zn zo n o : steady (write_dyn s zn zo n o).
Proof.
  destruct s as [[|u s]|]; try (exact (steady_int zo zn 0)). exact (steady_then _ _ (steady_int o n _) (steady_bytes _)).
Qed.

(* setInt at a position noted while writing *)
Lemma firstn_splice_within (a : list Z) i w xs : (i <= w <= List.length a)%nat -> firstn w (splice a i xs) = firstn w (splice (firstn w a) i xs).
Proof.
  intros H. unfold splice. rewrite firstn_firstn, Nat.min_l by lia. rewrite !firstn_app, !firstn_firstn, firstn_length. f_equal. f_equal. rewrite skipn_firstn_comm, firstn_firstn. f_equal.
  rewrite (Nat.min_l i (List.length a)) by lia. lia.
Qed.
Lemma splice_behind (c xs p : list Z) k : (k <= List.length xs)%nat -> splice (c ++ xs) (List.length c + k) p = c ++ splice xs k p.
Proof.
  intros H. unfold splice. rewrite firstn_app_2, <- !app_assoc. f_equal. f_equal. f_equal. rewrite skipn_app. rewrite skipn_all2 by lia. cbn [app]. f_equal. lia.
Qed.
Lemma set_follows B bs b o n k z b' : sound B -> follows B bs b -> (k <= List.length bs)%nat -> set_int o n (widx B + k) z b = (None, b') ->
  follows B (firstn (List.length bs) (splice bs k (put_int o n z))) b'.
Proof.
  intros SB F K W. pose proof (follows_widx B bs b SB F) as WI. destruct F as (C & R & S). unfold set_int in W. destruct (Nat.leb_spec (widx B + k + n) (List.length (arr b))) as [L|]; [|discriminate]. injection W as <-.
  assert (LP : List.length (put_int o n z) = n).
  { unfold put_int. destruct o; rewrite map_length, ?rev_length, seq_length; reflexivity. }
  split; [|split; [exact R|]].
  - unfold content at 1. cbn [widx arr set_arr]. rewrite firstn_splice_within by (destruct S; lia). fold (content b). rewrite C.
    replace (widx B + k)%nat with (List.length (content B) + k)%nat by (rewrite content_len; auto). rewrite splice_behind by lia. rewrite WI. rewrite <- (content_len B SB). apply firstn_app_2.
  - destruct S. split; cbn [widx arr maxcap set_arr]; rewrite splice_length by lia; lia.
Qed.

(* ---- statements ---- *)
(* positions noted while writing, counted from where the buffers began *)
Definition marks (B : bytebuf) (ks : list (string * nat)) : list (string * nat) := map (fun xk => (fst xk, (widx B + snd xk)%nat)) ks.
Definition twins (B1 B2 : bytebuf) (l1 l2 : list (string * nat)) (b1 b2 : bytebuf) : Prop :=
  exists bs ks, follows B1 bs b1 /\ follows B2 bs b2 /\ l1 = marks B1 ks /\ l2 = marks B2 ks /\ Forall (fun xk => (snd xk <= List.length bs)%nat) ks.
Lemma twins_write w B1 B2 l1 l2 b1 b2 b1' b2' : steady w -> twins B1 B2 l1 l2 b1 b2 -> w b1 = (None, b1') -> w b2 = (None, b2') -> twins B1 B2 l1 l2 b1' b2'.
Proof.
  intros S (bs & ks & F1 & F2 & L1 & L2 & K) W1 W2. destruct (S B1 B2 bs b1 b2 b1' b2' F1 F2 W1 W2) as (xs & G1 & G2). exists (bs ++ xs), ks. repeat split; auto; try apply G1; try apply G2.
  refine (Forall_impl _ _ K). intros xk H. cbn in *. rewrite app_length. lia.
Qed.
Lemma marks_assoc B x ks : assoc x (marks B ks) = option_map (fun k => (widx B + k)%nat) (assoc x ks).
Proof. unfold marks. induction ks as [|[y k] ks IH]; cbn; auto. destruct (String.eqb x y); auto. Qed.
Lemma assoc_bound x ks n k : Forall (fun xk => (snd xk <= n)%nat) ks -> assoc x ks = Some k -> (k <= n)%nat.
Proof. induction 1 as [|[y j] ks H F IH]; cbn; [discriminate|]. destruct (String.eqb x y); [intros [= <-]; exact H|exact IH]. Qed.

(* nested calls that change no field *)
Definition even (E1 E2 : heap -> hval -> bytebuf -> option exn * heap * bytebuf) (h : heap) (v : hval) : Prop := forall B1 B2 bs b1 b2 h1 h2 b1' b2', follows B1 bs b1 -> follows B2 bs b2 ->
  E1 h v b1 = (None, h1, b1') -> E2 h v b2 = (None, h2, b2') -> h1 = h /\ h2 = h /\ exists xs, follows B1 (bs ++ xs) b1' /\ follows B2 (bs ++ xs) b2'.
Section Two.
  Variable E1 E2 : heap -> hval -> bytebuf -> option exn * heap * bytebuf.
  Variable sums : string -> option (list Z -> Z).
  Lemma even_write x h v : x <> XObj -> exists w, steady w /\ forall en b, henc_elem en x h v b = let '(e, b') := w b in (e, h, b').
  Proof.
    intros N. destruct x as [n o|n o|len pad lft|zn zo n o|]; [| | | |contradiction]; cbn [henc_elem].
    - destruct v; try (eexists; split; [apply (steady_fail TYPE)|reflexivity]); [eexists; split; [apply (steady_fail NPE)|reflexivity]|]. exists (write_int o n z). split; [apply steady_int|reflexivity].
    - destruct v; try (eexists; split; [apply (steady_fail TYPE)|reflexivity]); [eexists; split; [apply (steady_fail NPE)|reflexivity]|]. exists (write_int o n bits). split; [apply steady_int|reflexivity].
    - destruct (hstring_of v) as [s|]; [|eexists; split; [apply (steady_fail TYPE)|reflexivity]]. exists (write_fixed s len pad lft). split; [apply steady_fixed|reflexivity].
    - destruct (hstring_of v) as [s|]; [|eexists; split; [apply (steady_fail TYPE)|reflexivity]]. exists (write_dyn s zn zo n o). split; [apply steady_dyn|reflexivity].
  Qed.
  Lemma even_elem x h v : (x = XObj -> even E1 E2 h v) -> even (henc_elem E1 x) (henc_elem E2 x) h v.
  Proof.
    intros H. assert (D : x = XObj \/ x <> XObj) by (destruct x; auto; right; discriminate). destruct D as [->|D]; [exact (H eq_refl)|].
    destruct (even_write x h v D) as (w & S & Q). intros B1 B2 bs b1 b2 h1 h2 b1' b2' F1 F2 W1 W2. rewrite Q in W1, W2. destruct (w b1) as [e1 c1] eqn:Q1. destruct (w b2) as [e2 c2] eqn:Q2.
    injection W1 as -> <- <-. injection W2 as -> <- <-. split; auto. split; auto. exact (S B1 B2 bs b1 b2 c1 c2 F1 F2 Q1 Q2).
  Qed.
  Lemma even_elems x h : forall vs B1 B2 bs b1 b2 h1 h2 b1' b2', Forall (fun v => x = XObj -> even E1 E2 h v) vs -> follows B1 bs b1 -> follows B2 bs b2 ->
    henc_elems E1 x h vs b1 = (None, h1, b1') -> henc_elems E2 x h vs b2 = (None, h2, b2') -> h1 = h /\ h2 = h /\ exists xs, follows B1 (bs ++ xs) b1' /\ follows B2 (bs ++ xs) b2'.
  Proof.
    induction vs as [|v vs IH]; intros B1 B2 bs b1 b2 h1 h2 b1' b2' A F1 F2 W1 W2; cbn [henc_elems] in W1, W2.
    - injection W1 as <- <-. injection W2 as <- <-. split; auto. split; auto. exists []. rewrite app_nil_r. auto.
    - inversion A as [|? ? A1 A2]; subst. destruct (henc_elem E1 x h v b1) as [[[e1|] g1] c1] eqn:Q1; [discriminate|]. destruct (henc_elem E2 x h v b2) as [[[e2|] g2] c2] eqn:Q2; [discriminate|].
      destruct (even_elem x h v A1 B1 B2 bs b1 b2 g1 g2 c1 c2 F1 F2 Q1 Q2) as (-> & -> & xs & G1 & G2). destruct (IH B1 B2 _ c1 c2 h1 h2 b1' b2' A2 G1 G2 W1 W2) as (-> & -> & ys & H1 & H2).
      split; auto. split; auto. exists (xs ++ ys). rewrite app_assoc. auto.
  Qed.
  (* the parts that statement s of the object at this encodes *)
  Definition calls (h : heap) (this : nat) (s : estmt) (v : hval) : Prop :=
    match s with
    | EObj f | EObjOpt f => field h this f = v
    | EList f _ _ _ _ _ XObj => exists vs, elements h (field h this f) = Some vs /\ In v vs
    | _ => False
    end.
  (* a registered checksum sees the same bytes *)
  Definition same_sum (B1 B2 : bytebuf) (s : estmt) : Prop :=
    match s with ESum a _ => sums a = None \/ (readable B1 = readable B2 /\ (ridx B1 <= widx B1)%nat /\ (ridx B2 <= widx B2)%nat) | _ => True end.
  Lemma same_readable B bs b : sound B -> (ridx B <= widx B)%nat -> follows B bs b -> readable b = readable B ++ bs.
  Proof. intros S R (C & I & _). unfold readable. rewrite C, I, skipn_app, content_len by exact S. replace (ridx B - widx B)%nat with 0%nat by lia. reflexivity. Qed.
  Lemma twin_stmt this s h B1 B2 l1 l2 b1 b2 h1 h2 l1' l2' b1' b2' : sound B1 -> sound B2 -> (forall v, calls h this s v -> even E1 E2 h v) -> same_sum B1 B2 s -> twins B1 B2 l1 l2 b1 b2 ->
    hexec_estmt E1 sums this s (h, l1, b1) = (None, (h1, l1', b1')) -> hexec_estmt E2 sums this s (h, l2, b2) = (None, (h2, l2', b2')) -> h1 = h2 /\ twins B1 B2 l1' l2' b1' b2'.
  Proof.
    intros SB1 SB2 EV SS T.
    assert (SIMPLE : forall w : bytebuf -> option exn * bytebuf, steady w -> (let '(e, b') := w b1 in (e, (h, l1, b'))) = (None, (h1, l1', b1')) -> (let '(e, b') := w b2 in (e, (h, l2, b'))) = (None, (h2, l2', b2')) ->
      h1 = h2 /\ twins B1 B2 l1' l2' b1' b2').
    { intros w S W1 W2. destruct (w b1) as [e1 c1] eqn:Q1. destruct (w b2) as [e2 c2] eqn:Q2. injection W1 as -> <- <- <-. injection W2 as -> <- <- <-. split; auto. eapply twins_write; eauto. }
    assert (CALL : forall v, even E1 E2 h v -> (let '(e, h', b') := E1 h v b1 in (e, (h', l1, b'))) = (None, (h1, l1', b1')) -> (let '(e, h', b') := E2 h v b2 in (e, (h', l2, b'))) = (None, (h2, l2', b2')) ->
      h1 = h2 /\ twins B1 B2 l1' l2' b1' b2').
    { intros v EVv W1 W2. destruct (E1 h v b1) as [[e1 g1] c1] eqn:Q1. destruct (E2 h v b2) as [[e2 g2] c2] eqn:Q2. injection W1 as -> <- <- <-. injection W2 as -> <- <- <-.
      destruct T as (bs & ks & F1 & F2 & L1 & L2 & K). destruct (EVv B1 B2 bs b1 b2 g1 g2 c1 c2 F1 F2 Q1 Q2) as (-> & -> & xs & G1 & G2). split; auto. exists (bs ++ xs), ks. repeat split; auto; try apply G1; try apply G2.
      refine (Forall_impl _ _ K). intros xk H. cbn in *. rewrite app_length. lia. }
    destruct s as [n o f|n o f|f len pad lft|f zn zo n o|f zn zo ct n o x|f|f|y|n o|f y z|n o y f|a f]; cbn [hexec_estmt].
    - destruct (field h this f); try discriminate. apply SIMPLE. apply steady_int.
    - destruct (field h this f); try discriminate. apply SIMPLE. apply steady_int.
    - destruct (hstring_of (field h this f)); try discriminate. apply SIMPLE. apply steady_fixed.
    - destruct (hstring_of (field h this f)); try discriminate. apply SIMPLE. apply steady_dyn.
    - assert (LIST : forall vs, elements h (field h this f) = Some vs ->
        match write_int o n (wrap ct (Z.of_nat (List.length vs))) b1 with (None, b') => let '(e, h', b'') := henc_elems E1 x h vs b' in (e, (h', l1, b'')) | (Some e, b') => (Some e, (h, l1, b')) end = (None, (h1, l1', b1')) ->
        match write_int o n (wrap ct (Z.of_nat (List.length vs))) b2 with (None, b') => let '(e, h', b'') := henc_elems E2 x h vs b' in (e, (h', l2, b'')) | (Some e, b') => (Some e, (h, l2, b')) end = (None, (h2, l2', b2')) ->
        h1 = h2 /\ twins B1 B2 l1' l2' b1' b2').
      { intros vs EL W1 W2. destruct (write_int o n _ b1) as [[e1|] c1] eqn:Q1; [discriminate|]. destruct (write_int o n _ b2) as [[e2|] c2] eqn:Q2; [discriminate|].
        pose proof (twins_write _ B1 B2 l1 l2 b1 b2 c1 c2 (steady_int o n _) T Q1 Q2) as (bs & ks & F1 & F2 & L1 & L2 & K).
        destruct (henc_elems E1 x h vs c1) as [[e1 g1] d1] eqn:H1. destruct (henc_elems E2 x h vs c2) as [[e2 g2] d2] eqn:H2. injection W1 as -> <- <- <-. injection W2 as -> <- <- <-.
        destruct (even_elems x h vs B1 B2 bs c1 c2 g1 g2 d1 d2) as (-> & -> & xs & G1 & G2); auto.
        - apply Forall_forall. intros v Hv ->. apply EV. cbn. eauto.
        - split; auto. exists (bs ++ xs), ks. repeat split; auto; try apply G1; try apply G2. refine (Forall_impl _ _ K). intros xk H. cbn in *. rewrite app_length. lia. }
      destruct (field h this f) as [| | | |l] eqn:Qf; try discriminate; [apply SIMPLE; apply steady_int|]. destruct (elements h (HRef l)) as [[|v vs]|] eqn:EL; try discriminate; [apply SIMPLE; apply steady_int|]. apply LIST. reflexivity.
    - apply CALL. apply EV. reflexivity.
    - destruct (field h this f) eqn:Qf; [intros [= <- <- <-] [= <- <- <-]; auto| | | |]; apply CALL; apply EV; exact Qf.
    - intros [= <- <- <-] [= <- <- <-]. split; auto. destruct T as (bs & ks & F1 & F2 & L1 & L2 & K). exists bs, ((y, List.length bs) :: ks). repeat split; auto; try apply F1; try apply F2.
      + cbn. rewrite <- (follows_widx B1 bs b1 SB1 F1), L1. reflexivity.
      + cbn. rewrite <- (follows_widx B2 bs b2 SB2 F2), L2. reflexivity.
    - apply SIMPLE. apply steady_int.
    - destruct T as (bs & ks & F1 & F2 & -> & -> & K). rewrite !marks_assoc. destruct (assoc y ks) as [i|]; [|discriminate]. destruct (assoc z ks) as [j|]; [|discriminate]. cbn [option_map].
      intros [= <- <- <-] [= <- <- <-]. split; [f_equal; f_equal; f_equal; lia|]. exists bs, ks. auto.
    - destruct T as (bs & ks & F1 & F2 & -> & -> & K). rewrite !marks_assoc. destruct (assoc y ks) as [i|] eqn:Qy; [|discriminate]. cbn [option_map]. destruct (field h this f) as [|z| | |]; try discriminate.
      destruct (set_int o n (widx B1 + i) z b1) as [e1 c1] eqn:Q1. destruct (set_int o n (widx B2 + i) z b2) as [e2 c2] eqn:Q2. intros [= -> <- <- <-] [= -> <- <- <-]. split; auto.
      pose proof (assoc_bound y ks _ i K Qy) as Bi. exists (firstn (List.length bs) (splice bs i (put_int o n z))), ks. split; [eapply set_follows; eauto|]. split; [eapply set_follows; eauto|]. repeat split; auto.
      refine (Forall_impl _ _ K). intros xk H. cbn in *. rewrite firstn_length. unfold splice. rewrite !app_length, firstn_length, skipn_length. lia.
    - cbn [same_sum] in SS. destruct (sums a) as [c|] eqn:Qa; [|intros [= <- <- <-] [= <- <- <-]; auto]. destruct SS as [SS|(SR & R1 & R2)]; [discriminate|]. intros [= <- <- <-] [= <- <- <-]. split; auto.
      destruct T as (bs & ks & F1 & F2 & _). rewrite (same_readable B1 bs b1), (same_readable B2 bs b2), SR by auto. reflexivity.
  Qed.
End Two.
