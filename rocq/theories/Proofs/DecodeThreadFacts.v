(* Decoding one statement at a time: alone it is decode; with others, on messages that have nothing in common, it is as alone. *)
From Coq Require Import ZArith List Bool String Lia.
From Verif.Model Require Import JavaPrim ByteBuf Utf8 Codec Ast Interp Heap EncodeThreads DecodeThreads.
From Verif.Spec Require Import Sharing Apart.
From Verif.Proofs Require Import DecodeFacts HeapFacts.
Import ListNotations.
Open Scope nat_scope.

(* ---------- alone ---------- *)
Section Alone.
  Variable E : env.
  Fixpoint dsteps (n : nat) (st : heap * decoder) : heap * decoder := match n with O => st | S n => dsteps n (decoder_step E (fst st) (snd st)) end.
  Lemma dsteps_add n m st : dsteps (n + m) st = dsteps m (dsteps n st).
  Proof. revert st. induction n; intros st; cbn; auto. Qed.
  Definition arrives (k : list ditem) (d : nat) (e : option exn) (b : bytebuf) (t : decoder) : Prop :=
    match e with None => t = dgoes_on k d None b | Some x => dended t = Some (Some x) /\ src t = b end.
  Definition lands (h : heap) (t : decoder) (k : list ditem) (d : nat) (e : option exn) (h' : heap) (b : bytebuf) : Prop :=
    exists n t', dsteps n (h, t) = (h', t') /\ arrives k d e b t'.
  Lemma lands_now h k d e b : lands h (dgoes_on k d e b) k d e h b.
  Proof. exists 0, (dgoes_on k d e b). split; [reflexivity|]. destruct e; cbn; auto. Qed.
  Lemma lands_step h t h1 t1 k d e h' b : decoder_step E h t = (h1, t1) -> lands h1 t1 k d e h' b -> lands h t k d e h' b.
  Proof. intros S (n & t' & N & A). exists (1 + n), t'. split; auto. rewrite dsteps_add. cbn [dsteps fst snd]. rewrite S. exact N. Qed.
  Lemma lands_then h t k d h1 b1 k' d' e h' b : lands h t k d None h1 b1 -> lands h1 (dgoes_on k d None b1) k' d' e h' b -> lands h t k' d' e h' b.
  Proof. intros (n & t' & N & A) (m & t2 & M & B). cbn in A. subst. exists (n + m), t2. split; auto. now rewrite dsteps_add, N. Qed.
  Lemma lands_error h t k d k' d' x h' b : lands h t k d (Some x) h' b -> lands h t k' d' (Some x) h' b.
  Proof. auto. Qed.

  Section Deeper.
    Variable d : nat.
    Hypothesis IH : forall h v k b e h' b', hdecode E d h v b = (e, h', b') -> lands h (denter E h v k d b) k d e h' b'.
    Lemma elem_lands this f y n k h b e h' b' : hdec_elem (hdecode E d) (hnew E) this f y (h, b) = (e, (h', b')) ->
      lands h (dgoes_on (DLoop this f y (S n) :: k) d None b) (DLoop this f y n :: k) d e h' b'.
    Proof.
      intros H. destruct y as [w o|w o|len pad lft|w o|c].
      1-4: eapply lands_step; [cbn [decoder_step dended dgoes_on dstack droom src]; change (hdec_elem no_call (hnew E) this f ?y) with (hdec_elem (hdecode E d) (hnew E) this f y); rewrite H; reflexivity|apply lands_now].
      cbn [hdec_elem] in H. destruct (hnew E h c) as (h1, x) eqn:Hn. destruct (hdecode E d h1 x b) as [[e1 h2] b2] eqn:Hd.
      eapply lands_step; [cbn [decoder_step dended dgoes_on dstack droom src]; rewrite Hn; reflexivity|].
      pose proof (IH h1 x (DAdd this f x :: DLoop this f (YObj c) n :: k) b _ _ _ Hd) as L. destruct e1 as [e1|]; injection H as <- <- <-; [exact L|].
      eapply lands_then; [exact L|]. eapply lands_step; [reflexivity|]. apply lands_now.
    Qed.
    Lemma loop_lands this f y k : forall n h b e h' b', iter n (hdec_elem (hdecode E d) (hnew E) this f y) (h, b) = (e, (h', b')) ->
      lands h (dgoes_on (DLoop this f y n :: k) d None b) k d e h' b'.
    Proof.
      induction n as [|n IHn]; intros h b e h' b' H.
      - injection H as <- <- <-. eapply lands_step; [reflexivity|apply lands_now].
      - cbn [iter] in H. destruct (hdec_elem (hdecode E d) (hnew E) this f y (h, b)) as [[e1|] [h1 b1]] eqn:He; pose proof (elem_lands this f y n k h b _ _ _ He) as L.
        + injection H as <- <- <-. exact L.
        + eapply lands_then; [exact L|]. apply IHn. exact H.
    Qed.
    Lemma stmt_lands this c s r k h b e h' b' : hexec_dstmt (hdecode E d) (hnew E) (factory E c) this s (h, b) = (e, (h', b')) ->
      lands h (dgoes_on (DBody this c (s :: r) :: k) d None b) (DBody this c r :: k) d e h' b'.
    Proof.
      intros H. destruct s as [w o f|w o f|f len pad lft|f w o|f w o y|f c'|f|f k'].
      1-4, 6, 8: eapply lands_step; [cbn [decoder_step dended dgoes_on dstack droom src]; change (hexec_dstmt no_call (hnew E) (factory E c) this ?s) with (hexec_dstmt (hdecode E d) (hnew E) (factory E c) this s); rewrite H; reflexivity|apply lands_now].
      - cbn [hexec_dstmt] in H. destruct (read_bytes w b) as [[x|bs] b1] eqn:Hr.
        + injection H as <- <- <-. eapply lands_step; [cbn [decoder_step dended dgoes_on dstack droom src]; rewrite Hr; reflexivity|]. apply lands_now with (e := Some x).
        + destruct (get_int o bs >? 0)%Z eqn:G.
          * cbn [alloc_cell] in H. rewrite repeat_z_iter in H. eapply lands_step; [cbn [decoder_step dended dgoes_on dstack droom src]; rewrite Hr, G; cbn [alloc_cell]; reflexivity|]. apply loop_lands. exact H.
          * injection H as <- <- <-. eapply lands_step; [cbn [decoder_step dended dgoes_on dstack droom src]; rewrite Hr, G; reflexivity|]. apply lands_now with (e := None).
      - cbn [hexec_dstmt] in H. destruct (hdecode E d h (field h this f) b) as [[e1 h1] b1] eqn:Hd. injection H as <- <- <-.
        eapply lands_step; [reflexivity|]. apply IH. exact Hd.
    Qed.
    Lemma body_lands this c k : forall ss h b e h' b', hexec_dec (hdecode E d) (hnew E) (factory E c) this ss (h, b) = (e, (h', b')) ->
      lands h (dgoes_on (DBody this c ss :: k) d None b) k (S d) e h' b'.
    Proof.
      induction ss as [|s r IHs]; intros h b e h' b' H.
      - injection H as <- <- <-. eapply lands_step; [reflexivity|apply lands_now].
      - cbn [hexec_dec] in H. destruct (hexec_dstmt (hdecode E d) (hnew E) (factory E c) this s (h, b)) as [[e1|] [h1 b1]] eqn:He; pose proof (stmt_lands this c s r k h b _ _ _ He) as L.
        + injection H as <- <- <-. exact L.
        + eapply lands_then; [exact L|]. apply IHs. exact H.
    Qed.
  End Deeper.
  Lemma decode_lands : forall d h v k b e h' b', hdecode E d h v b = (e, h', b') -> lands h (denter E h v k d b) k d e h' b'.
  Proof.
    assert (Stop : forall h k d b x t, dended t = Some (Some x) -> src t = b -> lands h t k d (Some x) h b).
    { intros h k d b x t A B. exists 0, t. split; [reflexivity|]. cbn. auto. }
    induction d as [|d IHd]; intros h v k b e h' b' H.
    - destruct v; injection H as <- <- <-; apply Stop; reflexivity.
    - destruct v as [| | | |l]; cbn [hdecode] in H; try (injection H as <- <- <-; apply Stop; reflexivity). cbn [denter].
      destruct (nth_error h l) as [[c fs|vs]|]; try (injection H as <- <- <-; apply Stop; reflexivity).
      destruct (find_class E c) as [cd|]; [|injection H as <- <- <-; apply Stop; reflexivity].
      destruct (hexec_dec (hdecode E d) (hnew E) (factory E c) l (c_dec cd) (h, b)) as [e1 [h1 b1]] eqn:Hx. injection H as <- <- <-.
      apply (body_lands d IHd l c k (c_dec cd) h b). exact Hx.
  Qed.
  Theorem decoder_alone d h v b : exists n t e, dsteps n (h, denter E h v [] d b) = (snd (fst (hdecode E d h v b)), t) /\ dended t = Some e
    /\ e = fst (fst (hdecode E d h v b)) /\ src t = snd (hdecode E d h v b).
  Proof.
    destruct (hdecode E d h v b) as [[e h'] b'] eqn:H. destruct (decode_lands d h v [] b e h' b' H) as (n & t & N & A). cbn [fst snd].
    destruct e as [x|]; cbn [arrives] in A.
    - destruct A as [A B]. exists n, t, (Some x). auto.
    - subst t. exists (n + 1), {| dstack := []; droom := d; src := b'; dended := Some None |}, None. split; [|auto]. rewrite dsteps_add, N. reflexivity.
  Qed.
End Alone.

(* ---------- graphs of the same shape ---------- *)
Section Pairs.
  Variable E : env.
  Definition more (R R' : nat -> nat -> Prop) : Prop := forall a b, R a b -> R' a b.
  Lemma same_value_more R R' v w : more R R' -> same_value R v w -> same_value R' v w.
  Proof. intros M. destruct v, w; cbn; auto. Qed.
  Lemma same_cell_more R R' k m : more R R' -> same_cell R k m -> same_cell R' k m.
  Proof.
    intros M. destruct k as [c fs|vs], m as [c' gs|ws]; cbn; auto.
    - intros [-> F]. split; auto. clear -F M. induction F as [|x y l l' [A B] F IH]; constructor; auto. split; auto. eapply same_value_more; eauto.
    - intros F. clear -F M. induction F; constructor; auto. eapply same_value_more; eauto.
  Qed.
  Lemma pairs_bound R h g a b : pairs R h g -> R a b -> a < List.length h /\ b < List.length g.
  Proof. intros [P _] H. destruct (P a b H) as (k & m & A & B & _). split; apply nth_error_Some; congruence. Qed.
  Lemma hget_same R fs gs f : Forall2 (fun x y => fst x = fst y /\ same_value R (snd x) (snd y)) fs gs -> same_value R (hget f fs) (hget f gs).
  Proof. induction 1 as [|[x v] [y w] l l' [A B] F IH]; cbn in *; auto. subst y. destruct (String.eqb f x); auto. Qed.
  Lemma hset_same R fs gs f v w : Forall2 (fun x y => fst x = fst y /\ same_value R (snd x) (snd y)) fs gs -> same_value R v w ->
    Forall2 (fun x y => fst x = fst y /\ same_value R (snd x) (snd y)) (hset f v fs) (hset f w gs).
  Proof. intros F V. induction F as [|[x u] [y z] l l' [A B] F IH]; cbn in *; [constructor|]. subst y. destruct (String.eqb f x); constructor; cbn; auto. Qed.
  Lemma field_same R h g a b f : pairs R h g -> R a b -> same_value R (field h a f) (field g b f).
  Proof.
    intros [P _] H. destruct (P a b H) as (k & m & A & B & C). unfold field. rewrite A, B. destruct k as [c fs|vs], m as [c' gs|ws]; cbn in C; try contradiction; cbn; auto.
    destruct C as [_ F]. apply hget_same. exact F.
  Qed.
  (* replacing two paired cells *)
  Lemma upd_same R h g a b k m : pairs R h g -> R a b -> same_cell R k m -> pairs R (upd h a k) (upd g b m).
  Proof.
    intros [P J] H S. destruct (P a b H) as (k0 & m0 & A & B & _). split; auto. intros a' b' H'.
    destruct (Nat.eq_dec a' a) as [->|Na].
    - assert (b' = b) as -> by (apply (J _ _ _ _ H' H); reflexivity). exists k, m. rewrite !upd_at; auto; apply nth_error_Some; congruence.
    - assert (b' <> b) by (intros ->; apply Na; apply (J _ _ _ _ H' H); reflexivity). rewrite !upd_off by auto. apply P. exact H'.
  Qed.
  Lemma put_same R h g a b f v w : pairs R h g -> R a b -> same_value R v w -> pairs R (put_field h a f v) (put_field g b f w).
  Proof.
    intros P H V. pose proof P as [P0 _]. destruct (P0 a b H) as (k & m & A & B & C). unfold put_field. rewrite A, B. destruct k as [c fs|vs], m as [c' gs|ws]; cbn in C; try contradiction; auto.
    destruct C as [-> F]. apply upd_same; auto. cbn. split; auto. apply hset_same; auto.
  Qed.
  Lemma add_same R h g u u' v w : pairs R h g -> same_value R u u' -> same_value R v w -> pairs R (list_add h u v) (list_add g u' w).
  Proof.
    intros P H V. destruct u as [| | | |a], u' as [| | | |b]; cbn in H; try contradiction; cbn; auto. pose proof P as [P0 _]. destruct (P0 a b H) as (k & m & A & B & C). rewrite A, B.
    destruct k as [c fs|vs], m as [c' gs|ws]; cbn in C; try contradiction; auto. apply upd_same; auto. cbn. apply Forall2_app; auto.
  Qed.
  Definition plus (R : nat -> nat -> Prop) (n m : nat) : nat -> nat -> Prop := fun a b => R a b \/ (a = n /\ b = m).
  Lemma plus_more R n m : more R (plus R n m). Proof. intros a b H. left. exact H. Qed.
  Lemma alloc_same R h g k m : pairs R h g -> same_cell R k m -> pairs (plus R (List.length h) (List.length g)) (h ++ [k]) (g ++ [m]).
  Proof.
    intros P S. pose proof P as [P0 J]. split.
    - intros a b [H|[-> ->]].
      + destruct (P0 a b H) as (k0 & m0 & A & B & C). exists k0, m0. rewrite !nth_error_app1 by (apply nth_error_Some; congruence). repeat split; auto. eapply same_cell_more; [apply plus_more|exact C].
      + exists k, m. rewrite !nth_error_app2 by lia. rewrite !Nat.sub_diag. repeat split; auto. eapply same_cell_more; [apply plus_more|exact S].
    - intros a b a' b' [H|[-> ->]] [H'|[-> ->]]; auto; try tauto.
      + destruct (pairs_bound R h g a b P H). lia.
      + destruct (pairs_bound R h g a' b' P H'). lia.
  Qed.
  (* the cells of g that have no partner are as they were; new pairs are new cells *)
  Definition moved (R : nat -> nat -> Prop) (h g : heap) (R' : nat -> nat -> Prop) (h' g' : heap) : Prop :=
    pairs R' h' g' /\ more R R' /\ (forall a b, R' a b -> R a b \/ List.length g <= b) /\ List.length g <= List.length g'
    /\ (forall b, b < List.length g -> (forall a, ~ R a b) -> nth_error g' b = nth_error g b).
  Lemma moved_refl R h g : pairs R h g -> moved R h g R h g.
  Proof. intros P. split; [exact P|]. split; [intros a b H; exact H|]. split; auto. Qed.
  Lemma moved_trans R h g R1 h1 g1 R2 h2 g2 : moved R h g R1 h1 g1 -> moved R1 h1 g1 R2 h2 g2 -> moved R h g R2 h2 g2.
  Proof.
    intros (P1 & M1 & N1 & L1 & F1) (P2 & M2 & N2 & L2 & F2). split; auto. split; [intros a b H; auto|]. split; [|split; [lia|]].
    - intros a b H. destruct (N2 a b H) as [H1|H1]; [apply N1; exact H1|right; lia].
    - intros b Hb Hn. rewrite F2; [apply F1; auto|lia|]. intros a H. destruct (N1 a b H) as [H1|H1]; [apply (Hn a H1)|lia].
  Qed.
  Lemma put_moved R h g a b f v w : pairs R h g -> R a b -> same_value R v w -> moved R h g R (put_field h a f v) (put_field g b f w).
  Proof.
    intros P H V. split; [apply put_same; auto|]. split; [intros x y Q; exact Q|]. split; auto. split; [now rewrite put_length|].
    intros c Hc Hn. apply put_off. intros ->. exact (Hn a H).
  Qed.
  Lemma add_moved R h g u u' v w : pairs R h g -> same_value R u u' -> same_value R v w -> moved R h g R (list_add h u v) (list_add g u' w).
  Proof.
    intros P H V. split; [apply add_same; auto|]. split; [intros x y Q; exact Q|]. split; auto. destruct u as [| | | |a], u' as [| | | |b]; cbn in H; try contradiction; cbn; auto.
    destruct (nth_error g b) as [[c fs|vs]|] eqn:Q; auto. split; [now rewrite upd_length|]. intros c Hc Hn. apply upd_off. intros ->. exact (Hn a H).
  Qed.
  Lemma alloc_moved R h g k m : pairs R h g -> same_cell R k m -> moved R h g (plus R (List.length h) (List.length g)) (h ++ [k]) (g ++ [m]).
  Proof.
    intros P S. split; [apply alloc_same; auto|]. split; [apply plus_more|]. split; [intros a b [H|[_ ->]]; auto|]. rewrite app_length. split; [lia|].
    intros b Hb _. apply nth_error_app1. exact Hb.
  Qed.
  Lemma defaults_same R cd : Forall2 (fun x y => fst x = fst y /\ same_value R (snd x) (snd y)) (map (fun ft => (fst ft, hdefault (snd ft))) (c_fields cd)) (map (fun ft => (fst ft, hdefault (snd ft))) (c_fields cd)).
  Proof. induction (c_fields cd) as [|[f t] l IH]; cbn; constructor; auto. split; auto. destruct t; cbn; auto. Qed.
  Lemma new_moved R h g c : pairs R h g -> exists R', moved R h g R' (fst (hnew E h c)) (fst (hnew E g c)) /\ same_value R' (snd (hnew E h c)) (snd (hnew E g c)).
  Proof.
    intros P. unfold hnew. destruct (find_class E c) as [cd|]; cbn [alloc_cell fst snd].
    - eexists. split; [apply alloc_moved; auto; cbn; split; auto; apply defaults_same|]. cbn. right. auto.
    - exists R. split; [apply moved_refl; auto|reflexivity].
  Qed.
End Pairs.

(* ---------- one step, in two heaps ---------- *)
Section Steps.
  Variable E : env.
  Lemma same_value_string R v w : same_value R v w -> hstring_of v = hstring_of w.
  Proof. destruct v, w; cbn; intros H; try contradiction; try congruence; injection H as ->; auto. Qed.
  Lemma same_value_key R v w : same_value R v w -> hkey_of v = hkey_of w.
  Proof. destruct v, w; cbn; intros H; try contradiction; try congruence; injection H as ->; auto. Qed.
  Definition ditem_same (R : nat -> nat -> Prop) (x y : ditem) : Prop :=
    match x, y with
    | DBody a c ss, DBody b c' ss' => R a b /\ c = c' /\ ss = ss'
    | DLoop a f y n, DLoop b f' y' n' => R a b /\ f = f' /\ y = y' /\ n = n'
    | DAdd a f v, DAdd b f' w => R a b /\ f = f' /\ same_value R v w
    | _, _ => False
    end.
  Definition decoder_same (R : nat -> nat -> Prop) (t u : decoder) : Prop := Forall2 (ditem_same R) (dstack t) (dstack u) /\ droom t = droom u /\ src t = src u /\ dended t = dended u.
  Lemma ditem_more R R' x y : more R R' -> ditem_same R x y -> ditem_same R' x y.
  Proof. intros M. destruct x, y; cbn; intuition. eapply same_value_more; eauto. Qed.
  Lemma ditems_more R R' l m : more R R' -> Forall2 (ditem_same R) l m -> Forall2 (ditem_same R') l m.
  Proof. intros M F. induction F; constructor; auto. eapply ditem_more; eauto. Qed.
  Lemma dgoes_same R k k' d e b : Forall2 (ditem_same R) k k' -> decoder_same R (dgoes_on k d e b) (dgoes_on k' d e b).
  Proof. intros F. destruct e; repeat split; cbn; auto. Qed.
  Lemma dstop_same R d e b : decoder_same R {| dstack := []; droom := d; src := b; dended := e |} {| dstack := []; droom := d; src := b; dended := e |}.
  Proof. repeat split; cbn; auto. Qed.
  Lemma denter_same R h g v w k k' d b : pairs R h g -> same_value R v w -> Forall2 (ditem_same R) k k' -> decoder_same R (denter E h v k d b) (denter E g w k' d b).
  Proof.
    intros P V F. destruct v as [| | | |a], w as [| | | |b0]; cbn in V; try contradiction; try discriminate; destruct d as [|d]; cbn [denter]; try apply dstop_same.
    destruct P as [P _]. destruct (P a b0 V) as (x & y & A & B & C). rewrite A, B. destruct x as [c fs|vs], y as [c' gs|ws]; cbn in C; try contradiction; try apply dstop_same.
    destruct C as [-> _]. destruct (find_class E c') as [cd|]; [|apply dstop_same]. split; [|auto]. cbn. constructor; auto. cbn. auto.
  Qed.
  (* what a statement or an element does in the other heap *)
  Definition along (R : nat -> nat -> Prop) (h g : heap) (x y : option exn * (heap * bytebuf)) : Prop :=
    exists R', fst x = fst y /\ snd (snd x) = snd (snd y) /\ moved R h g R' (fst (snd x)) (fst (snd y)).
  Lemma along_put R h g a b f v e (c : bytebuf) : pairs R h g -> R a b -> (forall R, same_value R v v) -> along R h g (e, (put_field h a f v, c)) (e, (put_field g b f v, c)).
  Proof. intros P H V. exists R. split; auto. split; auto. apply put_moved; auto. Qed.
  Lemma along_add R h g a b f v e (c : bytebuf) : pairs R h g -> R a b -> (forall R, same_value R v v) -> along R h g (e, (list_add h (field h a f) v, c)) (e, (list_add g (field g b f) v, c)).
  Proof. intros P H V. exists R. split; auto. split; auto. apply add_moved; auto. apply field_same; auto. Qed.
  Lemma along_stay R h g e (c : bytebuf) : pairs R h g -> along R h g (e, (h, c)) (e, (g, c)).
  Proof. intros P. exists R. split; auto. split; auto. apply moved_refl; auto. Qed.
  Lemma elem_along R h g a b f y c : pairs R h g -> R a b -> (forall k, y <> YObj k) -> along R h g (hdec_elem no_call (hnew E) a f y (h, c)) (hdec_elem no_call (hnew E) b f y (g, c)).
  Proof.
    intros P H N. destruct y as [w o|w o|len pad lft|w o|k]; cbn [hdec_elem]; [| | | |exfalso; apply (N k); reflexivity].
    - destruct (read_bytes w c) as [[e|bs] c']; [apply along_stay; auto|apply along_add; auto; reflexivity].
    - destruct (read_bytes w c) as [[e|bs] c']; [apply along_stay; auto|apply along_add; auto; reflexivity].
    - destruct (read_fixed len pad lft c) as [[e|bs] c']; [apply along_stay; auto|apply along_add; auto; reflexivity].
    - destruct (read_bytes w c) as [[e|bs] c']; [apply along_stay; auto|]. destruct (get_int o bs >? 0)%Z; [|apply along_stay; auto].
      destruct (read_chars (get_int o bs) c') as [[e|cs] c'']; [apply along_stay; auto|apply along_add; auto; reflexivity].
  Qed.
  Lemma stmt_along R h g a b k s c : pairs R h g -> R a b -> (forall f, s <> DObj f) -> (forall f n o y, s <> DList f n o y) ->
    along R h g (hexec_dstmt no_call (hnew E) (factory E k) a s (h, c)) (hexec_dstmt no_call (hnew E) (factory E k) b s (g, c)).
  Proof.
    intros P H N1 N2.
    assert (NEW : forall f c', along R h g (let '(h1, x) := hnew E h c' in (None, (put_field h1 a f x, c))) (let '(h1, x) := hnew E g c' in (None, (put_field h1 b f x, c)))).
    { intros f c'. destruct (new_moved E R h g c' P) as (R' & M & V). destruct (hnew E h c') as (h1, x), (hnew E g c') as (g1, y). cbn [fst snd] in *. exists R'. split; auto. split; auto. cbn [fst snd].
      eapply moved_trans; [exact M|]. destruct M as (P1 & M1 & _). apply put_moved; auto. }
    destruct s as [w o f|w o f|f len pad lft|f w o|f w o y|f c'|f|f k']; cbn [hexec_dstmt].
    - destruct (read_bytes w c) as [[e|bs] c']; [apply along_stay; auto|apply along_put; auto; reflexivity].
    - destruct (read_bytes w c) as [[e|bs] c']; [apply along_stay; auto|apply along_put; auto; reflexivity].
    - destruct (read_fixed len pad lft c) as [[e|bs] c']; [apply along_stay; auto|apply along_put; auto; reflexivity].
    - destruct (read_bytes w c) as [[e|bs] c']; [apply along_stay; auto|]. destruct (get_int o bs >? 0)%Z; [|apply along_stay; auto].
      destruct (read_chars (get_int o bs) c') as [[e|cs] c'']; [apply along_stay; auto|apply along_put; auto; reflexivity].
    - exfalso. eapply N2. reflexivity.
    - pose proof (field_same R h g a b f P H) as V. destruct (field h a f), (field g b f); cbn in V; try contradiction; try discriminate; try (apply along_stay; auto). apply NEW.
    - exfalso. eapply N1. reflexivity.
    - rewrite (same_value_key R _ _ (field_same R h g a b k' P H)). destruct (hkey_of (field g b k')) as [kk|]; [|apply along_stay; auto]. destruct (factory E k kk) as [c'|]; [|apply along_stay; auto]. apply NEW.
  Qed.
  Lemma decoder_step_same R h g t u : pairs R h g -> decoder_same R t u ->
    exists R', moved R h g R' (fst (decoder_step E h t)) (fst (decoder_step E g u)) /\ decoder_same R' (snd (decoder_step E h t)) (snd (decoder_step E g u)).
  Proof.
    intros P (F & Er & Es & Ee). destruct t as [st d b e], u as [su d' b' e']. cbn [dstack droom src dended] in *. subst d' b' e'. unfold decoder_step. cbn [dstack droom src dended].
    destruct e as [e|]. { exists R. split; [apply moved_refl; auto|]. repeat split; auto. }
    destruct F as [|x y st su I F]. { exists R. split; [apply moved_refl; auto|apply dstop_same]. }
    destruct x as [a c ss|a f z n|a f v], y as [a' c' ss'|a' f' z' n'|a' f' v']; cbn [ditem_same] in I; try contradiction.
    - destruct I as (I & <- & <-). destruct ss as [|s r]. { exists R. split; [apply moved_refl; auto|apply dgoes_same; auto]. }
      assert (FK : forall R', more R R' -> Forall2 (ditem_same R') (DBody a c r :: st) (DBody a' c r :: su)). { intros R' M. constructor; [cbn; auto|eapply ditems_more; eauto]. }
      assert (GO : (forall f, s <> DObj f) -> (forall f n o y, s <> DList f n o y) -> exists R', moved R h g R' (fst (let '(e, (h', b')) := hexec_dstmt no_call (hnew E) (factory E c) a s (h, b) in (h', dgoes_on (DBody a c r :: st) d e b')))
          (fst (let '(e, (h', b')) := hexec_dstmt no_call (hnew E) (factory E c) a' s (g, b) in (h', dgoes_on (DBody a' c r :: su) d e b')))
          /\ decoder_same R' (snd (let '(e, (h', b')) := hexec_dstmt no_call (hnew E) (factory E c) a s (h, b) in (h', dgoes_on (DBody a c r :: st) d e b')))
          (snd (let '(e, (h', b')) := hexec_dstmt no_call (hnew E) (factory E c) a' s (g, b) in (h', dgoes_on (DBody a' c r :: su) d e b')))).
      { intros N1 N2. destruct (stmt_along R h g a a' c s b P I N1 N2) as (R' & A & B & M). destruct (hexec_dstmt no_call (hnew E) (factory E c) a s (h, b)) as [e1 [h1 b1]], (hexec_dstmt no_call (hnew E) (factory E c) a' s (g, b)) as [e2 [h2 b2]].
        cbn [fst snd] in *. subst e2 b2. exists R'. split; auto. apply dgoes_same, FK. apply M. }
      destruct s as [w o f|w o f|f len pad lft|f w o|f w o y|f c'|f|f k']; try (apply GO; intros; discriminate).
      + destruct (read_bytes w b) as [[e|bs] b1]. { exists R. split; [apply moved_refl; auto|]. apply dgoes_same, FK. intros p q Q; exact Q. }
        destruct (get_int o bs >? 0)%Z. 2: { exists R. split; [apply moved_refl; auto|]. apply dgoes_same, FK. intros p q Q; exact Q. }
        cbn [alloc_cell fst snd]. exists (plus R (List.length h) (List.length g)). split.
        * eapply moved_trans; [apply (alloc_moved R h g (CList []) (CList []) P); constructor|]. apply put_moved; [apply alloc_same; auto; constructor|left; exact I|right; auto].
        * apply dgoes_same. constructor; [cbn; repeat split; auto; left; exact I|]. apply FK. apply plus_more.
      + exists R. cbn [fst snd]. split; [apply moved_refl; auto|]. apply denter_same; auto; [apply field_same; auto|]. apply FK. intros p q Q; exact Q.
    - destruct I as (I & <- & <- & <-). destruct n as [|n]. { exists R. split; [apply moved_refl; auto|apply dgoes_same; auto]. }
      assert (FK : forall R', more R R' -> Forall2 (ditem_same R') (DLoop a f z n :: st) (DLoop a' f z n :: su)). { intros R' M. constructor; [cbn; auto|eapply ditems_more; eauto]. }
      assert (GO : (forall k, z <> YObj k) -> exists R', moved R h g R' (fst (let '(e, (h', b')) := hdec_elem no_call (hnew E) a f z (h, b) in (h', dgoes_on (DLoop a f z n :: st) d e b')))
          (fst (let '(e, (h', b')) := hdec_elem no_call (hnew E) a' f z (g, b) in (h', dgoes_on (DLoop a' f z n :: su) d e b')))
          /\ decoder_same R' (snd (let '(e, (h', b')) := hdec_elem no_call (hnew E) a f z (h, b) in (h', dgoes_on (DLoop a f z n :: st) d e b')))
          (snd (let '(e, (h', b')) := hdec_elem no_call (hnew E) a' f z (g, b) in (h', dgoes_on (DLoop a' f z n :: su) d e b')))).
      { intros N. destruct (elem_along R h g a a' f z b P I N) as (R' & A & B & M). destruct (hdec_elem no_call (hnew E) a f z (h, b)) as [e1 [h1 b1]], (hdec_elem no_call (hnew E) a' f z (g, b)) as [e2 [h2 b2]].
        cbn [fst snd] in *. subst e2 b2. exists R'. split; auto. apply dgoes_same, FK. apply M. }
      destruct z as [w o|w o|len pad lft|w o|k]; try (apply GO; intros; discriminate).
      destruct (new_moved E R h g k P) as (R' & M & V). destruct (hnew E h k) as (h1, x), (hnew E g k) as (g1, y). cbn [fst snd] in *. exists R'. split; auto. pose proof M as (P1 & M1 & _).
      apply denter_same; auto. constructor; [cbn; auto|]. apply FK. exact M1.
    - destruct I as (I & <- & V). exists R. cbn [fst snd]. split; [apply add_moved; auto; apply field_same; auto|apply dgoes_same; auto].
  Qed.

  (* ---- encode ---- *)
  Definition eitem_same (R : nat -> nat -> Prop) (x y : item) : Prop :=
    match x, y with
    | Body a ss loc, Body b ss' loc' => R a b /\ ss = ss' /\ loc = loc'
    | Loop x vs, Loop y ws => x = y /\ Forall2 (same_value R) vs ws
    | _, _ => False
    end.
  Definition encoder_same (R : nat -> nat -> Prop) (t u : encoder) : Prop := Forall2 (eitem_same R) (stack t) (stack u) /\ room t = room u /\ out t = out u /\ ended t = ended u.
  Lemma goes_same R k k' d e b : Forall2 (eitem_same R) k k' -> encoder_same R (goes_on k d e b) (goes_on k' d e b).
  Proof. intros F. destruct e; repeat split; cbn; auto. Qed.
  Lemma stop_same R d e b : encoder_same R {| stack := []; room := d; out := b; ended := e |} {| stack := []; room := d; out := b; ended := e |}.
  Proof. repeat split; cbn; auto. Qed.
  Lemma enter_same R h g v w k k' t u : pairs R h g -> same_value R v w -> Forall2 (eitem_same R) k k' -> room t = room u -> out t = out u -> encoder_same R (enter E h v k t) (enter E g w k' u).
  Proof.
    intros P V F Er Eo. unfold enter. rewrite Er, Eo. destruct v as [| | | |a], w as [| | | |b0]; cbn in V; try contradiction; try discriminate; destruct (room u) as [|d]; try apply stop_same.
    destruct P as [P _]. destruct (P a b0 V) as (x & y & A & B & C). rewrite A, B. destruct x as [c fs|vs], y as [c' gs|ws]; cbn in C; try contradiction; try apply stop_same.
    destruct C as [-> _]. destruct (find_class E c') as [cd|]; [|apply stop_same]. split; [|auto]. cbn. constructor; auto. cbn. auto.
  Qed.
  Lemma estmt_same R h g a b s loc c : pairs R h g -> R a b -> (forall f, s <> EObj f) -> (forall f, s <> EObjOpt f) -> (forall f zn zo k n o x, s <> EList f zn zo k n o x) ->
    let x := hexec_estmt no_call (checksum E) a s (h, loc, c) in let y := hexec_estmt no_call (checksum E) b s (g, loc, c) in
    fst x = fst y /\ snd (fst (snd x)) = snd (fst (snd y)) /\ snd (snd x) = snd (snd y) /\ moved R h g R (fst (fst (snd x))) (fst (fst (snd y))).
  Proof.
    intros P H N1 N2 N3. pose proof (moved_refl R h g P) as M. destruct s as [n o f|n o f|f len pad lft|f zn zo n o|f zn zo k n o x|f|f|x|n o|f x y|n o x f|alg f]; cbn [hexec_estmt].
    - pose proof (field_same R h g a b f P H) as V. destruct (field h a f), (field g b f); cbn in V; try contradiction; try discriminate; try injection V as <-; cbn; auto. destruct (write_int o n z c); cbn; auto.
    - pose proof (field_same R h g a b f P H) as V. destruct (field h a f), (field g b f); cbn in V; try contradiction; try discriminate; try injection V as <-; cbn; auto. destruct (write_int o n bits c); cbn; auto.
    - rewrite (same_value_string R _ _ (field_same R h g a b f P H)). destruct (hstring_of (field g b f)); cbn; auto. destruct (write_fixed j len pad lft c); cbn; auto.
    - rewrite (same_value_string R _ _ (field_same R h g a b f P H)). destruct (hstring_of (field g b f)); cbn; auto. destruct (write_dyn j zn zo n o c); cbn; auto.
    - exfalso. eapply N3. reflexivity.
    - exfalso. eapply N1. reflexivity.
    - exfalso. eapply N2. reflexivity.
    - cbn. auto.
    - destruct (write_int o n 0 c); cbn; auto.
    - destruct (assoc x loc), (assoc y loc); cbn [fst snd]; auto. split; auto. split; auto. split; auto. apply put_moved; auto; reflexivity.
    - pose proof (field_same R h g a b f P H) as V. destruct (assoc x loc); [|cbn; auto]. destruct (field h a f), (field g b f); cbn in V; try contradiction; try discriminate; try injection V as <-; cbn; auto. destruct (set_int o n n0 z c); cbn; auto.
    - destruct (checksum E alg); [|cbn; auto]. cbn [fst snd]. split; auto. split; auto. split; auto. apply put_moved; auto. reflexivity.
  Qed.
  Lemma eelem_same R h g x v w b : pairs R h g -> same_value R v w -> x <> XObj ->
    exists e b', henc_elem no_call x h v b = (e, h, b') /\ henc_elem no_call x g w b = (e, g, b').
  Proof.
    intros P V N. destruct x as [n o|n o|len pad lft|zn zo n o|]; cbn [henc_elem]; [| | | |congruence].
    - destruct v, w; cbn in V; try contradiction; try discriminate; try injection V as <-; eauto. destruct (write_int o n z b); eauto.
    - destruct v, w; cbn in V; try contradiction; try discriminate; try injection V as <-; eauto. destruct (write_int o n bits b); eauto.
    - rewrite (same_value_string R _ _ V). destruct (hstring_of w); eauto. destruct (write_fixed j len pad lft b); eauto.
    - rewrite (same_value_string R _ _ V). destruct (hstring_of w); eauto. destruct (write_dyn j zn zo n o b); eauto.
  Qed.
  Lemma elements_same R h g v w : pairs R h g -> same_value R v w -> match elements h v, elements g w with Some vs, Some ws => Forall2 (same_value R) vs ws | None, None => True | _, _ => False end.
  Proof.
    intros [P _] V. destruct v as [| | | |a], w as [| | | |b]; cbn in V; try contradiction; try discriminate; cbn; auto. destruct (P a b V) as (x & y & A & B & C). rewrite A, B. destruct x, y; cbn in C; try contradiction; auto.
  Qed.
  Lemma same_length R vs ws : Forall2 (same_value R) vs ws -> List.length vs = List.length ws.
  Proof. intros F. induction F; cbn; auto. Qed.
  Lemma encoder_step_same R h g t u : pairs R h g -> encoder_same R t u ->
    moved R h g R (fst (encoder_step E h t)) (fst (encoder_step E g u)) /\ encoder_same R (snd (encoder_step E h t)) (snd (encoder_step E g u)).
  Proof.
    intros P (F & Er & Es & Ee). destruct t as [st d b e], u as [su d' b' e']. cbn [stack room out ended] in *. subst d' b' e'. unfold encoder_step. cbn [stack room out ended].
    pose proof (moved_refl R h g P) as M0.
    destruct e as [e|]. { split; [exact M0|]. repeat split; auto. }
    destruct F as [|x y st su I F]. { split; [exact M0|apply stop_same]. }
    destruct x as [a ss loc|x vs], y as [a' ss' loc'|y ws]; cbn [eitem_same] in I; try contradiction.
    - destruct I as (I & <- & <-). destruct ss as [|s r]. { split; [exact M0|]. repeat split; auto. }
      assert (FK : forall l, Forall2 (eitem_same R) (Body a r l :: st) (Body a' r l :: su)). { intros l. constructor; [cbn; auto|auto]. }
      assert (GO : (forall f, s <> EObj f) -> (forall f, s <> EObjOpt f) -> (forall f zn zo k n o x, s <> EList f zn zo k n o x) ->
          moved R h g R (fst (let '(e, (h', loc', b0)) := hexec_estmt no_call (checksum E) a s (h, loc, b) in (h', goes_on (Body a r loc' :: st) d e b0))) (fst (let '(e, (h', loc', b0)) := hexec_estmt no_call (checksum E) a' s (g, loc, b) in (h', goes_on (Body a' r loc' :: su) d e b0)))
          /\ encoder_same R (snd (let '(e, (h', loc', b0)) := hexec_estmt no_call (checksum E) a s (h, loc, b) in (h', goes_on (Body a r loc' :: st) d e b0))) (snd (let '(e, (h', loc', b0)) := hexec_estmt no_call (checksum E) a' s (g, loc, b) in (h', goes_on (Body a' r loc' :: su) d e b0)))).
      { intros N1 N2 N3. pose proof (estmt_same R h g a a' s loc b P I N1 N2 N3) as S. cbv zeta in S. destruct (hexec_estmt no_call (checksum E) a s (h, loc, b)) as [e1 [[h1 l1] b1]], (hexec_estmt no_call (checksum E) a' s (g, loc, b)) as [e2 [[h2 l2] b2]].
        cbn [fst snd] in *. destruct S as (<- & <- & <- & M). split; auto. apply goes_same, FK. }
      destruct s as [n o f|n o f|f len pad lft|f zn zo n o|f zn zo k n o x|f|f|x|n o|f x y|n o x f|alg f]; try (apply GO; intros; discriminate).
      + pose proof (field_same R h g a a' f P I) as V. pose proof (elements_same R h g _ _ P V) as EL.
        assert (Z0 : forall k k', Forall2 (eitem_same R) k k' -> moved R h g R (fst (let '(e, b0) := write_int zo zn 0 b in (h, goes_on k d e b0))) (fst (let '(e, b0) := write_int zo zn 0 b in (g, goes_on k' d e b0))) /\ encoder_same R (snd (let '(e, b0) := write_int zo zn 0 b in (h, goes_on k d e b0))) (snd (let '(e, b0) := write_int zo zn 0 b in (g, goes_on k' d e b0)))).
        { intros k0 k0' FF. destruct (write_int zo zn 0 b). split; [exact M0|]. apply goes_same; auto. }
        destruct (field h a f), (field g a' f); cbn in V; try contradiction; try discriminate; [apply Z0; apply FK| | | |].
        all: destruct (elements h _) as [vs|], (elements g _) as [ws|]; try contradiction; try (split; [exact M0|apply goes_same, FK]).
        all: pose proof (same_length _ _ _ EL) as LL; destruct EL as [|v0 w0 vs ws V0 EL]; [apply Z0; apply FK|].
        all: rewrite LL; destruct (write_int o n (wrap k (Z.of_nat (List.length (w0 :: ws)))) b); split; [exact M0|]; apply goes_same; constructor; [cbn; split; [reflexivity|constructor; auto]|apply FK].
      + split; [exact M0|]. apply enter_same; auto. apply field_same; auto.
      + pose proof (field_same R h g a a' f P I) as V. destruct (field h a f) eqn:Q1, (field g a' f) eqn:Q2; cbn in V; try contradiction; try discriminate; split; try exact M0; try (apply enter_same; auto).
        repeat split; cbn; auto.
    - destruct I as (<- & FV). destruct FV as [|v w vs ws V FV]. { split; [exact M0|]. repeat split; auto. }
      assert (FK : Forall2 (eitem_same R) (Loop x vs :: st) (Loop x ws :: su)) by (constructor; [cbn; auto|auto]).
      pose proof (eelem_same R h g x v w b P V) as EL.
      destruct x as [n o|n o|len pad lft|zn zo n o|]; try (destruct (EL ltac:(discriminate)) as (e & b' & -> & ->); split; [exact M0|apply goes_same; auto]).
      split; [exact M0|]. apply enter_same; auto.
  Qed.
End Steps.
