(* Running the library inside a larger program: expressions, statements and calls end as in the library alone. *)
From Coq Require Import ZArith List Bool String Ascii Lia.
From Verif.Model Require Import JavaPrim ByteBuf Utf8 Codec Ast Interp Show Heap.
From Verif.Java Require Import Lex Syntax Sem.
From Verif.Spec Require Import JavaWorld.
From Verif.Proofs Require Import HeapFacts ParseFacts JavaNames.
Import ListNotations.
Open Scope Z_scope.
Open Scope list_scope.

(* ---------- growing ---------- *)
Definition longer (f f' : list nat) : Prop := exists g, f' = f ++ g.
Lemma longer_refl f : longer f f. Proof. exists []. symmetry. apply app_nil_r. Qed.
Lemma longer_trans f g k : longer f g -> longer g k -> longer f k. Proof. intros (a & ->) (b & ->). exists (a ++ b). symmetry. apply app_assoc. Qed.
Lemma longer_at f f' l m : longer f f' -> nth_error f l = Some m -> nth_error f' l = Some m.
Proof. intros (g & ->) H. rewrite nth_error_app1; [exact H|]. apply nth_error_Some. congruence. Qed.
Lemma hval_mono f f' a b : longer f f' -> hval_in f a b -> hval_in f' a b.
Proof. intros L. destruct a, b; cbn; auto. now apply longer_at. Qed.
Lemma F2_impl {A B} (R R' : A -> B -> Prop) l m : (forall a b, R a b -> R' a b) -> Forall2 R l m -> Forall2 R' l m.
Proof. intros H. induction 1; constructor; auto. Qed.
Lemma F2_len {A B} (R : A -> B -> Prop) l m : Forall2 R l m -> List.length l = List.length m.
Proof. induction 1; cbn; congruence. Qed.
Lemma jval_mono f f' : longer f f' -> forall v w, jval_in f v w -> jval_in f' v w.
Proof.
  intros L. fix IH 3. intros v w [x P|t a b H|c K|c x K|c|c K|vs ws H|m n H1 H2].
  - apply in_plain, P. - apply in_t. eapply hval_mono; eauto. - apply in_one, K. - apply in_const, K. - apply in_sup. - apply in_cls, K.
  - apply in_vals. induction H; constructor; auto.
  - apply in_map; [exact H1|]. intros k x y E1 E2. apply IH. exact (H2 k x y E1 E2).
Qed.
Lemma args_mono f f' vs ws : longer f f' -> Forall2 (jval_in f) vs ws -> Forall2 (jval_in f') vs ws.
Proof. intros L. apply F2_impl. intros a b. now apply jval_mono. Qed.
Lemma cell_mono f f' a b : longer f f' -> cell_in f a b -> cell_in f' a b.
Proof.
  intros L. destruct a, b; cbn; auto.
  - intros (E & K & F). repeat split; auto. eapply F2_impl; [|exact F]. cbn. intros x y [E1 E2]. split; auto. eapply hval_mono; eauto.
  - apply F2_impl. intros x y. now apply hval_mono.
Qed.
Definition loc_in (f : list nat) := named_in (fun x y : ty * jval => fst y = fst x /\ jval_in f (snd x) (snd y)).
Lemma loc_mono f f' a b : longer f f' -> Forall2 (loc_in f) a b -> Forall2 (loc_in f') a b.
Proof. intros L. apply F2_impl. intros x y (E & T & J). repeat split; auto. eapply jval_mono; eauto. Qed.
Lemma stat_mono f f' a b : longer f f' -> Forall2 (named_in (jval_in f)) a b -> Forall2 (named_in (jval_in f')) a b.
Proof. intros L. apply F2_impl. intros x y (E & J). split; auto. eapply jval_mono; eauto. Qed.

Lemma grown_refl f H : grown f H f H.
Proof. split; [rewrite Nat.sub_diag; symmetry; apply app_nil_r|]. split; auto. Qed.
Lemma grown_longer f H f' H' : grown f H f' H' -> longer f f'.
Proof. intros (E & _). eexists. exact E. Qed.
Lemma grown_trans f H f1 H1 f2 H2 : grown f H f1 H1 -> grown f1 H1 f2 H2 -> grown f H f2 H2.
Proof.
  intros (-> & L & K) (-> & L' & K'). split; [|split; [lia|]].
  - rewrite <- app_assoc. f_equal. replace (List.length H1) with (List.length H + (List.length H1 - List.length H))%nat at 2 by lia. rewrite <- seq_app. f_equal. lia.
  - intros m Hm N. rewrite K'; [apply K; auto|lia|]. intros I. apply in_app_or in I. destruct I as [I|I]; [auto|]. apply in_seq in I. lia.
Qed.

Section Embed.
  Variable P Q : program.
  Variable pr : printers.
  Variable ext : list (string * jval).
  Hypothesis same_class : forall c, known c = true -> assoc c P = assoc c Q.
  Hypothesis lib_class : forall c d, assoc c Q = Some d -> library_name c = true /\ plain_class d = true.
  Hypothesis apart : foreign ext.
  Notation inside := (inside ext).
  Notation ends R := (ends_in R ext).
  Notation jends := (ends_in jval_in ext).
  Notation aends := (ends_in (fun f => Forall2 (jval_in f)) ext).
  Definition eqr {A} (f : list nat) (a b : A) : Prop := b = a.
  Notation qends := (ends_in eqr ext).

  (* ---------- states ---------- *)
  Lemma in_b f s t b : inside f s t -> inside f (set_b s b) (set_b t b).
  Proof. intros (H & B & L & S). repeat split; auto; apply H. Qed.
  Lemma in_loc f s t a b : inside f s t -> Forall2 (loc_in f) a b -> inside f (set_loc s a) (set_loc t b).
  Proof. intros (H & B & L & S) F. repeat split; auto; apply H. Qed.
  Lemma ret_in {A} (R : list nat -> A -> A -> Prop) f H s t a b : inside f s t -> s_h t = H -> R f a b -> ends R f H (Ret a s) (Ret b t).
  Proof. intros I <- J. exists f, b, t. split; [reflexivity|]. split; [apply grown_refl|]. split; [exact I|exact J]. Qed.
  Lemma exc_in {A} (R : list nat -> A -> A -> Prop) f H s t e : inside f s t -> s_h t = H -> ends R f H (Exc e s) (Exc e t).
  Proof. intros I <-. exists f, t. split; [reflexivity|]. split; [apply grown_refl|exact I]. Qed.
  Lemma ends_grown {A} (R : list nat -> A -> A -> Prop) f H f1 H1 r r' : grown f H f1 H1 -> ends R f1 H1 r r' -> ends R f H r r'.
  Proof.
    intros G. destruct r as [a s|e s|]; cbn; [|intros (f' & t & E & G' & I)|auto].
    - intros (f' & a' & t & E & G' & I & J). exists f', a', t. repeat split; try apply I; auto. all: destruct (grown_trans _ _ _ _ _ _ G G') as (? & ? & ?); auto.
    - exists f', t. split; auto. split; [exact (grown_trans _ _ _ _ _ _ G G')|auto].
  Qed.
  Lemma ends_bind {A B} (R : list nat -> A -> A -> Prop) (R' : list nat -> B -> B -> Prop) f H r r' (k k' : _ -> _ -> res B) :
    ends R f H r r' -> (forall f' a a' s t, grown f H f' (s_h t) -> inside f' s t -> R f' a a' -> ends R' f' (s_h t) (k a s) (k' a' t)) -> ends R' f H (bind r k) (bind r' k').
  Proof.
    intros E K. destruct r as [a s|e s|]; cbn in *; [|destruct E as (f' & t & -> & G & I)|auto].
    - destruct E as (f' & a' & t & -> & G & I & J). cbn. eapply ends_grown; [exact G|]. apply K; auto.
    - cbn. exists f', t. auto.
  Qed.
  Lemma ends_impl {A} (R R' : list nat -> A -> A -> Prop) f H r r' : (forall f a b, R f a b -> R' f a b) -> ends R f H r r' -> ends R' f H r r'.
  Proof. intros I. destruct r; cbn; auto. intros (f' & a' & t & E & G & S & J). exists f', a', t. split; [exact E|]. split; [exact G|]. split; [exact S|apply I, J]. Qed.
  Lemma num_in {A} (R : list nat -> A -> A -> Prop) f H v w s t (k k' : ty -> Z -> res A) : jval_in f v w -> inside f s t -> s_h t = H ->
    (forall u z, v = JT u (HInt z) -> ends R f H (k u z) (k' u z)) -> ends R f H (num v s k) (num w t k').
  Proof.
    intros J I E K. destruct J as [v Pv|u a b Hv|c Kc|c x Kc|c Kc|c Kc|vs ws F|m n M1 M2]; cbn [num]; try exact Logic.I.
    - destruct v; try discriminate; exact Logic.I.
    - destruct a, b; cbn in Hv; try contradiction; try discriminate; try exact Logic.I; try (injection Hv as <-; auto). apply exc_in; auto.
  Qed.
  Lemma conv_in {A} (R : list nat -> A -> A -> Prop) f H u v w s t (k k' : jval -> res A) : jval_in f v w -> inside f s t -> s_h t = H ->
    (forall v' w', jval_in f v' w' -> ends R f H (k v') (k' w')) -> ends R f H (conv u v s k) (conv u w t k').
  Proof.
    intros J I E K. destruct J as [v Pv|u' a b Hv|c Kc|c x Kc|c Kc|c Kc|vs ws F|m n M1 M2]; cbn [conv]; try (apply K; constructor; auto; fail).
    - destruct v; try discriminate; apply K; apply in_plain; exact Pv.
    - destruct a, b; cbn in Hv; try contradiction; try discriminate; try (apply K; apply in_t; exact Hv).
      destruct (is_prim u); [apply exc_in; auto|apply K; apply in_t; reflexivity].
  Qed.

  (* ---------- look-ups ---------- *)
  Definition opt_in {A} (R : A -> A -> Prop) (x y : option A) : Prop := match x, y with Some a, Some b => R a b | None, None => True | _, _ => False end.
  Lemma assoc_named {A} (R : A -> A -> Prop) k : forall l m, Forall2 (named_in R) l m -> opt_in R (assoc k l) (assoc k m).
  Proof. induction 1 as [|[x a] [y b] l m [E J] F IH]; cbn in *; [exact Logic.I|]. subst y. destruct (String.eqb k x); auto. Qed.
  Lemma assoc_app_none {A} k (l m : list (string * A)) : assoc k m = None -> assoc k (l ++ m) = assoc k l.
  Proof. intros N. induction l as [|[x a] l IH]; cbn; auto. now rewrite IH. Qed.
  Lemma local_in f s t x : inside f s t -> opt_in (fun a b => fst b = fst a /\ jval_in f (snd a) (snd b)) (assoc x (s_loc s)) (assoc x (s_loc t)).
  Proof. intros (_ & _ & L & _). apply assoc_named. exact L. Qed.
  Lemma stat_in f s t k : inside f s t -> assoc k ext = None -> opt_in (jval_in f) (assoc k (s_stat s)) (assoc k (s_stat t)).
  Proof. intros (_ & _ & _ & own & -> & F) N. rewrite assoc_app_none by exact N. apply assoc_named. exact F. Qed.
  Lemma put_named {A} (R : A -> A -> Prop) k a b : R a b -> forall l m, Forall2 (named_in R) l m -> Forall2 (named_in R) (put_assoc k a l) (put_assoc k b m).
  Proof. intros J. induction 1 as [|[x u] [y v] l m [E J'] F IH]; cbn in *; [constructor|]. subst y. destruct (String.eqb k x); constructor; auto; split; auto. Qed.
  Lemma put_app_none {A} k a (l m : list (string * A)) : assoc k m = None -> put_assoc k a (l ++ m) = put_assoc k a l ++ m.
  Proof.
    intros N. induction l as [|[x u] l IH]; cbn; [|destruct (String.eqb k x); [reflexivity|now rewrite IH]].
    induction m as [|[x u] m IH]; cbn in *; [reflexivity|]. destruct (String.eqb k x); [discriminate|]. now rewrite IH.
  Qed.
  Lemma put_stat_in f s t k v w : inside f s t -> assoc k ext = None -> jval_in f v w -> inside f (put_stat s k v) (put_stat t k w).
  Proof.
    intros (H & B & L & own & E & F) N J. split; [exact H|]. split; [exact B|]. split; [exact L|]. exists (put_assoc k w own). cbn. rewrite E, put_app_none by exact N. split; [reflexivity|].
    apply put_named; auto.
  Qed.
  Lemma at_in f s t l m : inside f s t -> nth_error f l = Some m -> exists a b, nth_error (s_h s) l = Some a /\ nth_error (s_h t) m = Some b /\ cell_in f a b.
  Proof. intros ((_ & _ & C) & _) N. exact (C l m N). Qed.
  Lemma ref_same f s t l m l' m' : inside f s t -> nth_error f l = Some m -> nth_error f l' = Some m' -> Nat.eqb m m' = Nat.eqb l l'.
  Proof.
    intros ((_ & ND & _) & _) A B. destruct (Nat.eqb_spec l l') as [->|N].
    - rewrite A in B. injection B as ->. apply Nat.eqb_refl.
    - apply Nat.eqb_neq. intros ->. apply N. apply (proj1 (NoDup_nth_error f) ND); [apply nth_error_Some; congruence|congruence].
  Qed.
  Lemma hget_in f x : forall fs gs, Forall2 (fun x y : string * hval => fst y = fst x /\ hval_in f (snd x) (snd y)) fs gs -> hval_in f (hget x fs) (hget x gs).
  Proof. induction 1 as [|[a u] [b v] fs gs [E J] F IH]; cbn in *; [reflexivity|]. subst b. destruct (String.eqb x a); auto. Qed.
  Lemma hset_in f x u v : hval_in f u v -> forall fs gs, Forall2 (fun x y : string * hval => fst y = fst x /\ hval_in f (snd x) (snd y)) fs gs ->
    Forall2 (fun x y : string * hval => fst y = fst x /\ hval_in f (snd x) (snd y)) (hset x u fs) (hset x v gs).
  Proof. intros J. induction 1 as [|[a p] [b q] fs gs [E J'] F IH]; cbn in *; [constructor|]. subst b. destruct (String.eqb x a); constructor; auto. Qed.
  Lemma field_in' f s t l m x : inside f s t -> nth_error f l = Some m -> hval_in f (field (s_h s) l x) (field (s_h t) m x).
  Proof.
    intros I N. destruct (at_in _ _ _ _ _ I N) as (a & b & Ea & Eb & C). unfold field. rewrite Ea, Eb. destruct a, b; cbn in C; try contradiction; [|reflexivity].
    destruct C as (-> & _ & F). now apply hget_in.
  Qed.
  Lemma upd_in f s t l m a b : inside f s t -> nth_error f l = Some m -> cell_in f a b ->
    inside f (set_h s (upd (s_h s) l a)) (set_h t (upd (s_h t) m b)) /\ grown f (s_h t) f (upd (s_h t) m b).
  Proof.
    intros ((Le & ND & C) & B & L & S) N Ca. destruct (C l m N) as (a0 & b0 & Ea & Eb & _). split.
    - split; [|auto]. cbn. split; [rewrite upd_length; exact Le|]. split; [exact ND|]. intros l' m' N'.
      destruct (Nat.eq_dec l' l) as [->|D].
      + rewrite N in N'. injection N' as <-. exists a, b. rewrite !upd_at by (eapply nth_lt; eauto). auto.
      + destruct (C l' m' N') as (a' & b' & Ea' & Eb' & C'). exists a', b'. rewrite !upd_off; auto. intros ->. apply D. apply (proj1 (NoDup_nth_error f) ND); [apply nth_error_Some; congruence|congruence].
    - split; [rewrite upd_length, Nat.sub_diag; symmetry; apply app_nil_r|]. rewrite upd_length. split; [auto|]. intros j Hj NI. apply upd_off. intros ->. apply NI. eapply nth_error_In; eauto.
  Qed.
  Lemma alloc_in f s t a b : inside f s t -> cell_in f a b ->
    let f' := f ++ [List.length (s_h t)] in
    inside f' (set_h s (s_h s ++ [a])) (set_h t (s_h t ++ [b])) /\ grown f (s_h t) f' (s_h t ++ [b]) /\ hval_in f' (HRef (List.length (s_h s))) (HRef (List.length (s_h t))).
  Proof.
    intros ((Le & ND & C) & B & L & own & S1 & S2) Ca f'. assert (Lo : longer f f') by (eexists; reflexivity).
    assert (Lt : forall l m, nth_error f l = Some m -> (m < List.length (s_h t))%nat). { intros l m N. destruct (C l m N) as (? & ? & _ & E & _). eapply nth_lt; eauto. }
    split; [|split].
    - split; [|split; [exact B|]]; cbn.
      + split; [unfold f'; rewrite !app_length; cbn; lia|]. split.
        * unfold f'. apply (proj2 (NoDup_Add (Add_app (List.length (s_h t)) f []))). rewrite app_nil_r. split; [exact ND|].
          intros I. apply In_nth_error in I. destruct I as (l & N). specialize (Lt _ _ N). lia.
        * intros l m N. unfold f' in N. destruct (Nat.lt_ge_cases l (List.length f)) as [D|D].
          -- rewrite nth_error_app1 in N by exact D. destruct (C l m N) as (a' & b' & Ea & Eb & Cc). exists a', b'. rewrite !nth_app_old by (eapply nth_lt; eauto). repeat split; auto. eapply cell_mono; eauto.
          -- rewrite nth_error_app2 in N by exact D. destruct (l - List.length f)%nat as [|j] eqn:D'; [|destruct j; discriminate]. cbn in N. injection N as <-. replace l with (List.length (s_h s)) by lia.
             exists a, b. rewrite !nth_app_new. repeat split; auto. eapply cell_mono; eauto.
      + split; [eapply loc_mono; eauto|]. exists own. split; [exact S1|]. eapply stat_mono; eauto.
    - split; [unfold f'; rewrite app_length; cbn [List.length]; replace (List.length (s_h t) + 1 - List.length (s_h t))%nat with 1%nat by lia; reflexivity|]. rewrite app_length. cbn. split; [lia|]. intros m Hm _. apply nth_app_old. exact Hm.
    - cbn. unfold f'. rewrite nth_error_app2 by lia. replace (List.length (s_h s) - List.length f)%nat with 0%nat by lia. reflexivity.
  Qed.
  Lemma heap_ends {A} (R : list nat -> A -> A -> Prop) f f' s t h H a b : inside f' (set_h s h) (set_h t H) -> grown f (s_h t) f' H -> R f' a b -> ends R f (s_h t) (Ret a (set_h s h)) (Ret b (set_h t H)).
  Proof. intros I G J. exists f', b, (set_h t H). split; [reflexivity|]. split; [exact G|]. split; [exact I|exact J]. Qed.
  Lemma put_field_in f s t l m x u v : inside f s t -> nth_error f l = Some m -> hval_in f u v ->
    inside f (set_h s (put_field (s_h s) l x u)) (set_h t (put_field (s_h t) m x v)) /\ grown f (s_h t) f (put_field (s_h t) m x v).
  Proof.
    intros I N J. destruct (at_in _ _ _ _ _ I N) as (a & b & Ea & Eb & C). unfold put_field. rewrite Ea, Eb. destruct a, b; cbn in C; try contradiction.
    - destruct C as (-> & K & F). apply upd_in; auto. cbn. repeat split; auto. now apply hset_in.
    - split; [exact I|apply grown_refl].
  Qed.

  (* one step of a proof by cases: on the library's side the outermost match decides *)
  Ltac leaf := first [exact Logic.I | solve [apply ret_in; [assumption|reflexivity|first [reflexivity | constructor; first [reflexivity|assumption] ]]] | solve [apply exc_in; [assumption|reflexivity]]].
  Ltac plain_case Pv := match type of Pv with plain_value ?v = true => destruct v; try discriminate Pv end.
  Ltac hcase a b := destruct a, b; match goal with H : hval_in _ _ _ |- _ => cbn in H; try contradiction H; try discriminate H; try (injection H as <-) end.
  Ltac case_in :=
    cbn beta iota zeta;
    match goal with
    | |- ends_in _ _ _ _ (match ?v with _ => _ end) _ =>
        match goal with
        | J : jval_in _ v ?w |- _ => let Pv := fresh "Pv" in destruct J as [? Pv|? ? ? ?|? ?|? ? ?|? ?|? ?|? ? ?|? ? ? ?]; [plain_case Pv|..]
        | J : hval_in _ v ?w |- _ => hcase v w
        | J : Forall2 (jval_in _) v ?w |- _ => destruct J
        | _ => destruct v eqn:?
        end
    end.
  Lemma done_in f s t r : inside f s t -> jends f (s_h t) (done s r) (done t r).
  Proof. intros I. destruct r as [[e|] b]; cbn [done]; [apply exc_in|apply ret_in]; auto using in_b; try reflexivity. now apply in_plain. Qed.
  Lemma got_in {A} f s t (r : (exn + A) * bytebuf) k : inside f s t -> (forall a, jval_in f (k a) (k a)) -> jends f (s_h t) (got s r k) (got t r k).
  Proof. intros I K. destruct r as [[e|a] b]; cbn [got]; [apply exc_in|apply ret_in]; auto using in_b; reflexivity. Qed.
  Lemma buf_in f s t m args args' : inside f s t -> Forall2 (jval_in f) args args' -> jends f (s_h t) (buf_call m args s) (buf_call m args' t).
  Proof.
    intros I F. pose proof I as (_ & B & _). unfold buf_call. rewrite B.
    repeat first [leaf | apply done_in; assumption | apply got_in; [assumption|intros; constructor; reflexivity] | apply num_in; [assumption|assumption|reflexivity|intros] | case_in].
  Qed.
  Lemma str_in f s t u m args args' : inside f s t -> Forall2 (jval_in f) args args' -> jends f (s_h t) (str_call u m args s) (str_call u m args' t).
  Proof. intros I F. unfold str_call. repeat first [leaf | case_in]. Qed.
  Lemma nth_in {A} (R : A -> A -> Prop) : forall l m, Forall2 R l m -> forall i, opt_in R (nth_error l i) (nth_error m i).
  Proof. induction 1; intros [|i]; cbn; auto. Qed.
  Lemma list_in f s t u l l' vs ws m args args' : inside f s t -> Forall2 (jval_in f) args args' -> nth_error f l = Some l' -> Forall2 (hval_in f) vs ws ->
    nth_error (s_h s) l = Some (CList vs) -> nth_error (s_h t) l' = Some (CList ws) -> jends f (s_h t) (list_call u l vs m args s) (list_call u l' ws m args' t).
  Proof.
    intros I F N V E E'. unfold list_call. rewrite <- (F2_len _ _ _ V). destruct (String.eqb m "size"); [repeat first [leaf|case_in]|]. destruct (String.eqb m "get").
    - repeat first [leaf | case_in]; pose proof (nth_in _ _ _ V (Z.to_nat z)) as O; rewrite Heqo in O; destruct (nth_error ws (Z.to_nat z)); cbn in O; try contradiction; leaf.
    - destruct (String.eqb m "add"); [|exact Logic.I]. destruct F as [|v w a b J F]; [exact Logic.I|]. destruct F; [|destruct (hval_of v); exact Logic.I].
      destruct J as [v Pv|t0 x y Hv| | | | | |]; try exact Logic.I; [plain_case Pv; exact Logic.I|]. cbn [hval_of list_add]. rewrite E, E'.
      destruct (upd_in f s t l l' (CList (vs ++ [x])) (CList (ws ++ [y])) I N) as [I' G]. { cbn. apply Forall2_app; auto. }
      eapply heap_ends; [exact I'|exact G|]. now apply in_plain.
  Qed.
  Lemma mkey_in f v w : jval_in f v w -> forall k, mkey_of v = Some k -> mkey_of w = Some k.
  Proof. intros J k. destruct J as [v Pv|t0 x y Hv| | | | | |]; cbn; auto; try discriminate. hcase x y; cbn; auto; discriminate. Qed.
  Lemma or_null_in f (m n : mkey -> option jval) k : (forall k, m k = None <-> n k = None) -> (forall k v w, m k = Some v -> n k = Some w -> jval_in f v w) -> jval_in f (or_null (m k)) (or_null (n k)).
  Proof.
    intros A B. specialize (A k). specialize (B k). destruct (m k) as [v|], (n k) as [w|]; cbn; auto; try (exfalso; destruct A as [A1 A2]; (discriminate (A1 eq_refl) || discriminate (A2 eq_refl))).
    apply in_t. reflexivity.
  Qed.
  Lemma m_set_in f m n k v w : jval_in f (JMap m) (JMap n) -> opt_in (jval_in f) v w -> jval_in f (JMap (m_set m k v)) (JMap (m_set n k w)).
  Proof.
    intros J O. inversion J as [? Pv| | | | | | |m' n' A B]; subst; [discriminate|]. apply in_map; unfold m_set; intros k'; destruct (mkey_eqb k' k);
      [destruct v, w; cbn in O; try contradiction; split; auto; discriminate|apply A|intros x y -> ->; exact O|apply B].
  Qed.
  Lemma map_in f s t x m n me args args' : inside f s t -> Forall2 (jval_in f) args args' -> assoc x ext = None -> jval_in f (JMap m) (JMap n) ->
    jends f (s_h t) (map_call x m me args s) (map_call x n me args' t).
  Proof.
    intros I F N J. inversion J as [? Pv| | | | | | |m' n' A B]; subst; [discriminate|]. unfold map_call. destruct F as [|v w a b Jv F].
    - destruct (String.eqb me "clear"); [|exact Logic.I]. apply ret_in; [apply put_stat_in; auto|reflexivity|now apply in_plain]. apply in_map; [tauto|discriminate].
    - destruct F as [|v' w' a b Jv' F].
      + destruct (mkey_of v) as [k|] eqn:K; [|exact Logic.I]. rewrite (mkey_in _ _ _ Jv k K).
        destruct (String.eqb me "get"); [apply ret_in; auto; now apply or_null_in|].
        destruct (String.eqb me "containsKey").
        { specialize (A k). destruct (m k), (n k); try (exfalso; destruct A as [A1 A2]; (discriminate (A1 eq_refl) || discriminate (A2 eq_refl))); leaf. }
        destruct (String.eqb me "remove"); [|exact Logic.I]. apply ret_in; [|reflexivity|now apply or_null_in]. apply put_stat_in; auto. now apply m_set_in.
      + destruct F; [|exact Logic.I]. destruct (mkey_of v) as [k|] eqn:K; [|exact Logic.I]. rewrite (mkey_in _ _ _ Jv k K).
        destruct (String.eqb me "put"); [|exact Logic.I]. apply ret_in; [|reflexivity|now apply or_null_in]. apply put_stat_in; auto. now apply m_set_in.
  Qed.
  Lemma default_in f u : hval_in f (default_of u) (default_of u).
  Proof. unfold default_of. destruct (is_prim u); [destruct (is_name u "float" || is_name u "double")|]; reflexivity. Qed.
  Lemma not_there c : known c = false -> assoc c Q = None.
  Proof. intros K. destruct (assoc c Q) as [d|] eqn:A; [|reflexivity]. destruct (lib_class c d A) as [L _]. unfold known in K. rewrite L in K. discriminate K. Qed.
  Lemma new_in f s t c : inside f s t -> jends f (s_h t) (new_object Q c s) (new_object P c t).
  Proof.
    intros I. destruct (known c) eqn:K; [|unfold new_object; rewrite (not_there c K); exact Logic.I]. unfold new_object. rewrite same_class by exact K. destruct (assoc c Q) as [d|]; [|exact Logic.I].
    destruct (existsb (fun t => is_name t "ChecksumService") (supers d)); [apply ret_in; auto; now apply in_one|]. unfold alloc_cell.
    destruct (alloc_in f s t (CObj c (map (fun f => (fst f, default_of (snd f))) (instance_fields (members d)))) (CObj c (map (fun f => (fst f, default_of (snd f))) (instance_fields (members d)))) I) as (I' & G & H).
    { cbn. repeat split; auto. induction (instance_fields (members d)); cbn; constructor; auto. split; [reflexivity|apply default_in]. }
    eapply heap_ends; [exact I'|exact G|]. apply in_t. exact H.
  Qed.
  Lemma class_in f s t a b : inside f s t -> hval_in f a b -> class_of (s_h t) b = class_of (s_h s) a /\ known (class_of (s_h s) a) = true.
  Proof.
    intros I J. hcase a b; try (split; reflexivity). cbn [class_of]. destruct (at_in _ _ _ _ _ I J) as (x & y & -> & -> & C).
    destruct x, y; cbn in C; try contradiction; [|split; reflexivity]. destruct C as (-> & K & _). auto.
  Qed.
  Lemma elements_in f s t a b : inside f s t -> hval_in f a b -> opt_in (Forall2 (hval_in f)) (elements (s_h s) a) (elements (s_h t) b).
  Proof.
    intros I J. hcase a b; try exact Logic.I. cbn [elements]. destruct (at_in _ _ _ _ _ I J) as (x & y & -> & -> & C). destruct x, y; cbn in C; try contradiction; [exact Logic.I|exact C].
  Qed.

  (* ---------- calls on objects ---------- *)
  Variable vp vq : string -> nat -> list jval -> st -> res jval.
  Hypothesis V : forall m f l l' args args' s t, nth_error f l = Some l' -> Forall2 (jval_in f) args args' -> inside f s t -> jends f (s_h t) (vq m l args s) (vp m l' args' t).

  Lemma eq_item_in u f s t a b a' b' : inside f s t -> hval_in f a a' -> hval_in f b b' -> jends f (s_h t) (jeq_item vq u a b s) (jeq_item vp u a' b' t).
  Proof.
    intros I Ja Jb. unfold jeq_item. destruct a, a'; cbn in Ja; try contradiction; try discriminate Ja; try (injection Ja as <-); destruct b, b'; cbn in Jb; try contradiction; try discriminate Jb; try (injection Jb as <-); try leaf.
    rewrite (ref_same _ _ _ _ _ _ _ I Ja Jb). destruct (Nat.eqb l l1); [leaf|].
    destruct (at_in _ _ _ _ _ I Ja) as (x & y & -> & -> & C). destruct (at_in _ _ _ _ _ I Jb) as (x' & y' & -> & -> & C').
    destruct x, y; cbn in C; try contradiction; try leaf. destruct x', y'; cbn in C'; try contradiction; try leaf. apply V; auto. repeat constructor. exact Jb.
  Qed.
  Lemma hvals_mono f f' a b : longer f f' -> Forall2 (hval_in f) a b -> Forall2 (hval_in f') a b.
  Proof. intros L. apply F2_impl. intros x y. now apply hval_mono. Qed.
  Lemma eq_items_in u : forall x x' y y' f s t, inside f s t -> Forall2 (hval_in f) x x' -> Forall2 (hval_in f) y y' -> jends f (s_h t) (jeq_items vq u x y s) (jeq_items vp u x' y' t).
  Proof.
    induction x as [|a x IH]; intros x' y y' f s t I Fx Fy; inversion Fx as [|? a' ? xs Ja Fx' E1 E2]; subst; inversion Fy as [|b b' ys ys' Jb Fy' E3 E4]; subst; cbn [jeq_items]; try leaf.
    pose proof (eq_item_in u _ _ _ _ _ _ _ I Ja Jb) as E. destruct (jeq_item vq u a b s) as [v s'|e s'|]; [|cbn in E; destruct E as (f' & t' & -> & G & I'); exists f', t'; auto|exact Logic.I].
    cbn in E. destruct E as (f' & v' & t' & -> & G & I' & J). eapply ends_grown; [exact G|]. pose proof (grown_longer _ _ _ _ G) as Lo.
    destruct J as [v Pv|t0 p q Hv| | | | | |]; try (apply ret_in; [assumption|reflexivity|constructor; assumption]).
    plain_case Pv; try leaf. destruct b0; [|leaf]. apply IH; auto; eapply hvals_mono; eauto.
  Qed.
  Lemma eq_in u f s t a b a' b' : inside f s t -> hval_in f a a' -> hval_in f b b' -> jends f (s_h t) (jeq vq u a b s) (jeq vp u a' b' t).
  Proof.
    intros I Ja Jb. unfold jeq. pose proof (elements_in _ _ _ _ _ I Ja) as Ea. pose proof (elements_in _ _ _ _ _ I Jb) as Eb.
    destruct (elements (s_h s) a), (elements (s_h t) a'); cbn in Ea; try contradiction; [|now apply eq_item_in].
    destruct (elements (s_h s) b), (elements (s_h t) b'); cbn in Eb; try contradiction; [|now apply eq_item_in].
    destruct a, a'; cbn in Ja; try contradiction; try exact Logic.I. destruct b, b'; cbn in Jb; try contradiction; try exact Logic.I.
    rewrite (ref_same _ _ _ _ _ _ _ I Ja Jb). destruct (Nat.eqb l3 l5); [leaf|]. now apply eq_items_in.
  Qed.
  Lemma hash_item_in u f s t a a' : inside f s t -> hval_in f a a' -> qends f (s_h t) (jhash_item vq u a s) (jhash_item vp u a' t).
  Proof.
    intros I J. unfold jhash_item. hcase a a'; try (apply ret_in; auto; reflexivity). eapply ends_bind; [apply V; eauto|]. intros f' v w s' t' G I' Jv. apply num_in; auto. intros. apply ret_in; auto. reflexivity.
  Qed.
  Lemma hash_items_in u : forall x x' z f s t, inside f s t -> Forall2 (hval_in f) x x' -> qends f (s_h t) (jhash_items vq u x z s) (jhash_items vp u x' z t).
  Proof.
    induction x as [|a x IH]; intros x' z f s t I F; inversion F as [|? a' ? xs Ja F' E1 E2]; subst; cbn [jhash_items]; [apply ret_in; auto; reflexivity|].
    eapply ends_bind; [now apply hash_item_in|]. intros f' i i' s' t' G I' ->. apply IH; auto. eapply hvals_mono; eauto. eapply grown_longer; eauto.
  Qed.
  Lemma hash_in u f s t a a' : inside f s t -> hval_in f a a' -> qends f (s_h t) (jhash vq u a s) (jhash vp u a' t).
  Proof.
    intros I J. unfold jhash. pose proof (elements_in _ _ _ _ _ I J) as E. destruct (elements (s_h s) a), (elements (s_h t) a'); cbn in E; try contradiction; [now apply hash_items_in|now apply hash_item_in].
  Qed.
  Lemma hash_args_in : forall x x' z f s t, inside f s t -> Forall2 (jval_in f) x x' -> qends f (s_h t) (jhash_args vq x z s) (jhash_args vp x' z t).
  Proof.
    induction x as [|a x IH]; intros x' z f s t I F; inversion F as [|? a' ? xs Ja F' E1 E2]; subst; cbn [jhash_args]; [apply ret_in; auto; reflexivity|].
    destruct Ja as [v Pv|t0 p q Hv| | | | | |]; try exact Logic.I; [plain_case Pv; exact Logic.I|].
    eapply ends_bind; [now apply hash_in|]. intros f' i i' s' t' G I' ->. apply IH; auto. eapply args_mono; eauto. eapply grown_longer; eauto.
  Qed.
  Lemma show_item_in u f s t a a' : inside f s t -> hval_in f a a' -> qends f (s_h t) (jshow_item pr vq u a s) (jshow_item pr vp u a' t).
  Proof.
    intros I J. unfold jshow_item. hcase a a'; try (apply ret_in; auto; reflexivity). eapply ends_bind; [apply V; eauto|]. intros f' v w s' t' G I' Jv.
    destruct Jv as [v Pv|t0 p q Hv| | | | | |]; try exact Logic.I; [plain_case Pv; exact Logic.I|]. hcase p q; try exact Logic.I. apply ret_in; auto; reflexivity.
  Qed.
  Lemma show_items_in u : forall x x' f s t, inside f s t -> Forall2 (hval_in f) x x' -> qends f (s_h t) (jshow_items pr vq u x s) (jshow_items pr vp u x' t).
  Proof.
    induction x as [|a x IH]; intros x' f s t I F; inversion F as [|? a' ? xs Ja F' E1 E2]; subst; [apply ret_in; auto; reflexivity|].
    destruct F' as [|b b' x xs Jb F']; [now apply show_item_in|].
    change (jshow_items pr vq u (a :: b :: x) s) with (do p s' <- jshow_item pr vq u a s; do q s'' <- jshow_items pr vq u (b :: x) s'; Ret (p ++ chars ", " ++ q) s'').
    change (jshow_items pr vp u (a' :: b' :: xs) t) with (do p s' <- jshow_item pr vp u a' t; do q s'' <- jshow_items pr vp u (b' :: xs) s'; Ret (p ++ chars ", " ++ q) s'').
    eapply ends_bind; [now apply show_item_in|]. intros f' i i' s' t' G I' ->. pose proof (grown_longer _ _ _ _ G) as Lo.
    eapply ends_bind; [apply IH; auto; eapply hvals_mono; eauto|]. intros f2 j j' s2 t2 G2 I2 ->. apply ret_in; auto; reflexivity.
  Qed.
  Lemma show_in f s t v w : inside f s t -> jval_in f v w -> qends f (s_h t) (jshow pr vq v s) (jshow pr vp w t).
  Proof.
    intros I J. unfold jshow. destruct J as [v Pv|t0 p q Hv| | | | | |]; try exact Logic.I; [plain_case Pv; exact Logic.I|].
    pose proof (elements_in _ _ _ _ _ I Hv) as E. destruct (elements (s_h s) p), (elements (s_h t) q); cbn in E; try contradiction; [|now apply show_item_in].
    eapply ends_bind; [now apply show_items_in|]. intros f' i i' s' t' G I' ->. apply ret_in; auto; reflexivity.
  Qed.
  Lemma lib_in f s t c m args args' : inside f s t -> Forall2 (jval_in f) args args' -> jends f (s_h t) (lib_call vq c m args s) (lib_call vp c m args' t).
  Proof.
    intros I F. unfold lib_call. destruct (String.eqb c "StringUtil" && String.eqb m "isNullOrEmpty"); [repeat first [leaf|case_in]|].
    destruct (String.eqb c "Math" && String.eqb m "min"); [repeat first [leaf|case_in]|].
    destruct (String.eqb c "Objects" && String.eqb m "equals").
    { destruct F as [|v w a b J F]; [exact Logic.I|]. destruct J as [v Pv|t0 p q Hv| | | | | |]; try exact Logic.I; [plain_case Pv; exact Logic.I|].
      destruct F as [|v w a b J F]; [exact Logic.I|]. destruct J as [v Pv|t1 p' q' Hv'| | | | | |]; try exact Logic.I; [plain_case Pv; exact Logic.I|]. destruct F; [now apply eq_in|exact Logic.I]. }
    destruct (String.eqb c "Objects" && String.eqb m "hash"); [|exact Logic.I]. eapply ends_bind; [now apply hash_args_in|]. intros f' i i' s' t' G I' ->. apply ret_in; auto; now apply in_t.
  Qed.

  (* ---------- names ---------- *)
  Lemma resolve_in_same x : dotless x = true -> forall n c, library_name c = true -> resolve_in n P c x = resolve_in n Q c x /\ known (resolve_in n Q c x) = true.
  Proof.
    intros D. induction n as [|n IH]; intros c L; cbn [resolve_in]; [split; [reflexivity|apply dotless_known, D]|]. cbv zeta.
    assert (K : known (c ++ "." ++ x)%string = true) by (apply name_known, name_below, L). rewrite same_class by exact K. destruct (assoc (c ++ "." ++ x)%string Q); [auto|]. apply IH, name_parent, L.
  Qed.
  Lemma resolve_same c x : dotless x = true -> library_name c = true -> resolve P c x = resolve Q c x /\ known (resolve Q c x) = true.
  Proof. intros D L. apply resolve_in_same; auto. Qed.
  Lemma field_ty_same c x : known c = true -> field_ty P c x = field_ty Q c x.
  Proof. intros K. unfold field_ty. now rewrite same_class. Qed.
  Lemma inherited_same m n : forall ss, forallb plain_ty ss = true -> inherited P ss m n = inherited Q ss m n.
  Proof.
    induction ss as [|t ss IH]; cbn; auto. intros H. apply andb_true_iff in H. destruct H as [H1 H2]. destruct t; auto. rewrite same_class by (apply dotless_known, H1). rewrite (IH H2). reflexivity.
  Qed.
  Lemma find_method_same c m n : known c = true -> find_method P c m n = find_method Q c m n.
  Proof.
    intros K. unfold find_method. rewrite same_class by exact K. destruct (assoc c Q) as [d|] eqn:A; [|reflexivity]. destruct (method_in (members d) m n); [reflexivity|].
    apply inherited_same. destruct (lib_class c d A) as [_ Pd]. destruct d. cbn in *. apply andb_true_iff in Pd. destruct Pd as [Pd _]. apply andb_true_iff in Pd. apply Pd.
  Qed.
  Lemma method_plain ms m n ps b : forallb plain_member ms = true -> method_in ms m n = Some (ps, b) -> forallb plain_stmt b = true.
  Proof.
    intros H. unfold method_in. destruct (find _ ms) as [d|] eqn:Fd; [|discriminate]. apply find_some in Fd. destruct Fd as [I _]. rewrite forallb_forall in H. specialize (H _ I).
    destruct d; try discriminate. destruct body; try discriminate. intros [= <- <-]. exact H.
  Qed.
  Lemma members_plain d : plain_class d = true -> forallb plain_member (members d) = true.
  Proof. destruct d. cbn. intros H. apply andb_true_iff in H. apply H. Qed.
  Lemma found_plain c m n ps b : find_method Q c m n = Some (ps, b) -> library_name c = true /\ forallb plain_stmt b = true.
  Proof.
    unfold find_method. destruct (assoc c Q) as [d|] eqn:A; [|discriminate]. destruct (lib_class c d A) as [L Pd]. intros E. split; [exact L|].
    destruct (method_in (members d) m n) as [x|] eqn:M; [injection E as ->; eapply method_plain; [|exact M]; now apply members_plain|].
    clear M A Pd. revert E. induction (supers d) as [|t ss IH]; cbn; [discriminate|]. destruct t; auto. destruct (assoc n0 Q) as [d'|] eqn:A; [|auto].
    destruct (method_in (members d') m n) as [x|] eqn:M; [|auto]. intros [= ->]. eapply method_plain; [|exact M]. apply members_plain. apply (lib_class _ _ A).
  Qed.

  Section Body.
    Variable cp cq : option nat -> string -> string -> list jval -> st -> res jval.
    Definition this_in (f : list nat) (a b : option nat) : Prop := match a, b with Some l, Some m => nth_error f l = Some m | None, None => True | _, _ => False end.
    Hypothesis C : forall f a b c m args args' s t, this_in f a b -> known c = true -> Forall2 (jval_in f) args args' -> inside f s t -> jends f (s_h t) (cq a c m args s) (cp b c m args' t).
    Definition cx_in (f : list nat) (x y : cx) : Prop := this_in f (x_this x) (x_this y) /\ x_class y = x_class x /\ library_name (x_class x) = true.
    Lemma this_mono f f' a b : longer f f' -> this_in f a b -> this_in f' a b. Proof. intros L. destruct a, b; cbn; auto. now apply longer_at. Qed.
    Lemma cx_mono f f' a b : longer f f' -> cx_in f a b -> cx_in f' a b. Proof. intros L (A & B & D). repeat split; auto. eapply this_mono; eauto. Qed.
    Lemma ext_field c x : library_name c = true -> assoc (c ++ "." ++ x)%string ext = None. Proof. intros L. apply (proj1 apart); auto. Qed.

    Lemma name_in f s t x0 y0 x : inside f s t -> cx_in f x0 y0 -> dotless x = true -> jends f (s_h t) (name_val Q x0 x s) (name_val P y0 x t).
    Proof.
      intros I (T & E & L) D. unfold name_val. pose proof (local_in f s t x I) as O. destruct (assoc x (s_loc s)) as [[u v]|], (assoc x (s_loc t)) as [[u' v']|]; cbn in O; try contradiction.
      - destruct O as [_ J]. apply ret_in; auto.
      - rewrite E, (field_ty_same _ _ (name_known _ L)).
        assert (S : jends f (s_h t) match assoc (x_class x0 ++ "." ++ x)%string (s_stat s) with
              | Some v => Ret v s
              | None => match assoc (x_class x0) Q with Some d => if existsb (fun e => String.eqb x (fst e)) (consts d) then Ret (JOne (x_class x0)) s else Ret (JCls (resolve Q (x_class x0) x)) s | None => Ret (JCls x) s end
              end match assoc (x_class x0 ++ "." ++ x)%string (s_stat t) with
              | Some v => Ret v t
              | None => match assoc (x_class x0) P with Some d => if existsb (fun e => String.eqb x (fst e)) (consts d) then Ret (JOne (x_class x0)) t else Ret (JCls (resolve P (x_class x0) x)) t | None => Ret (JCls x) t end
              end).
        { pose proof (stat_in f s t _ I (ext_field (x_class x0) x L)) as O'. destruct (assoc (x_class x0 ++ "." ++ x)%string (s_stat s)), (assoc (x_class x0 ++ "." ++ x)%string (s_stat t)); cbn in O'; try contradiction; [apply ret_in; auto|].
          rewrite same_class by (apply name_known, L). destruct (assoc (x_class x0) Q) as [d|]; [destruct (existsb _ (consts d))|]; apply ret_in; auto.
          - apply in_one, name_known, L.
          - destruct (resolve_same (x_class x0) x D L) as [-> K]. now apply in_cls.
          - now apply in_cls, dotless_known. }
        destruct (x_this x0) as [l|], (x_this y0) as [l'|]; cbn in T; try contradiction; [|exact S]. destruct (field_ty Q (x_class x0) x); [|exact S]. apply ret_in; auto. apply in_t. now apply field_in'.
    Qed.
    Lemma field_val_in f s t v w x : inside f s t -> jval_in f v w -> dotless x = true -> jends f (s_h t) (field_val Q v x s) (field_val P w x t).
    Proof.
      intros I J D. destruct J as [v Pv|t0 p q Hv|c Kc|c y Kc|c|c Kc|vs ws F|m n M1 M2]; try exact Logic.I; cbn [field_val].
      - plain_case Pv; try exact Logic.I. cbn. destruct (String.eqb x "length"); [|exact Logic.I]. apply ret_in; auto. now apply in_t.
      - hcase p q; try exact Logic.I; [apply exc_in; auto|]. destruct (at_in _ _ _ _ _ I Hv) as (a & b & -> & -> & Cc). destruct a, b; cbn in Cc; try contradiction; try exact Logic.I.
        destruct Cc as (-> & K & _). rewrite field_ty_same by exact K. destruct (field_ty Q c x); [|exact Logic.I]. apply ret_in; auto. apply in_t. now apply field_in'.
      - pose proof (stat_in f s t _ I (ext_field c (y ++ "." ++ x) Kc)) as O. destruct (assoc (c ++ "." ++ y ++ "." ++ x)%string (s_stat s)), (assoc (c ++ "." ++ y ++ "." ++ x)%string (s_stat t)); cbn in O; try contradiction; [|exact Logic.I]. apply ret_in; auto.
      - destruct (String.eqb c "StandardCharsets" && String.eqb x "UTF_8"); [apply ret_in; auto; now apply in_plain|].
        pose proof (stat_in f s t _ I (proj2 apart c x Kc D)) as O. destruct (assoc (c ++ "." ++ x)%string (s_stat s)), (assoc (c ++ "." ++ x)%string (s_stat t)); cbn in O; try contradiction; [apply ret_in; auto|].
        rewrite same_class by exact Kc. destruct (assoc c Q) as [d|] eqn:A; [|exact Logic.I]. destruct (is_const d x); [|exact Logic.I]. apply ret_in; auto. apply in_const. apply (lib_class c d A).
    Qed.
    Lemma const_in f s t c n m args args' : inside f s t -> library_name c = true -> Forall2 (jval_in f) args args' -> jends f (s_h t) (const_call Q c n m args s) (const_call P c n m args' t).
    Proof.
      intros I L F. unfold const_call. rewrite find_method_same by (apply name_known, L). destruct F; [|exact Logic.I]. destruct (find_method Q c m 0) as [[[|] b]|]; try exact Logic.I.
      destruct b as [|[] [|]]; try exact Logic.I; destruct e as [[]|]; try exact Logic.I.
      pose proof (stat_in f s t _ I (ext_field c (n ++ "." ++ x) L)) as O. destruct (assoc (c ++ "." ++ n ++ "." ++ x)%string (s_stat s)), (assoc (c ++ "." ++ n ++ "." ++ x)%string (s_stat t)); cbn in O; try contradiction; [|exact Logic.I]. apply ret_in; auto.
    Qed.
    Lemma dispatch_in f s t x0 y0 x v w m args args' : inside f s t -> cx_in f x0 y0 -> dotless x = true -> jval_in f v w -> Forall2 (jval_in f) args args' ->
      jends f (s_h t) (dispatch Q vq cq x0 x v m args s) (dispatch P vp cp y0 x w m args' t).
    Proof.
      intros I X D J F. destruct J as [v Pv|t0 p q Hv|c Kc|c y Kc|c|c Kc|vs ws Fv|a b M1 M2]; try exact Logic.I; cbn [dispatch].
      - plain_case Pv; try exact Logic.I; cbn [dispatch]; [now apply buf_in|]. destruct (String.eqb m "calc").
        + pose proof I as (_ & B & _). rewrite B. destruct F as [|v w a b J F]; [exact Logic.I|]. destruct J as [v Pv'| | | | | | |]; try exact Logic.I. plain_case Pv'; try exact Logic.I. destruct F; [|exact Logic.I]. apply ret_in; auto. now apply in_t.
        + destruct (String.eqb m "algorithm"); [|exact Logic.I]. destruct F; [|exact Logic.I]. apply ret_in; auto. now apply in_t.
      - hcase p q.
        + apply exc_in; auto.
        + destruct (String.eqb m "getClass"); [|exact Logic.I]. apply ret_in; auto; now apply in_cls.
        + destruct (String.eqb m "getClass"); [|exact Logic.I]. apply ret_in; auto; now apply in_cls.
        + destruct (String.eqb m "getClass"); [apply ret_in; auto; now apply in_cls|]. now apply str_in.
        + destruct (class_in f s t (HRef l) (HRef l0) I Hv) as [E K]. destruct (at_in _ _ _ _ _ I Hv) as (a & b & Ea & Eb & Cc). rewrite Ea, Eb. destruct a, b; cbn in Cc; try contradiction.
          * destruct Cc as (-> & Kc & _). destruct (String.eqb m "getClass"); [apply ret_in; auto; now apply in_cls|]. now apply V.
          * destruct (String.eqb m "getClass"); [apply ret_in; auto; rewrite E; now apply in_cls|]. now apply list_in.
      - apply C; auto. exact Logic.I.
      - now apply const_in.
      - destruct (String.eqb m "get"); [now apply new_in|exact Logic.I].
      - rewrite same_class by exact Kc. destruct (assoc c Q); [apply C; auto; exact Logic.I|now apply lib_in].
      - destruct X as (_ & -> & L). apply map_in; auto; [now apply ext_field|now apply in_map].
    Qed.
    Lemma put_local_in f s t x u v w : inside f s t -> jval_in f v w -> inside f (set_loc s (put_assoc x (u, v) (s_loc s))) (set_loc t (put_assoc x (u, w) (s_loc t))).
    Proof. intros I J. apply in_loc; auto. destruct I as (_ & _ & L & _). apply (put_named (fun x y : ty * jval => fst y = fst x /\ jval_in f (snd x) (snd y))); auto. Qed.
    Lemma hval_of_in f v w : jval_in f v w -> opt_in (hval_in f) (hval_of v) (hval_of w).
    Proof. intros J. destruct J as [v Pv| | | | | | |]; cbn; auto. plain_case Pv; exact Logic.I. Qed.
    Lemma assign_field_in' f s t l l' x u v w : inside f s t -> nth_error f l = Some l' -> jval_in f v w ->
      jends f (s_h t) (conv u v s (fun w => match hval_of w with Some u => Ret w (set_h s (put_field (s_h s) l x u)) | None => Bad end))
        (conv u w t (fun w => match hval_of w with Some u => Ret w (set_h t (put_field (s_h t) l' x u)) | None => Bad end)).
    Proof.
      intros I N J. eapply conv_in; eauto. intros v' w' J'. pose proof (hval_of_in f v' w' J') as O. destruct (hval_of v') as [a|], (hval_of w') as [b|]; cbn in O; try contradiction; try exact Logic.I.
      destruct (put_field_in f s t l l' x a b I N O) as [I' G]. eapply heap_ends; [exact I'|exact G|exact J'].
    Qed.
    Lemma assign_in f s t x0 y0 x v w : inside f s t -> cx_in f x0 y0 -> jval_in f v w -> jends f (s_h t) (assign Q x0 x v s) (assign P y0 x w t).
    Proof.
      intros I (T & E & L) J. unfold assign. pose proof (local_in f s t x I) as O. destruct (assoc x (s_loc s)) as [[u a]|], (assoc x (s_loc t)) as [[u' a']|]; cbn in O; try contradiction.
      - destruct O as [-> _]. eapply conv_in; eauto. intros v' w' J'. apply ret_in; auto. now apply put_local_in.
      - rewrite E, (field_ty_same _ _ (name_known _ L)).
        assert (S : jends f (s_h t) (Ret v (put_stat s (x_class x0 ++ "." ++ x)%string v)) (Ret w (put_stat t (x_class x0 ++ "." ++ x)%string w))).
        { apply ret_in; auto. apply put_stat_in; auto. now apply ext_field. }
        destruct (x_this x0) as [l|], (x_this y0) as [l'|]; cbn in T; try contradiction; [|exact S]. destruct (field_ty Q (x_class x0) x); [|exact S]. now apply assign_field_in'.
    Qed.
    Lemma assign_this_in f s t x0 y0 x v w : inside f s t -> cx_in f x0 y0 -> jval_in f v w -> jends f (s_h t) (assign_field Q x0 x v s) (assign_field P y0 x w t).
    Proof.
      intros I (T & E & L) J. unfold assign_field. rewrite E, (field_ty_same _ _ (name_known _ L)).
      destruct (x_this x0) as [l|], (x_this y0) as [l'|]; cbn in T; try contradiction; [|exact Logic.I]. destruct (field_ty Q (x_class x0) x); [|exact Logic.I]. now apply assign_field_in'.
    Qed.
    Lemma assign_index_in f s t x0 y0 x i v w : inside f s t -> cx_in f x0 y0 -> jval_in f v w -> jends f (s_h t) (assign_index x0 x i v s) (assign_index y0 x i w t).
    Proof.
      intros I (T & E & L) J. unfold assign_index. rewrite E. pose proof (stat_in f s t _ I (ext_field (x_class x0) x L)) as O.
      destruct (assoc (x_class x0 ++ "." ++ x)%string (s_stat s)) as [a|], (assoc (x_class x0 ++ "." ++ x)%string (s_stat t)) as [b|]; cbn in O; try contradiction; [|exact Logic.I].
      destruct O as [a Pa| | | | | | |]; try exact Logic.I. plain_case Pa; try exact Logic.I. destruct J as [v Pv|t0 p q Hv| | | | | |]; try exact Logic.I; [plain_case Pv; exact Logic.I|]. hcase p q; try exact Logic.I.
      destruct ((0 <=? i) && (i <? Z.of_nat (Datatypes.length zs))); [|apply exc_in; auto]. apply ret_in; [|reflexivity|now apply in_t]. apply put_stat_in; [exact I|now apply ext_field|now apply in_plain].
    Qed.
    Lemma lvalue_same f s t x0 y0 x : inside f s t -> cx_in f x0 y0 -> lvalue_type P y0 x t = lvalue_type Q x0 x s.
    Proof.
      intros I (T & E & L). unfold lvalue_type. pose proof (local_in f s t x I) as O. destruct (assoc x (s_loc s)) as [[u a]|], (assoc x (s_loc t)) as [[u' a']|]; cbn in O; try contradiction.
      - destruct O as [-> _]. reflexivity.
      - rewrite E. apply field_ty_same, name_known, L.
    Qed.
    Lemma stringy_in f v w : jval_in f v w -> is_stringy w = is_stringy v. Proof. destruct 1; reflexivity. Qed.
    Lemma numeric_in f v w : jval_in f v w -> is_numeric w = is_numeric v. Proof. destruct 1 as [| t p q H | | | | | |]; try reflexivity. hcase p q; reflexivity. Qed.
    Lemma object_in f v w : jval_in f v w -> is_object w = is_object v. Proof. destruct 1 as [| t p q H | | | | | |]; try reflexivity. hcase p q; reflexivity. Qed.
    Lemma same_in f s t a b a' b' : inside f s t -> jval_in f a a' -> jval_in f b b' -> same a' b' = same a b.
    Proof.
      intros I A B. pose proof (object_in _ _ _ A) as OA. pose proof (object_in _ _ _ B) as OB.
      destruct A as [a Pa|ta p q Ha| | | | | |]; [plain_case Pa|hcase p q|..]; (destruct B as [b Pb|tb p' q' Hb| | | | | |]; [plain_case Pb|hcase p' q'|..]); try reflexivity; cbn in *; rewrite ?OA, ?OB; try reflexivity.
      now rewrite (ref_same _ _ _ _ _ _ _ I Ha Hb).
    Qed.
    Lemma binary_in f s t o a b a' b' : inside f s t -> jval_in f a a' -> jval_in f b b' -> jends f (s_h t) (binary pr vq o a b s) (binary pr vp o a' b' t).
    Proof.
      intros I A B.
      assert (N : forall o, jends f (s_h t) (num a s (fun t x => num b s (fun t' y => match arith o t x t' y with Some v => Ret v s | None => Bad end)))
                    (num a' t (fun u x => num b' t (fun u' y => match arith o u x u' y with Some v => Ret v t | None => Bad end)))).
      { intros o'. apply num_in; auto. intros u z _. apply num_in; auto. intros u' z' _. destruct (arith o' u z u' z') as [v|] eqn:Ar; [|exact Logic.I]. apply ret_in; auto.
        unfold arith in Ar. destruct o'; try discriminate; try (injection Ar as <-; constructor; reflexivity). destruct (z' =? 0); [discriminate|]. injection Ar as <-; constructor; reflexivity. }
      assert (W : forall o, jends f (s_h t) (if is_numeric a || is_numeric b then num a s (fun t x => num b s (fun t' y => match arith o t x t' y with Some v => Ret v s | None => Bad end))
                        else match same a b with Some r => Ret (JB (match o with OEq => r | _ => negb r end)) s | None => Bad end)
                    (if is_numeric a' || is_numeric b' then num a' t (fun u x => num b' t (fun u' y => match arith o u x u' y with Some v => Ret v t | None => Bad end))
                        else match same a' b' with Some r => Ret (JB (match o with OEq => r | _ => negb r end)) t | None => Bad end)).
      { intros o'. rewrite (numeric_in _ _ _ A), (numeric_in _ _ _ B), (same_in _ _ _ _ _ _ _ I A B). destruct (is_numeric a || is_numeric b); [apply N|]. destruct (same a b); [|exact Logic.I]. apply ret_in; auto. now apply in_plain. }
      unfold binary. destruct o; try apply N; try exact (W OEq); try exact (W ONe).
      rewrite (stringy_in _ _ _ A), (stringy_in _ _ _ B). destruct (is_stringy a || is_stringy b); [|apply N].
      eapply ends_bind; [now apply show_in|]. intros f' u u' s' t' G I' ->. eapply ends_bind; [apply show_in; auto; eapply jval_mono; eauto; eapply grown_longer; eauto|]. intros f2 u2 u2' s2 t2 G2 I2 ->.
      apply ret_in; auto. now apply in_t.
    Qed.

    (* ---------- expressions ---------- *)
    Notation evq := (eval Q pr vq cq).
    Notation evp := (eval P pr vp cp).
    Definition goes (e : expr) : Prop := plain e = true -> forall f s t x0 y0, inside f s t -> cx_in f x0 y0 -> jends f (s_h t) (evq x0 e s) (evp y0 e t).
    Lemma args_in : forall l, Forall goes l -> forallb plain l = true -> forall f s t x0 y0, inside f s t -> cx_in f x0 y0 ->
      aends f (s_h t) (eval_args Q pr vq cq x0 l s) (eval_args P pr vp cp y0 l t).
    Proof.
      induction 1 as [|e l He _ IH]; intros Pl f s t x0 y0 I X; cbn [eval_args]; [apply ret_in; auto|]. cbn in Pl. apply andb_true_iff in Pl. destruct Pl as [P1 P2].
      eapply ends_bind; [now apply He|]. intros f1 v w s1 t1 G1 I1 J1. pose proof (grown_longer _ _ _ _ G1) as L1. eapply ends_bind; [apply IH; auto; eapply cx_mono; eauto|]. intros f2 vs ws s2 t2 G2 I2 J2.
      apply ret_in; auto. constructor; auto. eapply jval_mono; [|exact J1]. eapply grown_longer; eauto.
    Qed.
    Lemma eval_args_eq (P0 : program) vc ca x0 l s :
      (fix go (l : list expr) (s : st) : res (list jval) := match l with [] => Ret [] s | a :: r => do v s' <- eval P0 pr vc ca x0 a s; do vs s'' <- go r s'; Ret (v :: vs) s'' end) l s = eval_args P0 pr vc ca x0 l s.
    Proof. reflexivity. Qed.
    Ltac lift G :=
      let L := fresh "Lo" in pose proof (grown_longer _ _ _ _ G) as L;
      match type of L with longer ?f ?g =>
        repeat match goal with
        | X : cx_in f _ _ |- _ => apply (cx_mono f g _ _ L) in X
        | J : jval_in f _ _ |- _ => apply (jval_mono f g L) in J
        | F : Forall2 (jval_in f) _ _ |- _ => apply (args_mono f g _ _ L) in F
        end
      end.
    Ltac seq :=
      eapply ends_bind; [solve [eauto using args_in, name_in, binary_in, assign_in]|];
      let f := fresh "f" in let v := fresh "v" in let w := fresh "w" in let s := fresh "s" in let t := fresh "t" in let G := fresh "G" in let I := fresh "I" in let J := fresh "J" in
      intros f v w s t G I J; cbn beta in J; lift G.
    Lemma eval_in : forall e, goes e /\ forall a i, e = EIndex a i -> goes i.
    Proof.
      assert (FA : forall l, Forall (fun e => goes e /\ forall a i, e = EIndex a i -> goes i) l -> Forall goes l). { intros l F. eapply Forall_impl; [|exact F]. intros e [H _]. exact H. }
      assert (RK : forall f x0 y0 x, cx_in f x0 y0 -> dotless x = true -> resolve P (x_class y0) x = resolve Q (x_class x0) x /\ known (resolve Q (x_class x0) x) = true).
      { intros f x0 y0 x (_ & -> & L) D. now apply resolve_same. }
      induction e as [ | |b|h z|z|z|u|x|e x IHe|e m args IHe IHa|m args IHa|ty args IHa|ty n IHn|a i IHa IHi|ty e IHe|e IHe|e IHe|e IHe|o a b IHa IHb|e IHe|e IHe|o a b IHa IHb|c|c] using expr_ind';
        (split; [intros Pe f s t x0 y0 I X; cbn [plain] in Pe; cbn [eval]; rewrite ?eval_args_eq|intros a0 i0 E; try discriminate E]);
        repeat match goal with H : _ /\ _ |- _ => destruct H | H : _ && _ = true |- _ => apply andb_true_iff in H end.
      - apply ret_in; auto. now apply in_t.
      - pose proof X as (T & E & L). rewrite E. destruct (x_this x0), (x_this y0); cbn in T; try contradiction; [|exact Logic.I]. apply ret_in; auto. now apply in_t.
      - apply ret_in; auto. now apply in_plain.
      - apply ret_in; auto. now apply in_t.
      - apply ret_in; auto. now apply in_t.
      - apply ret_in; auto. now apply in_t.
      - apply ret_in; auto. now apply in_t.
      - now apply name_in.
      - seq. now apply field_val_in.
      - seq. seq. apply dispatch_in; auto. destruct e; auto.
      - seq. pose proof X as (T & E & L). destruct (String.eqb m "getClass").
        + destruct (x_this x0) as [l|], (x_this y0) as [l'|]; cbn in T; try contradiction; [|exact Logic.I]. destruct (class_in _ _ _ (HRef l) (HRef l') I0 T) as [Ec K]. apply ret_in; auto. rewrite Ec. now apply in_cls.
        + destruct (String.eqb m "values").
          * rewrite E, same_class by (apply name_known, L). destruct (assoc (x_class x0) Q) as [d|]; [|exact Logic.I]. destruct J; [|exact Logic.I]. apply ret_in; auto. apply in_vals.
            induction (consts d); constructor; auto. now apply in_const.
          * rewrite E. apply C; auto. apply name_known, L.
      - seq. destruct ty as [c [|]|c| |]; try exact Logic.I.
        + destruct J; [|exact Logic.I]. destruct (RK _ _ _ c X) as [-> K]; auto. now apply new_in.
        + destruct J; [|exact Logic.I]. destruct (String.eqb c "ArrayList").
          * unfold alloc_cell. destruct (alloc_in f0 s0 t0 (CList []) (CList []) I0 (Forall2_nil _)) as (I' & G' & R). eapply heap_ends; [exact I'|exact G'|]. now apply in_t.
          * destruct (String.eqb c "HashMap"); [|exact Logic.I]. apply ret_in; auto. apply in_map; [tauto|discriminate].
      - seq. apply num_in; auto. intros u z _. destruct (0 <=? z); [|exact Logic.I]. apply ret_in; auto. now apply in_plain.
      - seq. seq. destruct J as [v Pv| | | | | | |]; try exact Logic.I. plain_case Pv; try exact Logic.I. apply num_in; auto. intros u z _. destruct (_ && _); [|apply exc_in; auto]. apply ret_in; auto. now apply in_t.
      - injection E as <- <-. assumption.
      - seq. destruct (is_prim ty); [apply num_in; auto; intros u z _; apply ret_in; auto; now apply in_t|].
        destruct J as [v Pv|u p q Hv|c Kc|c x Kc|c Kc|c Kc|vs ws Fv|m n M1 M2]; try (apply ret_in; auto; constructor; auto; fail).
        + plain_case Pv; apply ret_in; auto; now apply in_plain.
        + hcase p q; try (apply ret_in; auto; now apply in_t). destruct ty as [c l2| | |]; try exact Logic.I. destruct (RK _ _ _ c X) as [-> K]; auto. rewrite same_class by exact K.
          destruct (class_in _ _ _ (HRef l) (HRef l0) I0 Hv) as [-> _]. destruct (assoc _ Q); [destruct (String.eqb _ _); [|exact Logic.I]|]; apply ret_in; auto; now apply in_t.
      - match goal with H : goes e |- _ => now apply H end.
      - seq. destruct J as [v Pv| | | | | | |]; try exact Logic.I. plain_case Pv; try exact Logic.I. apply ret_in; auto. now apply in_plain.
      - seq. apply num_in; auto. intros u z _. apply ret_in; auto. now apply in_t.
      - destruct o; try (seq; seq; apply binary_in; auto; fail).
        + seq. destruct J as [v Pv| | | | | | |]; try exact Logic.I. plain_case Pv; try exact Logic.I. destruct b0; [apply ret_in; auto; now apply in_plain|]. seq. destruct J as [v Pv'| | | | | | |]; try exact Logic.I. plain_case Pv'; try exact Logic.I. apply ret_in; auto. now apply in_plain.
        + seq. destruct J as [v Pv| | | | | | |]; try exact Logic.I. plain_case Pv; try exact Logic.I. destruct b0; [|apply ret_in; auto; now apply in_plain]. seq. destruct J as [v Pv'| | | | | | |]; try exact Logic.I. plain_case Pv'; try exact Logic.I. apply ret_in; auto. now apply in_plain.
      - destruct e; try exact Logic.I. cbn [plain] in Pe. seq. apply num_in; auto. intros u z _. eapply ends_bind; [apply assign_in; auto; now apply in_t|]. intros f2 v2 w2 s2 t2 G2 I2 J2. lift G2. apply ret_in; auto.
      - destruct e; try exact Logic.I. cbn [plain] in Pe. seq. apply num_in; auto. intros u z _. eapply ends_bind; [apply assign_in; auto; now apply in_t|]. intros f2 v2 w2 s2 t2 G2 I2 J2. lift G2. apply ret_in; auto.
      - destruct o as [|o].
        + destruct a as [ | | | | | | |x|e1 x| | | | |a i| | | | | | | | | |]; try exact Logic.I.
          * seq. now apply assign_in.
          * destruct e1; try exact Logic.I. seq. now apply assign_this_in.
          * destruct a; try exact Logic.I. cbn [plain] in *. match goal with H : _ && _ = true |- _ => apply andb_true_iff in H; destruct H end.
            eapply ends_bind; [match goal with H : forall a i, EIndex _ _ = EIndex a i -> goes i |- _ => eapply H; eauto end|]. intros f1 v w s1 t1 G1 I1 J1. lift G1. apply num_in; auto. intros u z _. seq. now apply assign_index_in.
        + destruct a; try exact Logic.I. cbn [plain] in *. rewrite (lvalue_same _ _ _ _ _ x I X). destruct (lvalue_type Q x0 x s) as [ty|].
          * seq. seq. seq. apply num_in; auto. intros u z _. apply assign_in; auto. now apply in_t.
          * eapply ends_bind; [now apply name_in|]. intros f1 v w s1 t1 G1 I1 J1. lift G1. seq. exact Logic.I.
      - destruct (RK _ _ _ c X) as [-> K]; auto. apply ret_in; auto. apply in_sup.
      - destruct (RK _ _ _ c X) as [-> K]; auto. apply ret_in; auto. now apply in_cls.
    Qed.
    Lemma evals e : goes e. Proof. apply eval_in. Qed.

    (* ---------- statements ---------- *)
    Definition ores (f : list nat) (a b : option jval) : Prop := opt_in (jval_in f) a b.
    Notation oends := (ends_in ores ext).
    Lemma leave_in f s t n : inside f s t -> inside f (leave n s) (leave n t).
    Proof.
      intros I. unfold leave. apply in_loc; auto. destruct I as (_ & _ & L & _). rewrite <- (F2_len _ _ _ L). generalize (List.length (s_loc s) - n)%nat. intros j. revert j L. generalize (s_loc s) (s_loc t). clear.
      induction l as [|a l IH]; intros m j F; inversion F; subst; destruct j; cbn; auto.
    Qed.
    Lemma scoped_in f s t r r' H : Datatypes.length (s_loc s) = Datatypes.length (s_loc t) -> oends f H r r' -> oends f H (scoped s r) (scoped t r').
    Proof.
      intros E K. destruct r as [a u|e u|]; cbn [scoped]; [| |exact Logic.I].
      - destruct K as (f' & a' & v & -> & G & I & J). cbn [scoped]. exists f', a', (leave (List.length (s_loc t)) v). rewrite <- E. split; [reflexivity|]. split; [exact G|]. split; [now apply leave_in|exact J].
      - destruct K as (f' & v & -> & G & I). cbn [scoped]. exists f', (leave (List.length (s_loc t)) v). rewrite <- E. split; [reflexivity|]. split; [exact G|now apply leave_in].
    Qed.
    Lemma same_depth f s t : inside f s t -> Datatypes.length (s_loc s) = Datatypes.length (s_loc t). Proof. intros (_ & _ & L & _). exact (F2_len _ _ _ L). Qed.
    Lemma declare_in f s t u x v w : inside f s t -> jval_in f v w -> oends f (s_h t) (declare u x v s) (declare u x w t).
    Proof.
      intros I J. unfold declare. apply conv_in; auto. intros v' w' J'. apply ret_in; [|reflexivity|exact Logic.I]. apply in_loc; auto. constructor; [|apply I]. split; [reflexivity|]. split; [reflexivity|exact J'].
    Qed.
    Lemma loop_in x0 y0 (c c' : st -> res jval) (b b' : st -> res (option jval)) (u u' : st -> res jval) f0 :
      (forall f s t, longer f0 f -> inside f s t -> jends f (s_h t) (c s) (c' t)) -> (forall f s t, longer f0 f -> inside f s t -> oends f (s_h t) (b s) (b' t)) ->
      (forall f s t, longer f0 f -> inside f s t -> jends f (s_h t) (u s) (u' t)) ->
      forall n f s t, longer f0 f -> cx_in f x0 y0 -> inside f s t -> oends f (s_h t) (loop n c b u s) (loop n c' b' u' t).
    Proof.
      intros Hc Hb Hu. induction n as [|n IH]; intros f s t Lo X I; [exact Logic.I|]. cbn [loop]. eapply ends_bind; [now apply Hc|]. intros f1 v w s1 t1 G1 I1 J1. lift G1.
      destruct J1 as [v Pv| | | | | | |]; try exact Logic.I. plain_case Pv; try exact Logic.I. destruct b0; [|apply ret_in; auto; exact Logic.I].
      assert (L1 : longer f0 f1) by (eapply longer_trans; eauto). eapply ends_bind; [now apply Hb|]. intros f2 o o' s2 t2 G2 I2 J2. lift G2. destruct o, o'; cbn in J2; try contradiction; [apply ret_in; auto|].
      assert (L2 : longer f0 f2) by (eapply longer_trans; eauto). eapply ends_bind; [now apply Hu|]. intros f3 v w s3 t3 G3 I3 J3. lift G3. apply IH; auto. eapply longer_trans; eauto.
    Qed.
    Lemma each_in (b b' : jval -> st -> res (option jval)) f0 : (forall f s t v w, longer f0 f -> inside f s t -> jval_in f v w -> oends f (s_h t) (b v s) (b' w t)) ->
      forall f vs ws s t, longer f0 f -> Forall2 (jval_in f) vs ws -> inside f s t -> oends f (s_h t) (each b vs s) (each b' ws t).
    Proof.
      intros Hb f vs ws s t Lo F. revert f s t ws Lo F. induction vs as [|v vs IH]; intros f s t ws Lo F I; inversion F; subst; cbn [each]; [apply ret_in; auto; exact Logic.I|].
      eapply ends_bind; [now apply Hb|]. intros f2 o o' s2 t2 G2 I2 J2. destruct o, o'; cbn in J2; try contradiction; [apply ret_in; auto|]. pose proof (grown_longer _ _ _ _ G2) as L2. apply IH; auto; [eapply longer_trans; eauto|eapply args_mono; eauto].
    Qed.
    Variable k : nat.
    Definition does (c : stmt) : Prop := plain_stmt c = true -> forall f s t x0 y0, inside f s t -> cx_in f x0 y0 -> oends f (s_h t) (exec Q pr vq cq k x0 c s) (exec P pr vp cp k y0 c t).
    Lemma all_in : forall l, Forall does l -> forallb plain_stmt l = true -> forall f s t x0 y0, inside f s t -> cx_in f x0 y0 ->
      oends f (s_h t) (exec_all Q pr vq cq k x0 l s) (exec_all P pr vp cp k y0 l t).
    Proof.
      induction 1 as [|c l Hc _ IH]; intros Pl f s t x0 y0 I X; cbn [exec_all]; [apply ret_in; auto; exact Logic.I|]. cbn in Pl. apply andb_true_iff in Pl. destruct Pl as [P1 P2].
      eapply ends_bind; [now apply Hc|]. intros f1 o o' s1 t1 G1 I1 J1. lift G1. destruct o, o'; cbn in J1; try contradiction; [apply ret_in; auto|]. now apply IH.
    Qed.
    Lemma exec_in : forall c, does c.
    Proof.
      induction c as [ty x e|e|e a r IHa IHr|ty x i c u a IHa|ty x e a IHa|c a IHa|a c IHa|e|e|ss IHs] using stmt_ind'; intros Pe f s t x0 y0 I X; cbn [plain_stmt] in Pe; cbn [exec]; pose proof evals as Ev; unfold goes in Ev.
      - destruct e as [e|]; [seq; now apply declare_in|]. apply ret_in; [|reflexivity|exact Logic.I]. apply in_loc; auto. constructor; [|apply I]. split; [reflexivity|]. split; [reflexivity|now apply in_plain].
      - seq. apply ret_in; auto. exact Logic.I.
      - apply andb_true_iff in Pe. destruct Pe as [Pe Pr]. apply andb_true_iff in Pe. destruct Pe as [Pe Pa]. seq. destruct J as [v Pv| | | | | | |]; try exact Logic.I. plain_case Pv; try exact Logic.I. destruct b.
        + apply scoped_in; [eapply same_depth; eauto|]. now apply IHa.
        + destruct r as [d|]; [|apply ret_in; auto; exact Logic.I]. apply scoped_in; [eapply same_depth; eauto|]. now apply (IHr d).
      - repeat match goal with H : _ && _ = true |- _ => apply andb_true_iff in H; destruct H end. apply scoped_in; [eapply same_depth; eauto|]. seq. eapply ends_bind; [now apply declare_in|]. intros f1 o o' s1 t1 G1 I1 J1. lift G1.
        eapply loop_in; [..|apply longer_refl|exact X|exact I1]; intros f2 s2 t2 L2 I2; pose proof (cx_mono _ _ _ _ L2 X).
        + now apply Ev. + apply scoped_in; [eapply same_depth; eauto|]. now apply IHa. + now apply Ev.
      - apply andb_true_iff in Pe. destruct Pe as [Pe Pa]. seq. destruct J as [v Pv| | | | | |vs ws F|]; try exact Logic.I; [plain_case Pv; exact Logic.I|]. eapply each_in; [|apply longer_refl|exact F|auto].
        intros f2 s2 t2 v w L2 I2 J2. pose proof (cx_mono _ _ _ _ L2 X). apply scoped_in; [eapply same_depth; eauto|]. eapply ends_bind; [now apply declare_in|]. intros f1 o o' s1 t1 G1 I1 J1. lift G1. now apply IHa.
      - apply andb_true_iff in Pe. destruct Pe as [Pe Pa]. apply scoped_in; [eapply same_depth; eauto|].
        eapply loop_in; [..|apply longer_refl|exact X|exact I]; intros f2 s2 t2 L2 I2; pose proof (cx_mono _ _ _ _ L2 X).
        + now apply Ev. + apply scoped_in; [eapply same_depth; eauto|]. now apply IHa. + apply ret_in; auto. now apply in_plain.
      - apply andb_true_iff in Pe. destruct Pe as [Pe Pa]. apply scoped_in; [eapply same_depth; eauto|].
        eapply ends_bind; [apply scoped_in; [eapply same_depth; eauto|]; now apply IHa|]. intros f1 o o' s1 t1 G1 I1 J1. lift G1. destruct o, o'; cbn in J1; try contradiction; [apply ret_in; auto|].
        eapply loop_in; [..|apply longer_refl|exact X|exact I1]; intros f2 s2 t2 L2 I2; pose proof (cx_mono _ _ _ _ L2 X).
        + now apply Ev. + apply scoped_in; [eapply same_depth; eauto|]. now apply IHa. + apply ret_in; auto. now apply in_plain.
      - destruct e as [e|]; [seq; apply ret_in; auto|]. apply ret_in; auto. now apply in_plain.
      - destruct e; try exact Logic.I. destruct t0 as [c [|]| | |]; try exact Logic.I. destruct args as [|a [|]]; try exact Logic.I. destruct (String.eqb c "IllegalArgumentException"); [|exact Logic.I].
        cbn [plain forallb] in Pe. repeat match goal with H : _ && _ = true |- _ => apply andb_true_iff in H; destruct H end. seq. apply exc_in; auto.
      - apply scoped_in; [eapply same_depth; eauto|]. now apply (all_in ss).
    Qed.
    Lemma execs l : forallb plain_stmt l = true -> forall f s t x0 y0, inside f s t -> cx_in f x0 y0 -> oends f (s_h t) (exec_all Q pr vq cq k x0 l s) (exec_all P pr vp cp k y0 l t).
    Proof. apply all_in. apply Forall_forall. intros c _. apply exec_in. Qed.
  End Body.

  (* ---------- calls ---------- *)
  Lemma params_in f s t : inside f s t -> forall ps args args' acc acc', Forall2 (jval_in f) args args' -> Forall2 (loc_in f) acc acc' ->
    ends_in (fun f => Forall2 (loc_in f)) ext f (s_h t) (bind_params ps args s acc) (bind_params ps args' t acc').
  Proof.
    intros I. induction ps as [|[u x] ps IH]; intros args args' acc acc' F A; destruct F; cbn [bind_params]; try exact Logic.I; [apply ret_in; auto|].
    apply conv_in; auto. intros v w J. apply IH; auto. constructor; auto. split; [reflexivity|]. split; [reflexivity|exact J].
  Qed.
  Lemma run_in : forall k f a b c m args args' s t, this_in f a b -> known c = true -> Forall2 (jval_in f) args args' -> inside f s t -> jends f (s_h t) (run Q pr vq k a c m args s) (run P pr vp k b c m args' t).
  Proof.
    induction k as [|k IH]; intros f a b c m args args' s t T K F I; [exact Logic.I|]. cbn [run]. rewrite <- (F2_len _ _ _ F), find_method_same by exact K. destruct (find_method Q c m (List.length args)) as [[ps body]|] eqn:M; [|exact Logic.I].
    destruct (found_plain _ _ _ _ _ M) as [L Pb]. eapply ends_bind; [apply params_in; auto|]. intros f1 ls ls' s1 t1 G1 I1 A1. cbn beta in A1. pose proof (grown_longer _ _ _ _ G1) as L1.
    assert (X : cx_in f1 {| x_this := a; x_class := c |} {| x_this := b; x_class := c |}) by (split; [eapply this_mono; eauto|split; [reflexivity|exact L]]).
    pose proof (execs (run P pr vp k) (run Q pr vq k) IH k body Pb f1 _ _ _ _ (in_loc _ _ _ _ _ I1 A1) X) as R.
    assert (B : forall f2, longer f1 f2 -> Forall2 (loc_in f2) (s_loc s) (s_loc t)). { intros f2 L2. apply (loc_mono f); [exact (longer_trans _ _ _ L1 L2)|]. apply I. }
    destruct (exec_all Q pr vq (run Q pr vq k) k _ body (set_loc s1 ls)) as [o s2|e s2|]; [| |exact Logic.I].
    - destruct R as (f2 & o' & t2 & -> & G2 & I2 & J2). exists f2, (result o'), (set_loc t2 (s_loc t)). split; [reflexivity|]. split; [exact G2|]. split; [apply in_loc; auto; apply B; eapply grown_longer; eauto|].
      destruct o, o'; cbn in J2; try contradiction; [exact J2|now apply in_plain].
    - destruct R as (f2 & t2 & -> & G2 & I2). exists f2, (set_loc t2 (s_loc t)). split; [reflexivity|]. split; [exact G2|]. apply in_loc; auto; apply B; eapply grown_longer; eauto.
  Qed.
End Embed.

Section Calls.
  Variable P Q : program.
  Variable pr : printers.
  Variable ext : list (string * jval).
  Hypothesis same_class : forall c, known c = true -> assoc c P = assoc c Q.
  Hypothesis lib_class : forall c d, assoc c Q = Some d -> library_name c = true /\ plain_class d = true.
  Hypothesis apart : foreign ext.
  Lemma vcalls_in k : forall d m f l l' args args' s t, nth_error f l = Some l' -> Forall2 (jval_in f) args args' -> inside ext f s t ->
    ends_in jval_in ext f (s_h t) (vcalls Q pr k d m l args s) (vcalls P pr k d m l' args' t).
  Proof.
    induction d as [|d IH]; intros m f l l' args args' s t N F I; cbn [vcalls]; [apply exc_in; auto|]. destruct (at_in _ _ _ _ _ _ I N) as (a & b & -> & -> & C).
    destruct a, b; cbn in C; try contradiction; try exact Logic.I. destruct C as (-> & K & _). apply run_in; auto.
  Qed.
  Lemma static_in k d f c m args args' s t : known c = true -> Forall2 (jval_in f) args args' -> inside ext f s t ->
    ends_in jval_in ext f (s_h t) (run Q pr (vcalls Q pr k d) k None c m args s) (run P pr (vcalls P pr k d) k None c m args' t).
  Proof. intros K F I. apply run_in; auto; [apply vcalls_in|exact Logic.I]. Qed.
End Calls.
