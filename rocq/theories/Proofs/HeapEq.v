(* equals, hashCode and toString on the heap and on the trees the references stand for. *)
From Coq Require Import ZArith List Bool String Lia.
From Verif.Model Require Import JavaPrim ByteBuf Utf8 Codec Ast Interp Show Heap.
From Verif.Spec Require Import Bytes Wire Sharing.
From Verif.Proofs Require Import HeapFacts.
Import ListNotations.

Lemma shows_det h : (forall v t, shows h v t -> forall t', shows h v t' -> t' = t) /\ (forall vs ts, shows_all h vs ts -> forall ts', shows_all h vs ts' -> ts' = ts).
Proof.
  apply shows_ind2; try (intros; match goal with H : shows _ _ _ |- _ => inversion H; subst end; reflexivity).
  - intros l vs ts Hl _ IH t' H. inversion H; subst; [|congruence]. f_equal. apply IH. congruence.
  - intros l c fs gs Hl En _ IH t' H. inversion H as [| | | |l0 vs0 ts0 Hl0|l0 c0 fs0 gs0 Hl0 En0 A0]; subst; [congruence|].
    rewrite Hl in Hl0. injection Hl0 as <- <-. f_equal. specialize (IH _ A0). clear - En En0 IH. rewrite <- En in En0. clear En. revert gs0 En0 IH.
    induction gs as [|[f v] gs IHg]; intros [|[f0 v0] gs0] E V; cbn in *; try discriminate; auto. injection E as -> E. injection V as -> V. f_equal; auto.
  - intros ts' H. inversion H. reflexivity.
  - intros v t vs ts _ IH1 _ IH2 ts' H. inversion H; subst. f_equal; auto.
Qed.

(* no list is an element of a list *)
Definition is_list (v : val) : bool := match v with VList _ => true | _ => false end.
Fixpoint flatb (v : val) : bool :=
  match v with
  | VList l => forallb (fun x => negb (is_list x) && flatb x) l
  | VObj _ fs => forallb (fun p => flatb (snd p)) fs
  | _ => true
  end.
Definition flat_type (t : ftype) : bool := match t with TList (TList _) => false | _ => true end.

Section Trees.
  Variable E : env.
  Hypothesis FLAT : forall c cd, find_class E c = Some cd -> forallb (fun ft => flat_type (snd ft)) (c_fields cd) = true.
  Lemma typed_flat h : (forall a v, shows h a v -> forall t, flat_type t = true -> typed (classes E) v t = true -> flatb v = true)
    /\ (forall vs ts, shows_all h vs ts -> forall tys, forallb flat_type tys = true ->
         List.length tys = List.length ts -> Forall2 (fun v t => is_null v || typed (classes E) v t = true) ts tys -> forallb flatb ts = true).
  Proof.
    apply shows_ind2; try (intros; reflexivity).
    - intros l vs ts _ _ IH t FT T. destruct t; try discriminate. cbn [typed] in T. cbn [flatb].
      assert (NL : forall u, In u ts -> is_list u = false).
      { intros u Hu. rewrite forallb_forall in T. specialize (T u Hu). destruct u; auto. cbn in T. destruct t; try discriminate. }
      assert (FF : forallb flatb ts = true).
      { apply (IH (repeat t (List.length ts))).
        - rewrite forallb_forall. intros x Hx. apply repeat_spec in Hx. subst x. destruct t; auto; discriminate.
        - apply repeat_length.
        - clear - T. induction ts as [|x ts IHt]; cbn in *; constructor; apply andb_true_iff in T; destruct T; auto. }
      rewrite forallb_forall in *. intros x Hx. rewrite (NL x Hx), (FF x Hx). reflexivity.
    - intros l c fs gs _ _ _ IH t FT T. cbn [typed] in T. apply andb_true_iff in T. destruct T as [_ T].
      destruct (assoc c (classes E)) as [cd|] eqn:A; [|discriminate]. pose proof (FLAT c cd A) as FL. cbn [flatb].
      assert (K : forallb flatb (map snd gs) = true).
      { apply (IH (map snd (c_fields cd))).
        - clear - FL. induction (c_fields cd) as [|ft l IHl]; cbn in *; auto. apply andb_true_iff in FL. destruct FL as [-> FL]. auto.
        - revert T. generalize (c_fields cd). clear. induction gs as [|g gs IHg]; intros [|ft l] T; cbn in *; try discriminate; auto.
          apply andb_true_iff in T. destruct T. f_equal. auto.
        - revert T. generalize (c_fields cd). clear. induction gs as [|g gs IHg]; intros [|ft l] T; cbn in *; try discriminate; constructor.
          + apply andb_true_iff in T. destruct T as [T _]. apply andb_true_iff in T. destruct T as [_ ->]. apply orb_true_r.
          + apply IHg. apply andb_true_iff in T. apply T. }
      clear - K. induction gs as [|g gs IHg]; cbn in *; auto. apply andb_true_iff in K. destruct K as [-> K]. auto.
    - intros v t vs ts _ IH1 _ IH2 tys FT L F. inversion F as [|? ty ? tys' Hv Hr]; subst. cbn in *. apply andb_true_iff in FT. destruct FT as [F1 F2].
      rewrite (IH2 tys'); auto. rewrite andb_true_r. destruct (is_null t) eqn:N; [destruct t; try discriminate; reflexivity|]. cbn in Hv. eapply IH1; eauto.
  Qed.

  Lemma shows_field h f : forall fs gs, map fst gs = map fst fs -> shows_all h (map snd fs) (map snd gs) -> shows h (hget f fs) (get f gs).
  Proof.
    induction fs as [|[g v] fs IH]; intros [|[g' t] gs] En H; cbn in *; try discriminate; [constructor|]. injection En as -> En. inversion H; subst.
    destruct (String.eqb f g); auto.
  Qed.
  Lemma flat_field f gs : forallb (fun p => flatb (snd p)) gs = true -> flatb (get f gs) = true.
  Proof. induction gs as [|[g t] gs IH]; cbn; auto. intros H. apply andb_true_iff in H. destruct H. destruct (String.eqb f g); auto. Qed.
  Lemma shows_elements h a v : shows h a v ->
    match v with VList ts => exists vs l, a = HRef l /\ nth_error h l = Some (CList vs) /\ shows_all h vs ts | _ => elements h a = None end.
  Proof. intros H. destruct H; cbn [elements]; auto; [eauto 6|]. rewrite H. reflexivity. Qed.

  (* ---- hashCode ---- *)
  Definition agree {A} (h : heap) (f : hval -> option A) (g : val -> option A) : Prop :=
    forall a v, shows h a v -> flatb v = true -> f a = g v.
  Lemma hash_item h f g t a v : agree h f g -> shows h a v -> flatb v = true -> is_list v = false -> hhash_item f t a = hash_val g t v.
  Proof.
    intros A S F L. destruct S; cbn [hhash_item hash_val]; auto; [discriminate|]. apply A; auto. eapply shows_obj; eauto.
  Qed.
  Definition hash_list (g : val -> option Z) (t : ftype) := fix go (l : list val) (h : Z) : option Z :=
           match l with
           | [] => Some h
           | x :: r => match hash_val g t x with
                       | Some k => go r (hash_step h k)
                       | None => None
                       end
           end.
  Lemma hash_items h f g t : agree h f g -> forall vs ts k, shows_all h vs ts -> forallb (fun x => negb (is_list x) && flatb x) ts = true ->
    hhash_items f t vs k = hash_list g t ts k.
  Proof.
    intros A vs. induction vs as [|v vs IH]; intros ts k S F; inversion S as [|? u ? us Hv Hr]; subst; cbn [hhash_items hash_list]; auto.
    cbn in F. apply andb_true_iff in F. destruct F as [F1 F2]. apply andb_true_iff in F1. destruct F1 as [N F1]. apply negb_true_iff in N.
    rewrite (hash_item h f g t v u A Hv F1 N). destruct (hash_val g t u); auto.
  Qed.
  Lemma hash_value h f g t a v : agree h f g -> shows h a v -> flatb v = true -> hhash_val f h t a = hash_val g t v.
  Proof.
    intros A S F. unfold hhash_val. pose proof (shows_elements h a v S) as EL. destruct v; try (rewrite EL; apply (hash_item h); auto; fail).
    destruct EL as (vs & m & -> & Hm & SA). cbn [elements]. rewrite Hm. cbn [hash_val]. apply (hash_items h f g); auto.
  Qed.
  Lemma hash_fields_agree h f g ts : agree h f g -> forall names fs gs k, map fst gs = map fst fs -> shows_all h (map snd fs) (map snd gs) ->
    forallb (fun p => flatb (snd p)) gs = true -> hhash_fields f h ts names fs k = hash_fields g ts names gs k.
  Proof.
    intros A names fs gs k En S F. revert k. induction names as [|n names IH]; intros k; cbn [hhash_fields hash_fields]; auto.
    rewrite (hash_value h f g (type_of n ts) _ _ A (shows_field h n fs gs En S) (flat_field n gs F)). destruct (hash_val g _ _); auto.
  Qed.
  Theorem hash_agree h d : agree h (hhash E d h) (jhash E d).
  Proof.
    induction d as [|d IH]; intros a v S F; [reflexivity|]. pose proof S as S0. destruct S as [| | | |l vs ts Hl SA|l c fs gs Hl En SA]; cbn [hhash jhash]; auto.
    - rewrite Hl. reflexivity.
    - rewrite Hl. destruct (find_class E c) as [cd|]; auto. destruct (c_hash cd); [apply IH; auto|]. apply hash_fields_agree; auto.
  Qed.

  (* ---- toString ---- *)
  Variable P : printers.
  Lemma show_item h f g t a v : agree h f g -> shows h a v -> flatb v = true -> is_list v = false -> hshow_item P f t a = show_val P g t v.
  Proof.
    intros A S F L. destruct S; cbn [hshow_item show_val]; auto; [discriminate|]. apply A; auto. eapply shows_obj; eauto.
  Qed.
  Definition show_list (g : val -> option (list Z)) (t : ftype) := fix go (l : list val) : option (list Z) :=
                 match l with
                 | [] => Some []
                 | x :: r => match show_val P g t x, go r with
                             | Some a, Some b => Some (match r with [] => a | _ => a ++ chars ", " ++ b end)
                             | _, _ => None
                             end
                 end.
  Lemma show_items h f g t : agree h f g -> forall vs ts, shows_all h vs ts -> forallb (fun x => negb (is_list x) && flatb x) ts = true ->
    hshow_items P f t vs = show_list g t ts.
  Proof.
    intros A vs. induction vs as [|v vs IH]; intros ts S F; inversion S as [|? u ? us Hv Hr]; subst; cbn [hshow_items show_list]; auto.
    cbn in F. apply andb_true_iff in F. destruct F as [F1 F2]. apply andb_true_iff in F1. destruct F1 as [N F1]. apply negb_true_iff in N.
    rewrite (show_item h f g t v u A Hv F1 N), (IH us Hr F2). destruct (show_val P g t u); auto. destruct (show_list g t us); auto. inversion Hr; subst; reflexivity.
  Qed.
  Lemma show_value h f g t a v : agree h f g -> shows h a v -> flatb v = true -> hshow_val P f h t a = show_val P g t v.
  Proof.
    intros A S F. unfold hshow_val. pose proof (shows_elements h a v S) as EL. destruct v; try (rewrite EL; apply (show_item h); auto; fail).
    destruct EL as (vs & m & -> & Hm & SA). cbn [elements]. rewrite Hm. cbn [show_val]. rewrite (show_items h f g _ A vs l SA F). reflexivity.
  Qed.
  Lemma show_fields_agree h f g ts : agree h f g -> forall ls first fs gs, map fst gs = map fst fs -> shows_all h (map snd fs) (map snd gs) ->
    forallb (fun p => flatb (snd p)) gs = true -> hshow_fields P f h ts first ls fs = show_fields P g ts first ls gs.
  Proof.
    intros A ls first fs gs En S F. revert first. induction ls as [|[l n] ls IH]; intros first; cbn [hshow_fields show_fields]; auto.
    rewrite (show_value h f g (type_of n ts) _ _ A (shows_field h n fs gs En S) (flat_field n gs F)), IH. reflexivity.
  Qed.
  Theorem show_agree h d : agree h (hstring E P d h) (jstring_of E P d).
  Proof.
    induction d as [|d IH]; intros a v S F; [reflexivity|]. destruct S as [| | | |l vs ts Hl SA|l c fs gs Hl En SA]; cbn [hstring jstring_of]; auto.
    - rewrite Hl. reflexivity.
    - rewrite Hl. destruct (find_class E c) as [cd|]; auto. rewrite (show_fields_agree h _ _ (c_fields cd) IH (c_str cd) true fs gs En SA F). reflexivity.
  Qed.

  (* ---- equals ---- *)
  Definition eq_list (g : val -> val -> option bool) (t : ftype) := fix go (x y : list val) : option bool :=
           match x, y with
           | [], [] => Some true
           | u :: x', w :: y' => match eq_val g t u w with
                                 | Some true => go x' y'
                                 | r => r
                                 end
           | _, _ => Some false
           end.
  Lemma eq_self h g : (forall v r, g v v = Some r -> r = true) ->
    (forall a v, shows h a v -> forall t r, eq_val g t v v = Some r -> r = true) /\ (forall vs ts, shows_all h vs ts -> forall t r, eq_list g t ts ts = Some r -> r = true).
  Proof.
    intros G. apply shows_ind2.
    - intros t r H. cbn in H. congruence.
    - intros z t r H. cbn in H. rewrite Z.eqb_refl in H. congruence.
    - intros z t r H. cbn [eq_val] in H. rewrite Z.eqb_refl in H. congruence.
    - intros s t r H. cbn [eq_val] in H. destruct (list_eq_dec Z.eq_dec s s); congruence.
    - intros l vs ts _ _ IH t r H. cbn [eq_val] in H. eapply IH. exact H.
    - intros l c fs gs _ _ _ _ t r H. cbn [eq_val] in H. eapply G; eauto.
    - intros t r H. cbn in H. congruence.
    - intros v u vs us _ IH1 _ IH2 t r H. cbn [eq_list] in H. destruct (eq_val g t u u) as [q|] eqn:Q; [|discriminate].
      rewrite (IH1 t q Q) in H. eapply IH2; eauto.
  Qed.
  Definition follows (h : heap) (f : hval -> hval -> option bool) (g : val -> val -> option bool) : Prop :=
    forall a b v w r, shows h a v -> shows h b w -> flatb v = true -> flatb w = true -> g v w = Some r -> f a b = Some r.
  Definition selfish (g : val -> val -> option bool) : Prop := forall v r, g v v = Some r -> r = true.
  Lemma eq_item h f g t a b v w r : follows h f g -> selfish g -> shows h a v -> shows h b w -> flatb v = true -> flatb w = true ->
    is_list v && is_list w = false -> eq_val g t v w = Some r -> heq_item f h t a b = Some r.
  Proof.
    intros A G SA SB FA FB L H. destruct SA as [|z|z|z|l vs ts Hl SA|l c fs gs Hl En SA], SB as [|z'|z'|z'|l' vs' ts' Hl' SA'|l' c' fs' gs' Hl' En' SA'];
      cbn [eq_val] in H; cbn [heq_item]; auto; try discriminate L.
    - assert (l <> l') by congruence. destruct (Nat.eqb_spec l l'); [contradiction|]. rewrite Hl; try rewrite Hl'; exact H.
    - assert (l <> l') by congruence. destruct (Nat.eqb_spec l l'); [contradiction|]. rewrite Hl; try rewrite Hl'; exact H.
    - destruct (Nat.eqb_spec l l') as [<-|N].
      + assert (EQ : VObj c' gs' = VObj c gs) by (apply (proj1 (shows_det h) (HRef l)); eapply shows_obj; eauto). rewrite EQ in H. f_equal. symmetry. eapply G; eauto.
      + rewrite Hl, Hl'. eapply A; [eapply shows_obj; eauto|eapply shows_obj; eauto| | |]; eauto.
  Qed.
  Lemma eq_items h f g t : follows h f g -> selfish g -> forall vs ws xs ys r, shows_all h vs xs -> shows_all h ws ys ->
    forallb (fun x => negb (is_list x) && flatb x) xs = true -> forallb (fun x => negb (is_list x) && flatb x) ys = true ->
    eq_list g t xs ys = Some r -> heq_items f h t vs ws = Some r.
  Proof.
    intros A G vs. induction vs as [|v vs IH]; intros ws xs ys r SX SY FX FY H; inversion SX as [|? x ? xs' Hv Hr]; subst;
      inversion SY as [|w y ws' ys' Hw Hs]; subst; cbn [eq_list] in H; cbn [heq_items]; auto.
    cbn in FX, FY. apply andb_true_iff in FX, FY. destruct FX as [FX1 FX2], FY as [FY1 FY2]. apply andb_true_iff in FX1, FY1. destruct FX1 as [NX FX1], FY1 as [NY FY1].
    apply negb_true_iff in NX. destruct (eq_val g t x y) as [q|] eqn:Q; [|discriminate].
    rewrite (eq_item h f g t v w x y q); auto; [|rewrite NX; reflexivity]. destruct q; [|exact H]. eapply IH; eauto.
  Qed.
  Lemma eq_value h f g t a b v w r : follows h f g -> selfish g -> shows h a v -> shows h b w -> flatb v = true -> flatb w = true ->
    eq_val g t v w = Some r -> heq_val f h t a b = Some r.
  Proof.
    intros A G SA SB FA FB H. unfold heq_val. pose proof (shows_elements h a v SA) as EA. pose proof (shows_elements h b w SB) as EB.
    destruct (is_list v && is_list w) eqn:L.
    - destruct v as [| | | |ts|], w as [| | | |us|]; try discriminate L. destruct EA as (vs & l & -> & Hl & SVS), EB as (ws & m & -> & Hm & SWS).
      cbn [elements]. rewrite Hl, Hm. cbn [eq_val] in H. destruct (Nat.eqb_spec l m) as [<-|N].
      + pose proof (proj1 (shows_det h) _ _ SA _ SB) as EQ. injection EQ as ->.
        f_equal. symmetry. eapply (proj2 (eq_self h g G)); [exact SVS|exact H].
      + eapply (eq_items h f g); eauto.
    - assert (IT : heq_item f h t a b = Some r) by (eapply eq_item; eauto).
      destruct v; try (rewrite EA; exact IT); destruct EA as (vs & m & -> & Hm & SVS); cbn [elements]; rewrite Hm;
        destruct w; try discriminate L; rewrite EB; exact IT.
  Qed.
  Lemma eq_fields_follow h f g ts : follows h f g -> selfish g -> forall names fs fs' gs gs' r,
    map fst gs = map fst fs -> shows_all h (map snd fs) (map snd gs) -> forallb (fun p => flatb (snd p)) gs = true ->
    map fst gs' = map fst fs' -> shows_all h (map snd fs') (map snd gs') -> forallb (fun p => flatb (snd p)) gs' = true ->
    eq_fields g ts names gs gs' = Some r -> heq_fields f h ts names fs fs' = Some r.
  Proof.
    intros A G names fs fs' gs gs' r En S F En' S' F'. revert r. induction names as [|n names IH]; intros r H; cbn [eq_fields] in H; cbn [heq_fields]; auto.
    destruct (eq_val g (type_of n ts) (get n gs) (get n gs')) as [q|] eqn:Q; [|discriminate].
    rewrite (eq_value h f g (type_of n ts) _ _ _ _ q A G (shows_field h n fs gs En S) (shows_field h n fs' gs' En' S') (flat_field n gs F) (flat_field n gs' F') Q).
    destruct q; auto.
  Qed.
End Trees.

Lemma eq_val_selfish g : selfish g -> forall v t r, eq_val g t v v = Some r -> r = true.
Proof.
  intros G. fix IH 1. intros v t r H. destruct v as [|z|z|s|l|c fs]; cbn [eq_val] in H; try congruence.
  - rewrite Z.eqb_refl in H. congruence.
  - rewrite Z.eqb_refl in H. congruence.
  - destruct (list_eq_dec Z.eq_dec s s); congruence.
  - set (t' := match t with TList u => u | _ => TCodec end) in *. clearbody t'. revert r H. induction l as [|x l IHl]; intros r H; [congruence|].
    destruct (eq_val g t' x x) as [q|] eqn:Q; [|discriminate]. rewrite (IH x t' q Q) in H. eapply IHl. exact H.
  - eapply G; eauto.
Qed.
Lemma jequals_selfish E d : selfish (jequals E d).
Proof.
  induction d as [|d IH]; intros v r H; [discriminate|]. destruct v as [| | | | |c fs]; cbn [jequals] in H; try discriminate. rewrite String.eqb_refl in H.
  destruct (find_class E c) as [cd|]; [|discriminate]. revert r H. induction (c_eq cd) as [|n names IHn]; intros r H; cbn [eq_fields] in H; [congruence|].
  destruct (eq_val (jequals E d) (type_of n (c_fields cd)) (get n fs) (get n fs)) as [q|] eqn:Q; [|discriminate].
  rewrite (eq_val_selfish _ IH _ _ _ Q) in H. apply IHn. exact H.
Qed.
Theorem equals_follow E h d : follows h (hequals E d h) (jequals E d).
Proof.
  induction d as [|d IH]; intros a b v w r SA SB FA FB H; [discriminate|].
  destruct SA as [|z|z|z|l vs ts Hl SA|l c fs gs Hl En SA]; cbn [jequals] in H; try discriminate.
  destruct SB as [|z'|z'|z'|l' vs' ts' Hl' SA'|l' c' fs' gs' Hl' En' SA']; cbn [hequals]; rewrite Hl; auto.
  - assert (l <> l') by congruence. destruct (Nat.eqb_spec l l'); [contradiction|]. rewrite Hl'. exact H.
  - destruct (Nat.eqb_spec l l') as [<-|N].
    + assert (EQ : VObj c' gs' = VObj c gs) by (apply (proj1 (shows_det h) (HRef l)); eapply shows_obj; eauto). injection EQ as -> ->.
      f_equal. symmetry. apply (jequals_selfish E (S d) (VObj c gs)). exact H.
    + rewrite Hl'. destruct (String.eqb c c'); [|exact H]. destruct (find_class E c) as [cd|]; [|discriminate].
      eapply eq_fields_follow; eauto. apply jequals_selfish.
Qed.
