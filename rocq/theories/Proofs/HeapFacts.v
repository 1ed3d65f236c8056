(* The heap of Model/Heap.v: cells, fields, and encode on shared objects. *)
From Coq Require Import ZArith List Bool String Lia.
From Verif.Model Require Import JavaPrim ByteBuf Utf8 Codec Ast Interp Show Heap.
From Verif.Spec Require Import Bytes Wire Sharing.
Import ListNotations.

(* ---- cells ---- *)
Lemma upd_length {A} (h : list A) l x : List.length (upd h l x) = List.length h.
Proof.
  unfold upd. rewrite app_length. pose proof (skipn_length l h) as S. destruct (skipn l h) as [|y r] eqn:K; cbn in *.
  - rewrite firstn_length. lia.
  - rewrite firstn_length. lia.
Qed.
Lemma upd_at {A} (h : list A) l x : (l < List.length h)%nat -> nth_error (upd h l x) l = Some x.
Proof.
  revert l. induction h as [|a h IH]; intros [|l] H; cbn in *; try lia; auto. apply IH. lia.
Qed.
Lemma upd_off {A} (h : list A) l m x : m <> l -> nth_error (upd h l x) m = nth_error h m.
Proof.
  revert l m. induction h as [|a h IH]; intros l m H.
  - unfold upd. rewrite firstn_nil, skipn_nil. reflexivity.
  - destruct l as [|l], m as [|m]; cbn; auto; try lia. apply IH. lia.
Qed.
Lemma nth_lt {A} (h : list A) l x : nth_error h l = Some x -> (l < List.length h)%nat.
Proof. intros H. apply nth_error_Some. congruence. Qed.
Lemma put_at h l f x c fs : nth_error h l = Some (CObj c fs) -> nth_error (put_field h l f x) l = Some (CObj c (hset f x fs)).
Proof. intros H. unfold put_field. rewrite H. apply upd_at. eapply nth_lt; eauto. Qed.
Lemma put_off h l f x m : m <> l -> nth_error (put_field h l f x) m = nth_error h m.
Proof. intros H. unfold put_field. destruct (nth_error h l) as [[c fs|vs]|]; auto. apply upd_off. exact H. Qed.
Lemma put_length h l f x : List.length (put_field h l f x) = List.length h.
Proof. unfold put_field. destruct (nth_error h l) as [[c fs|vs]|]; auto. apply upd_length. Qed.
Lemma field_at h l f c fs : nth_error h l = Some (CObj c fs) -> field h l f = hget f fs.
Proof. intros H. unfold field. rewrite H. reflexivity. Qed.
Lemma nth_app_old {A} (h : list A) x l : (l < List.length h)%nat -> nth_error (h ++ [x]) l = nth_error h l.
Proof. intros H. apply nth_error_app1. exact H. Qed.
Lemma nth_app_new {A} (h : list A) x : nth_error (h ++ [x]) (List.length h) = Some x.
Proof. rewrite nth_error_app2 by lia. rewrite Nat.sub_diag. reflexivity. Qed.

(* ---- encode with sharing ---- *)
(* the fields encode assigns, and the service they depend on (None: none) *)
Fixpoint assigned_by (ss : list estmt) : list (string * option string) :=
  match ss with
  | [] => []
  | EDiff f _ _ :: r => (f, None) :: assigned_by r
  | ESum a f :: r => (f, Some a) :: assigned_by r
  | _ :: r => assigned_by r
  end.
Definition mem (f : string) (l : list string) : bool := existsb (String.eqb f) l.
Lemma mem_in f l : mem f l = true <-> In f l.
Proof.
  unfold mem. rewrite existsb_exists. split.
  - intros (x & H & E). apply String.eqb_eq in E. subst. exact H.
  - intros H. exists f. split; auto. apply String.eqb_refl.
Qed.
(* no assigned field is read before it is assigned, nor with another encode call in between *)
Fixpoint ordered (all : list (string * option string)) (D : list string) (ss : list estmt) : bool :=
  let plain f := negb (mem f (map fst all)) in
  match ss with
  | [] => true
  | s :: r =>
      match s with
      | EWrite _ _ f | EPatch _ _ _ f => (plain f || mem f D) && ordered all D r
      | EWriteF _ _ f | EFix f _ _ _ | EDyn f _ _ _ _ => plain f && ordered all D r
      | EList f _ _ _ _ _ _ => plain f && ordered all [] r
      | EObj f | EObjOpt f => plain f && ordered all [] r
      | EMark _ | EZero _ _ => ordered all D r
      | EDiff f _ _ => ordered all (f :: D) r
      | ESum a f => forallb (fun p => negb (String.eqb (fst p) f) || match snd p with Some a' => String.eqb a a' | None => false end) all
                    && ordered all (f :: D) r
      end
  end.
Definition tidy (cd : class_def) : bool := ordered (assigned_by (c_enc cd)) [] (c_enc cd).

Section Near.
  Variable E : env.
  Definition live (p : string * option string) : bool :=
    match snd p with None => true | Some a => match checksum E a with Some _ => true | None => false end end.
  (* the fields of class c whose value encode replaces *)
  Definition replaced (c : string) : list string :=
    match find_class E c with Some cd => map fst (filter live (assigned_by (c_enc cd))) | None => [] end.

  (* as shows, except that the replaced fields may hold anything *)
  Inductive near (h : heap) : hval -> val -> Prop :=
  | near_null : near h HNull VNull
  | near_int z : near h (HInt z) (VInt z)
  | near_flt z : near h (HFlt z) (VFlt z)
  | near_str s : near h (HStr s) (VStr s)
  | near_lst l vs ts : nth_error h l = Some (CList vs) -> near_all h vs ts -> near h (HRef l) (VList ts)
  | near_obj l c fs gs : nth_error h l = Some (CObj c fs) -> near_fields h (replaced c) fs gs -> near h (HRef l) (VObj c gs)
  with near_all (h : heap) : list hval -> list val -> Prop :=
  | near_nil : near_all h [] []
  | near_cons v t vs ts : near h v t -> near_all h vs ts -> near_all h (v :: vs) (t :: ts)
  with near_fields (h : heap) : list string -> list (string * hval) -> list (string * val) -> Prop :=
  | nf_nil K : near_fields h K [] []
  | nf_any K f v t fs gs : In f K -> near_fields h K fs gs -> near_fields h K ((f, v) :: fs) ((f, t) :: gs)
  | nf_same K f v t fs gs : near h v t -> near_fields h K fs gs -> near_fields h K ((f, v) :: fs) ((f, t) :: gs).
  Scheme near_mut := Minimality for near Sort Prop
    with near_all_mut := Minimality for near_all Sort Prop
    with near_fields_mut := Minimality for near_fields Sort Prop.
  Combined Scheme near_ind3 from near_mut, near_all_mut, near_fields_mut.

  (* what may happen to the heap *)
  Inductive fields_evolve (K : list string) : list (string * hval) -> list (string * hval) -> Prop :=
  | fe_nil : fields_evolve K [] []
  | fe_same f v fs gs : fields_evolve K fs gs -> fields_evolve K ((f, v) :: fs) ((f, v) :: gs)
  | fe_new f v z fs gs : In f K -> fields_evolve K fs gs -> fields_evolve K ((f, v) :: fs) ((f, HInt z) :: gs).
  Definition cell_evolves (k k' : cell) : Prop :=
    match k, k' with
    | CObj c fs, CObj c' gs => c' = c /\ fields_evolve (replaced c) fs gs
    | CList vs, CList ws => ws = vs
    | _, _ => False
    end.
  Definition evolves (h h' : heap) : Prop :=
    forall l, match nth_error h l, nth_error h' l with
              | Some k, Some k' => cell_evolves k k'
              | None, None => True
              | _, _ => False
              end.
  Lemma fe_refl K fs : fields_evolve K fs fs.
  Proof. induction fs as [|[f v] fs IH]; constructor; auto. Qed.
  Lemma fe_trans K fs gs ks : fields_evolve K fs gs -> fields_evolve K gs ks -> fields_evolve K fs ks.
  Proof.
    intros H. revert ks. induction H; intros ks G; inversion G; subst; constructor; auto.
  Qed.
  Lemma evolves_refl h : evolves h h.
  Proof. intros l. destruct (nth_error h l) as [[c fs|vs]|]; cbn; auto. split; auto. apply fe_refl. Qed.
  Lemma evolves_trans h h1 h2 : evolves h h1 -> evolves h1 h2 -> evolves h h2.
  Proof.
    intros A B l. specialize (A l). specialize (B l). destruct (nth_error h l) as [k|], (nth_error h1 l) as [k1|]; try contradiction;
      destruct (nth_error h2 l) as [k2|]; try contradiction; auto.
    destruct k, k1; cbn in A; try contradiction; destruct k2; cbn in *; try contradiction.
    - destruct A as [-> A], B as [-> B]. split; auto. eapply fe_trans; eauto.
    - congruence.
  Qed.
  Lemma evolves_obj h h' l c fs : evolves h h' -> nth_error h l = Some (CObj c fs) ->
    exists gs, nth_error h' l = Some (CObj c gs) /\ fields_evolve (replaced c) fs gs.
  Proof.
    intros V H. specialize (V l). rewrite H in V. destruct (nth_error h' l) as [[c' gs|]|]; cbn in V; try contradiction.
    destruct V as [-> V]. eauto.
  Qed.
  Lemma evolves_list h h' l vs : evolves h h' -> nth_error h l = Some (CList vs) -> nth_error h' l = Some (CList vs).
  Proof. intros V H. specialize (V l). rewrite H in V. destruct (nth_error h' l) as [[|]|]; cbn in V; try contradiction. congruence. Qed.

  Lemma nf_evolve h' K D fs gs ts : (forall f, In f K -> In f D) -> fields_evolve K fs gs -> near_fields h' D fs ts -> near_fields h' D gs ts.
  Proof.
    intros S H. revert ts. induction H; intros ts N; inversion N; subst; try (constructor; auto; fail); apply nf_any; auto.
  Qed.
  Lemma near_evolves h h' : evolves h h' ->
    (forall v t, near h v t -> near h' v t) /\ (forall vs ts, near_all h vs ts -> near_all h' vs ts)
    /\ (forall K fs gs, near_fields h K fs gs -> near_fields h' K fs gs).
  Proof.
    intros V. apply near_ind3; intros; try (constructor; auto; fail).
    - eapply near_lst; eauto. eapply evolves_list; eauto.
    - destruct (evolves_obj h h' l c fs V H) as (fs' & H' & F). eapply near_obj; eauto.
      eapply nf_evolve; eauto.
  Qed.
  Lemma nf_weaken h K K' fs gs : (forall f, In f K -> In f K') -> near_fields h K fs gs -> near_fields h K' fs gs.
  Proof. intros S H. induction H; [apply nf_nil|apply nf_any; auto|apply nf_same; auto]. Qed.
  Lemma nf_get h K fs gs f : near_fields h K fs gs -> ~ In f K -> near h (hget f fs) (get f gs).
  Proof.
    intros H N. induction H; cbn; [constructor| |]; destruct (String.eqb_spec f f0) as [->|]; auto; contradiction.
  Qed.
  Lemma nf_set h K fs gs f v t : near_fields h K fs gs -> near h v t -> near_fields h K (hset f v fs) (set f t gs).
  Proof.
    intros H N. induction H; cbn; [apply nf_nil| |]; destruct (String.eqb_spec f f0) as [->|].
    - apply nf_same; auto.
    - apply nf_any; auto.
    - apply nf_same; auto.
    - apply nf_same; auto.
  Qed.
  Lemma nf_set_get h K fs gs f v t : near_fields h K fs gs -> near h v t -> near h (hget f (hset f v fs)) (get f (set f t gs)).
  Proof.
    intros H N. induction H; cbn; [constructor| |]; destruct (String.eqb f f0) eqn:Q; cbn; rewrite Q; auto.
  Qed.
  Lemma hget_off f g v fs : g <> f -> hget g (hset f v fs) = hget g fs.
  Proof.
    intros N. induction fs as [|[k w] fs IH]; cbn; auto. destruct (String.eqb_spec f k) as [->|]; cbn; destruct (String.eqb_spec g k); auto. contradiction.
  Qed.
  Lemma get_off f g v fs : g <> f -> get g (set f v fs) = get g fs.
  Proof.
    intros N. induction fs as [|[k w] fs IH]; cbn; auto. destruct (String.eqb_spec f k) as [->|]; cbn; destruct (String.eqb_spec g k); auto. contradiction.
  Qed.
  Lemma nf_set_tree h K fs gs f t : near_fields h K fs gs -> ~ In f K -> near h (hget f fs) t -> near_fields h K fs (set f t gs).
  Proof.
    intros H N. induction H; cbn; intros G; [apply nf_nil| |]; destruct (String.eqb_spec f f0) as [->|]; try contradiction.
    - apply nf_any; auto.
    - apply nf_same; auto.
    - apply nf_same; auto.
  Qed.
  Lemma fe_set K fs f z : In f K -> fields_evolve K fs (hset f (HInt z) fs).
  Proof.
    intros H. induction fs as [|[g v] fs IH]; cbn; [constructor|]. destruct (String.eqb_spec f g) as [->|].
    - apply fe_new; auto. apply fe_refl.
    - apply fe_same; auto.
  Qed.
  Lemma put_evolves h l c fs f z : nth_error h l = Some (CObj c fs) -> In f (replaced c) -> evolves h (put_field h l f (HInt z)).
  Proof.
    intros H I m. destruct (Nat.eq_dec m l) as [->|N].
    - rewrite H, (put_at h l f _ c fs H). cbn. split; auto. apply fe_set; auto.
    - rewrite (put_off h l f _ m N). apply evolves_refl.
  Qed.

  (* ---- simulation ---- *)
  Definition sim (enc : heap -> hval -> bytebuf -> option exn * heap * bytebuf) (tenc : val -> bytebuf -> option exn * val * bytebuf) : Prop :=
    forall h v t b, near h v t ->
      let '(e, h1, b1) := enc h v b in let '(e2, t1, b2) := tenc t b in e = e2 /\ b1 = b2 /\ evolves h h1 /\ near h1 v t1.

  Lemma near_string h v t : near h v t -> hstring_of v = string_of t.
  Proof. intros H; inversion H; subst; reflexivity. Qed.

  Lemma sim_elem enc tenc x : sim enc tenc -> forall h v t b, near h v t ->
    let '(e, h1, b1) := henc_elem enc x h v b in let '(e2, t1, b2) := enc_elem tenc x t b in
    e = e2 /\ b1 = b2 /\ evolves h h1 /\ near h1 v t1.
  Proof.
    intros S h v t b N. pose proof (evolves_refl h) as V. destruct x; cbn [henc_elem enc_elem].
    - inversion N; subst; try (repeat split; auto; fail). destruct (write_int o n z b). auto.
    - inversion N; subst; try (repeat split; auto; fail). destruct (write_int o n z b). auto.
    - rewrite (near_string h v t N). destruct (string_of t); [|auto]. destruct (write_fixed j len pad left b). auto.
    - rewrite (near_string h v t N). destruct (string_of t); [|auto]. destruct (write_dyn j zn zo n o b). auto.
    - apply S. exact N.
  Qed.
  Lemma sim_elems enc tenc x : sim enc tenc -> forall vs h ts b, near_all h vs ts ->
    let '(e, h1, b1) := henc_elems enc x h vs b in let '(e2, ts1, b2) := enc_elems tenc x ts b in
    e = e2 /\ b1 = b2 /\ evolves h h1 /\ near_all h1 vs ts1.
  Proof.
    intros S vs. induction vs as [|v vs IH]; intros h ts b N; inversion N as [|? t ? ts' Hv Hr]; subst; cbn [henc_elems enc_elems].
    - repeat split; auto; try apply evolves_refl; constructor.
    - pose proof (sim_elem enc tenc x S h v t b Hv) as H.
      destruct (henc_elem enc x h v b) as [[e h1] b1]. destruct (enc_elem tenc x t b) as [[e2 t1] b2]. destruct H as (<- & <- & V & N1).
      destruct e as [e|].
      + repeat split; auto. constructor; auto. apply (near_evolves h h1 V). exact Hr.
      + specialize (IH h1 ts' b1 (proj1 (proj2 (near_evolves h h1 V)) _ _ Hr)).
        destruct (henc_elems enc x h1 vs b1) as [[e3 h3] b3]. destruct (enc_elems tenc x ts' b1) as [[e4 ts4] b4]. destruct IH as (<- & <- & V' & N').
        repeat split; auto; [eapply evolves_trans; eauto|]. constructor; auto. apply (near_evolves h1 h3 V'). exact N1.
  Qed.

  Definition next_settled (D : list string) (s : estmt) : list string :=
    match s with
    | EList _ _ _ _ _ _ _ | EObj _ | EObjOpt _ => []
    | EDiff f _ _ | ESum _ f => f :: D
    | _ => D
    end.
  Definition stateR (this : nat) (c : string) (D : list string) (h : heap) (gs : list (string * val)) : Prop :=
    exists fs, nth_error h this = Some (CObj c fs) /\ near_fields h (replaced c) fs gs /\ forall f, In f D -> near h (hget f fs) (get f gs).
  Lemma stateR_evolves this c D h h' gs : stateR this c D h gs -> evolves h h' -> stateR this c [] h' gs.
  Proof.
    intros (fs & H & N & _) V. destruct (evolves_obj h h' this c fs V H) as (fs' & H' & F). exists fs'. repeat split; auto.
    - eapply nf_evolve; eauto. apply (near_evolves h h' V). exact N.
    - intros f [].
  Qed.
  Lemma stateR_same this c D h gs f : stateR this c D h gs -> ~ In f (replaced c) \/ In f D -> near h (field h this f) (get f gs).
  Proof.
    intros (fs & H & N & S) [K|K]; rewrite (field_at h this f c fs H); auto. eapply nf_get; eauto.
  Qed.
  Lemma stateR_set_tree this c h gs f t : stateR this c [] h gs -> ~ In f (replaced c) -> near h (field h this f) t -> stateR this c [] h (set f t gs).
  Proof.
    intros (fs & H & N & _) K G. rewrite (field_at h this f c fs H) in G. exists fs. repeat split; auto.
    - apply nf_set_tree; auto.
    - intros g [].
  Qed.
  Lemma stateR_assign this c D h gs f z : stateR this c D h gs -> In f (replaced c) ->
    evolves h (put_field h this f (HInt z)) /\ stateR this c (f :: D) (put_field h this f (HInt z)) (set f (VInt z) gs).
  Proof.
    intros (fs & H & N & S) K. pose proof (put_evolves h this c fs f z H K) as V. split; auto.
    exists (hset f (HInt z) fs). destruct (near_evolves _ _ V) as (V1 & _ & V3). repeat split.
    - apply put_at. exact H.
    - apply nf_set; [|constructor]. apply V3. exact N.
    - intros g [<-|Hg].
      + eapply nf_set_get; [apply V3; exact N|constructor].
      + destruct (string_dec g f) as [->|Ng].
        * eapply nf_set_get; [apply V3; exact N|constructor].
        * rewrite hget_off, get_off by exact Ng. apply V1. apply S. exact Hg.
  Qed.
  Lemma near_get_list h v t : near h v t -> match t with
    | VNull => v = HNull
    | VList ts => exists l vs, v = HRef l /\ nth_error h l = Some (CList vs) /\ near_all h vs ts
    | _ => v <> HNull /\ elements h v = None end.
  Proof. intros H; inversion H; subst; eauto; split; try discriminate; auto. cbn. rewrite H0. reflexivity. Qed.

  Lemma sim_stmt enc tenc this c cd D s h gs loc b : sim enc tenc -> find_class E c = Some cd -> stateR this c D h gs ->
    (forall p, In p (assigned_by [s]) -> In p (assigned_by (c_enc cd))) ->
    ordered (assigned_by (c_enc cd)) D [s] = true ->
    let '(e, (h1, loc1, b1)) := hexec_estmt enc (checksum E) this s (h, loc, b) in
    let '(e2, (gs1, loc2, b2)) := exec_estmt tenc (checksum E) s (gs, loc, b) in
    e = e2 /\ loc1 = loc2 /\ b1 = b2 /\ evolves h h1 /\ stateR this c [] h1 gs1 /\ (e = None -> stateR this c (next_settled D s) h1 gs1).
  Proof.
    intros S FC R A O. pose proof (evolves_refl h) as V.
    assert (R0 : stateR this c [] h gs) by (eapply stateR_evolves; eauto).
    assert (PL : forall f, negb (mem f (map fst (assigned_by (c_enc cd)))) = true -> ~ In f (replaced c)).
    { intros f H I. unfold replaced in I. rewrite FC in I. apply negb_true_iff in H. apply in_map_iff in I. destruct I as (p & <- & I).
      apply filter_In in I. assert (mem (fst p) (map fst (assigned_by (c_enc cd))) = true) by (apply mem_in, in_map, I). congruence. }
    assert (RD : forall f, negb (mem f (map fst (assigned_by (c_enc cd)))) || mem f D = true -> near h (field h this f) (get f gs)).
    { intros f H. apply (stateR_same this c D h gs f R). apply orb_true_iff in H. destruct H as [H|H]; [left; auto|right; apply mem_in; auto]. }
    assert (RP : forall f, negb (mem f (map fst (assigned_by (c_enc cd)))) = true -> near h (field h this f) (get f gs)).
    { intros f H. apply RD. rewrite H. reflexivity. }
    destruct s; cbn [hexec_estmt exec_estmt next_settled ordered] in *; try rewrite andb_true_r in O.
    - specialize (RD _ O). inversion RD; subst; try (repeat split; auto; congruence). destruct (write_int o n z b). repeat split; auto.
    - specialize (RP _ O). inversion RP; subst; try (repeat split; auto; congruence). destruct (write_int o n z b). repeat split; auto.
    - rewrite (near_string _ _ _ (RP _ O)). destruct (string_of (get f gs)); [|repeat split; auto; congruence].
      destruct (write_fixed j len pad left b). repeat split; auto.
    - rewrite (near_string _ _ _ (RP _ O)). destruct (string_of (get f gs)); [|repeat split; auto; congruence].
      destruct (write_dyn j zn zo n o b). repeat split; auto.
    - assert (OP : negb (mem f (map fst (assigned_by (c_enc cd)))) = true) by exact O.
      specialize (PL _ OP). pose proof (near_get_list _ _ _ (RP _ OP)) as G. pose proof (RP _ OP) as NF.
      destruct (get f gs) as [|z|z|z|ts|c0 gs0] eqn:GF; try (match type of G with _ /\ _ => destruct G as [G1 G2] end; destruct (field h this f) eqn:FF; try congruence; rewrite G2;
        repeat split; auto; congruence).
      + rewrite G. destruct (write_int zo zn 0 b). repeat split; auto.
      + destruct G as (l & vs & FF & Hl & NA). rewrite FF. cbn [elements]. rewrite Hl. inversion NA as [|v t vs' ts' Hv Hr]; subst.
        * destruct (write_int zo zn 0 b). repeat split; auto.
        * assert (LL : List.length (v :: vs') = List.length (t :: ts')).
          { clear - NA. remember (v :: vs') as x. remember (t :: ts') as y. clear Heqx Heqy. induction NA; cbn; auto. }
          rewrite LL. destruct (write_int o n _ b) as [e1 b1]. destruct e1 as [e1|]; [repeat split; auto; congruence|].
          pose proof (sim_elems enc tenc x S (v :: vs') h (t :: ts') b1 NA) as H.
          destruct (henc_elems enc x h (v :: vs') b1) as [[e h2] b2]. destruct (enc_elems tenc x (t :: ts') b1) as [[e' ts2] b2'].
          destruct H as (<- & <- & V2 & N2). assert (stateR this c [] h2 (set f (VList ts2) gs)).
          { apply stateR_set_tree; auto; [eapply stateR_evolves; eauto|].
            assert (field h2 this f = HRef l) as ->.
            { destruct R as (fs & Hf & Nf & _). rewrite (field_at h this f c fs Hf) in FF.
              destruct (evolves_obj h h2 this c fs V2 Hf) as (fs2 & Hf2 & F). rewrite (field_at h2 this f c fs2 Hf2).
              clear - F FF PL. induction F; cbn in *; auto; destruct (String.eqb_spec f f0) as [->|]; auto; contradiction. }
            eapply near_lst; eauto. eapply evolves_list; eauto. }
          repeat split; auto.
    - specialize (PL _ O). specialize (S h (field h this f) (get f gs) b (RP _ O)).
      destruct (enc h (field h this f) b) as [[e h2] b2]. destruct (tenc (get f gs) b) as [[e' t2] b2']. destruct S as (<- & <- & V2 & N2).
      assert (stateR this c [] h2 (set f t2 gs)).
      { apply stateR_set_tree; auto; [eapply stateR_evolves; eauto|].
        assert (field h2 this f = field h this f) as ->; auto.
        destruct R as (fs & Hf & Nf & _). rewrite (field_at h this f c fs Hf).
        destruct (evolves_obj h h2 this c fs V2 Hf) as (fs2 & Hf2 & F). rewrite (field_at h2 this f c fs2 Hf2).
        clear - F PL. induction F; cbn in *; auto; destruct (String.eqb_spec f f0) as [->|]; auto; contradiction. }
      repeat split; auto.
    - specialize (PL _ O). specialize (S h (field h this f) (get f gs) b (RP _ O)). pose proof (RP _ O) as NF.
      destruct (enc h (field h this f) b) as [[e h2] b2] eqn:EE. destruct (tenc (get f gs) b) as [[e' t2] b2'] eqn:ET. destruct S as (<- & <- & V2 & N2).
      assert (stateR this c [] h2 (set f t2 gs)).
      { apply stateR_set_tree; auto; [eapply stateR_evolves; eauto|].
        assert (field h2 this f = field h this f) as ->; auto.
        destruct R as (fs & Hf & Nf & _). rewrite (field_at h this f c fs Hf).
        destruct (evolves_obj h h2 this c fs V2 Hf) as (fs2 & Hf2 & F). rewrite (field_at h2 this f c fs2 Hf2).
        clear - F PL. induction F; cbn in *; auto; destruct (String.eqb_spec f f0) as [->|]; auto; contradiction. }
      inversion NF as [HF HT|? HF HT|? HF HT|? HF HT|? ? ? ? ? HF HT|? ? ? ? ? ? HF HT]; rewrite <- HF, <- HT in *; cbv beta iota; try rewrite EE, ET; repeat split; auto.
    - repeat split; auto.
    - destruct (write_int o n 0 b). repeat split; auto.
    - destruct (assoc x loc), (assoc y loc); try (repeat split; auto; congruence).
      assert (K : In f (replaced c)).
      { unfold replaced. rewrite FC. apply in_map_iff. exists (f, None). split; auto. apply filter_In. split; auto. apply A. left. reflexivity. }
      destruct (stateR_assign this c D h gs f (wrap 32 (Z.of_nat n - Z.of_nat n0)) R K) as [V2 R2]. repeat split; auto.
      eapply stateR_evolves; [exact R2|apply evolves_refl].
    - specialize (RD _ O). destruct (assoc x loc); [|repeat split; auto; congruence].
      inversion RD; subst; try (repeat split; auto; congruence). destruct (set_int o n n0 z b). repeat split; auto.
    - destruct (checksum E alg) as [k|] eqn:CK.
      + assert (K : In f (replaced c)).
        { unfold replaced. rewrite FC. apply in_map_iff. exists (f, Some alg). split; auto. apply filter_In. split; [apply A; left; reflexivity|].
          cbn. rewrite CK. reflexivity. }
        destruct (stateR_assign this c D h gs f (wrap 32 (k (readable b))) R K) as [V2 R2]. repeat split; auto.
        eapply stateR_evolves; [exact R2|apply evolves_refl].
      + repeat split; auto. intros _. destruct R as (fs & Hf & Nf & Sd). exists fs. repeat split; auto. intros g [<-|Hg]; auto.
        eapply nf_get; eauto. intros I. unfold replaced in I. rewrite FC in I. apply in_map_iff in I. destruct I as ([g o] & Eg & I). cbn in Eg. subst g.
        apply filter_In in I. destruct I as [I1 I2]. rewrite forallb_forall in O. specialize (O _ I1). cbn in O. rewrite String.eqb_refl in O. cbn in O.
        destruct o as [a|]; [|discriminate]. apply String.eqb_eq in O. subst a. cbn in I2. rewrite CK in I2. discriminate.
  Qed.

  Lemma ordered_cons all D s r : ordered all D (s :: r) = true -> ordered all D [s] = true /\ ordered all (next_settled D s) r = true.
  Proof.
    destruct s; cbn; repeat rewrite andb_true_r; try rewrite andb_true_iff; auto.
  Qed.
  Lemma assigned_cons s r : assigned_by (s :: r) = assigned_by [s] ++ assigned_by r.
  Proof. destruct s; reflexivity. Qed.
  Lemma sim_stmts enc tenc this c cd : sim enc tenc -> find_class E c = Some cd -> forall ss D h gs loc b, stateR this c D h gs ->
    (forall p, In p (assigned_by ss) -> In p (assigned_by (c_enc cd))) ->
    ordered (assigned_by (c_enc cd)) D ss = true ->
    let '(e, (h1, loc1, b1)) := hexec_enc enc (checksum E) this ss (h, loc, b) in
    let '(e2, (gs1, loc2, b2)) := exec_enc tenc (checksum E) ss (gs, loc, b) in
    e = e2 /\ b1 = b2 /\ evolves h h1 /\ stateR this c [] h1 gs1.
  Proof.
    intros S FC ss. induction ss as [|s ss IH]; intros D h gs loc b R A O.
    - cbn. repeat split; auto; [apply evolves_refl|]. eapply stateR_evolves; eauto. apply evolves_refl.
    - cbn [hexec_enc exec_enc]. apply ordered_cons in O. destruct O as [O1 O2]. rewrite assigned_cons in A.
      pose proof (sim_stmt enc tenc this c cd D s h gs loc b S FC R (fun p H => A p (in_or_app _ _ _ (or_introl H))) O1) as H.
      destruct (hexec_estmt enc (checksum E) this s (h, loc, b)) as [e [[h1 loc1] b1]].
      destruct (exec_estmt tenc (checksum E) s (gs, loc, b)) as [e2 [[gs1 loc2] b2]]. destruct H as (<- & <- & <- & V & R0 & R1).
      destruct e as [e|]; [repeat split; auto|]. specialize (IH _ h1 gs1 loc1 b1 (R1 eq_refl) (fun p H => A p (in_or_app _ _ _ (or_intror H))) O2).
      destruct (hexec_enc enc (checksum E) this ss (h1, loc1, b1)) as [e3 [[h3 loc3] b3]].
      destruct (exec_enc tenc (checksum E) ss (gs1, loc1, b1)) as [e4 [[gs4 loc4] b4]]. destruct IH as (<- & <- & V' & R').
      repeat split; auto. eapply evolves_trans; eauto.
  Qed.

  Theorem sim_encode : (forall c cd, find_class E c = Some cd -> tidy cd = true) -> forall d, sim (hencode E d) (encode E d).
  Proof.
    intros T d. induction d as [|d IH]; intros h v t b N.
    - pose proof (evolves_refl h). inversion N; subst; cbn; repeat split; auto.
    - pose proof (evolves_refl h) as V. destruct N as [|z|z|z|l vs ts Hl NA|l c fs gs Hl NF]; cbn [hencode encode]; try (repeat split; auto; constructor; fail).
      + rewrite Hl. repeat split; auto. eapply near_lst; eauto.
      + rewrite Hl. destruct (find_class E c) as [cd|] eqn:FC; [|repeat split; auto; eapply near_obj; eauto].
        pose proof (sim_stmts (hencode E d) (encode E d) l c cd IH FC (c_enc cd) [] h gs [] b) as H.
        destruct (hexec_enc (hencode E d) (checksum E) l (c_enc cd) (h, [], b)) as [e [[h1 loc1] b1]].
        destruct (exec_enc (encode E d) (checksum E) (c_enc cd) (gs, [], b)) as [e2 [[gs1 loc2] b2]].
        destruct H as (<- & <- & V1 & R1); auto.
        * exists fs. repeat split; auto. intros f [].
        * apply (T c cd FC).
        * repeat split; auto. destruct R1 as (fs1 & H1 & N1 & _). eapply near_obj; eauto.
  Qed.

  Scheme shows_mut := Minimality for shows Sort Prop
    with shows_all_mut := Minimality for shows_all Sort Prop.
  Combined Scheme shows_ind2 from shows_mut, shows_all_mut.
  Lemma near_all_fields h K : forall fs gs, map fst gs = map fst fs -> near_all h (map snd fs) (map snd gs) -> near_fields h K fs gs.
  Proof.
    induction fs as [|[f v] fs IH]; intros [|[g t] gs] E1 N; cbn in *; try discriminate; [apply nf_nil|]. injection E1 as -> E1. inversion N; subst.
    apply nf_same; auto.
  Qed.
  Lemma shows_near h : (forall v t, shows h v t -> near h v t) /\ (forall vs ts, shows_all h vs ts -> near_all h vs ts).
  Proof.
    apply shows_ind2; intros; try (constructor; auto; fail).
    - eapply near_lst; eauto.
    - eapply near_obj; eauto. apply near_all_fields; auto.
  Qed.
End Near.
