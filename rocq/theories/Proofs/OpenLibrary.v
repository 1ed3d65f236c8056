(* Layouts of the library with a body; values without lengths and checksums. *)
From Coq Require Import ZArith List Bool String Lia.
From Verif.Model Require Import JavaPrim ByteBuf Utf8 Codec Ast Interp Library Open.
From Verif.Spec Require Import Bytes Buffers Wire Reading Layouts Open.
From Verif.Proofs Require Import BytesFacts BufFacts CodecFacts ValInd Conform TableFacts EncodeFacts FillFacts DecodeFacts Messages FrameFacts PrefixDecode FrameDecode OpenFacts OpenFrame.
Import ListNotations.
Open Scope Z_scope.
Notation Y := lib_layouts.

Lemma find_all {A} (p : string -> A -> bool) l : forallb (fun kv => p (fst kv) (snd kv)) l = true -> forall k a, find k l = Some a -> p k a = true.
Proof.
  induction l as [|[k' a'] l IH]; cbn [forallb find fst snd]; [discriminate|]. intros H k a Hf. apply andb_true_iff in H as [H1 H2].
  destruct (String.eqb_spec k k') as [->|N]; [injection Hf as <-; exact H1|auto].
Qed.
(* ---- shape ---- *)
Fixpoint up_to (p : wire -> bool) (L : layout) : layout := match L with (f, w) :: L' => if p w then [] else (f, w) :: up_to p L' | [] => [] end.
Fixpoint from (p : wire -> bool) (L : layout) : layout := match L with (f, w) :: L' => if p w then L else from p L' | [] => [] end.
Lemma up_from p L : L = up_to p L ++ from p L.
Proof. induction L as [|[f w] L IH]; [reflexivity|]. cbn. destruct (p w); [reflexivity|]. cbn. congruence. Qed.
Definition not_own (w : wire) : bool := negb (own w).
Definition framed (L : layout) : bool :=
  match from not_own L with
  | [] => true
  | (_, WBody _) :: B => framing (up_to not_own L) [] B
  | (l, w) :: (_, WBody _) :: B => framing (up_to not_own L) [(l, w)] B
  | _ => false
  end.
Lemma library_framed c L : find c Y = Some L -> framed L = true.
Proof. intros H. refine (find_all (fun _ L => framed L) Y _ c L H). vm_compute. reflexivity. Qed.
Lemma frame_layout c L bf k : find c Y = Some L -> In (bf, WBody k) L -> exists A M B, L = A ++ M ++ (bf, WBody k) :: B /\ framing A M B = true.
Proof.
  intros H HI. pose proof (library_framed c L H) as F. unfold framed in F. pose proof (up_from not_own L) as Q.
  assert (NA : forall f w, In (f, w) (up_to not_own L) -> own w = true).
  { clear. induction L as [|[h y] L IH]; intros f w K; [contradiction|]. cbn in K. destruct (not_own y) eqn:P; [contradiction|]. destruct K as [[= -> ->]|K]; [unfold not_own in P; apply negb_false_iff in P; exact P|eauto]. }
  rewrite Q in HI. apply in_app_or in HI as [HI|HI]; [apply NA in HI; discriminate HI|]. destruct (from not_own L) as [|[l w] R] eqn:ER; [contradiction|].
  assert (NB : forall A M B, framing A M B = true -> ~ In (bf, WBody k) B).
  { intros A M B K. unfold framing in K. apply andb_true_iff in K as [_ K]. destruct B as [|[g v] [|q B']]; [intros K1; exact K1| |].
    - intros K1. cbn [In] in K1. destruct K1 as [K1|[]]. injection K1 as -> ->. discriminate K.
    - destruct v; try discriminate K; do 5 (destruct n as [|n]; try discriminate K). }
  assert (NM : forall A B, framing A [(l, w)] B = true -> exists o, w = WLen 4 o).
  { intros A B K. unfold framing in K. apply andb_true_iff in K as [K _]. apply andb_true_iff in K as [_ K]. destruct w; try discriminate K. do 5 (destruct n as [|n]; try discriminate K). eauto. }
  destruct w; try (destruct R as [|[g v] B]; [discriminate F|]; destruct v; try discriminate F; destruct (NM _ _ F) as (o' & NM'); try discriminate NM').
  - destruct HI as [HI|HI]; [|exfalso; exact (NB _ _ _ F HI)]. injection HI as -> ->. exists (up_to not_own L), [], R. split; [exact Q|exact F].
  - destruct HI as [HI|[HI|HI]]; [congruence| |exfalso; exact (NB _ _ _ F HI)]. injection HI as -> ->. exists (up_to not_own L), [(l, WLen n o)], B. split; [exact Q|exact F].
Qed.

(* ---- values of the fields of one's own: no lengths, no checksums ---- *)
Definition bare (c : string) : bool := match find c Y with Some L => forallb (fun fw => own (snd fw)) L | None => false end.
Fixpoint bare_wire (w : wire) : bool :=
  match w with WObj c => bare c | WList _ _ w' => match w' with WList _ _ _ => false | _ => bare_wire w' end | WLen _ _ | WSum _ _ _ | WBody _ => false | _ => true end.
Lemma library_own c L f w : find c Y = Some L -> In (f, w) L -> own w = true -> bare_wire w = true.
Proof.
  intros H HI Ow. assert (K : forallb (fun fw => negb (own (snd fw)) || bare_wire (snd fw)) L = true) by (refine (find_all (fun _ L => forallb (fun fw => negb (own (snd fw)) || bare_wire (snd fw)) L) Y _ c L H); vm_compute; reflexivity).
  rewrite forallb_forall in K. specialize (K _ HI). cbn [snd] in K. rewrite Ow in K. exact K.
Qed.
Lemma typed_bare v : forall w, bare_wire w = true -> typed lib_classes v (wire_type w) = true -> made_of bare v = true.
Proof.
  induction v as [|z|z|s|l IH|c fs IH] using val_ind2; intros w Bw T; try reflexivity.
  - assert (exists n o w', w = WList n o w') as (n & o & w' & ->) by (apply (list_wire lib_classes l w); right; exact T).
    change (wire_type (WList n o w')) with (TList (wire_type w')) in T. cbn [typed] in T. cbn [made_of]. rewrite forallb_forall in T |- *. intros x Hx. rewrite Forall_forall in IH. specialize (T x Hx).
    apply orb_true_iff in T as [T|T]; [destruct x; try discriminate T; reflexivity|]. apply (IH x Hx w'); [destruct w'; try exact Bw; discriminate Bw|exact T].
  - assert (Bc : bare c = true).
    { destruct w; try discriminate Bw; cbn [wire_type typed] in T; try (destruct n as [|[|[|[|[|]]]]]; discriminate T); try discriminate T. apply andb_true_iff in T as [T _]. apply String.eqb_eq in T. subst c0. exact Bw. }
    cbn [made_of]. rewrite Bc. cbn [andb]. destruct (typed_obj_known lib_classes Y c fs _ library_conforms T) as (L & HL). pose proof (typed_obj lib_classes Y c fs _ L library_conforms HL T) as F.
    unfold bare in Bc. rewrite HL in Bc. assert (G : forall fw, In fw L -> bare_wire (snd fw) = true).
    { intros [f w'] HI. rewrite forallb_forall in Bc. exact (library_own c L f w' HL HI (Bc _ HI)). }
    clear - IH F G. revert L F G. induction IH as [|[f x] fs Hx IH IHf]; intros [|[g w'] L] F G; try discriminate F; [reflexivity|]. apply fields_ok_cons in F as (_ & T & F). cbn [forallb snd] in *.
    apply andb_true_iff. split; [exact (Hx w' (G (g, w') (or_introl eq_refl)) T)|]. apply (IHf L F). intros fw K. apply G. right. exact K.
Qed.
Lemma fields_bare fs : forall L c L', find c Y = Some L' -> (forall fw, In fw L -> In fw L') -> forallb (fun fw => own (snd fw)) L = true -> fields_ok lib_classes fs L = true -> all_closed bare fs = true.
Proof.
  induction fs as [|[f x] fs IH]; intros [|[g w] L] c L' HL S O F; try discriminate F; [reflexivity|]. apply fields_ok_cons in F as (_ & T & F). cbn [forallb snd all_closed] in *. apply andb_true_iff in O as [O1 O].
  apply andb_true_iff. split; [apply (typed_bare x w); [apply (library_own c L' g w HL); [apply S; left; reflexivity|exact O1]|exact T]|]. apply (IH L c L' HL); auto. intros fw K. apply S. right. exact K.
Qed.
Lemma fill_bare E v : forall pre w, made_of bare v = true -> fill_in Y (checksum E) pre v w = v.
Proof.
  induction v as [|z|z|s|l IH|c fs IH] using val_ind2; intros pre w Bv; try reflexivity.
  - destruct w; try reflexivity. rewrite fill_list_eq. f_equal. cbn [made_of] in Bv. generalize (pre ++ number o n (Z.of_nat (List.length l))). clear pre. intros pre. revert pre Bv. induction IH as [|x l Hx IH IHl]; intros pre Bv; [reflexivity|].
    cbn [forallb] in Bv. apply andb_true_iff in Bv as [B1 B2]. cbn [fill_list]. rewrite Hx by exact B1. f_equal. apply IHl. exact B2.
  - cbn [made_of] in Bv. apply andb_true_iff in Bv as [B1 B2]. unfold bare in B1. destruct (find c Y) as [L|] eqn:HL; [|discriminate]. rewrite (fill_obj_eq Y E pre c fs w L HL). f_equal.
    clear HL. revert pre L B1 B2. induction IH as [|[f x] fs Hx IH IHf]; intros pre [|[g u] L] B1 B2; try reflexivity. cbn [forallb snd] in *. apply andb_true_iff in B1 as [O1 O]. apply andb_true_iff in B2 as [B2 B3].
    destruct u; try discriminate O1; cbn [fill_fields]; rewrite (Hx pre _ B2); f_equal; apply IHf; assumption.
Qed.
Lemma fill_bare_fields E fs : forall L pre, forallb (fun fw => own (snd fw)) L = true -> all_closed bare fs = true -> fill_fields Y E pre fs L = fs.
Proof.
  induction fs as [|[f x] fs IH]; intros [|[g w] L] pre O B; try reflexivity. cbn [forallb snd all_closed] in *. apply andb_true_iff in O as [O1 O]. apply andb_true_iff in B as [B1 B].
  destruct w; try discriminate O1; cbn [fill_fields]; rewrite (fill_bare E x pre _ B1); f_equal; apply IH; assumption.
Qed.
Lemma bare_sumless E c : classes E = lib_classes -> bare c = true -> sumless E c = true.
Proof.
  intros HE Bc. unfold bare in Bc. destruct (find c Y) as [L|] eqn:HL; [|discriminate]. pose proof (conforms_find lib_classes Y c library_conforms) as F. rewrite HL in F. destruct F as (cd & E1 & _ & _ & E2 & _).
  unfold sumless, find_class. rewrite HE, E1, E2. apply forallb_forall. intros s Hs. destruct s; try reflexivity. destruct (compile_sum _ L alg f (le_n _) Hs) as (n & o & K). rewrite forallb_forall in Bc. specialize (Bc _ K). discriminate Bc.
Qed.
Lemma made_weaken (p q : string -> bool) v : (forall c, p c = true -> q c = true) -> made_of p v = true -> made_of q v = true.
Proof.
  intros PQ. induction v as [|z|z|s|l IH|c fs IH] using val_ind2; intros H; try reflexivity.
  - cbn [made_of] in *. rewrite forallb_forall in *. rewrite Forall_forall in IH. intros x Hx. auto.
  - cbn [made_of] in *. apply andb_true_iff in H as [H1 H]. rewrite (PQ c H1). cbn [andb]. rewrite forallb_forall in *. rewrite Forall_forall in IH. intros x Hx. auto.
Qed.
(* every object of the library is made of library objects *)
Lemma typed_made E v : classes E = lib_classes -> forall t, typed lib_classes v t = true -> made_of (of_library E) v = true.
Proof.
  intros HE. induction v as [|z|z|s|l IH|c fs IH] using val_ind2; intros t T; try reflexivity.
  - destruct t; try discriminate T. cbn [typed made_of] in *. rewrite forallb_forall in *. rewrite Forall_forall in IH. intros x Hx. specialize (T x Hx). apply orb_true_iff in T as [T|T]; [destruct x; try discriminate T; reflexivity|]. exact (IH x Hx _ T).
  - destruct (typed_obj_known lib_classes Y c fs _ library_conforms T) as (L & HL). pose proof (typed_obj lib_classes Y c fs _ L library_conforms HL T) as F. pose proof (conforms_find lib_classes Y c library_conforms) as Q. rewrite HL in Q. destruct Q as (cd & E1 & _).
    cbn [made_of]. unfold of_library at 1, find_class. rewrite HE, E1. cbn [andb]. clear - IH F. revert L F. induction IH as [|[f x] fs Hx IH IHf]; intros [|[g w'] L] F; try discriminate F; [reflexivity|]. apply fields_ok_cons in F as (_ & T & F). cbn [forallb snd] in *.
    apply andb_true_iff. split; [exact (Hx _ T)|]. exact (IHf L F).
Qed.

(* ---- a message of the library with any body and any checksum service ---- *)
Lemma own_simple A : forallb (fun fw => own (snd fw)) A = true -> forallb (fun fw : string * wire => simple_wire (snd fw)) A = true.
Proof. intros H. rewrite forallb_forall in *. intros [f w] K. specialize (H _ K). cbn [snd] in *. destruct w; try discriminate H; reflexivity. Qed.
Lemma concat_bytes c R : forall fs L P, map fst fs = map fst L -> NoDup (map fst (P ++ fs)) -> ser_fields Y fs L = bytes_of Y (VObj c (P ++ fs ++ R)) L.
Proof.
  induction fs as [|[f x] fs IH]; intros [|[g w] L] P N D; try discriminate N; [reflexivity|]. cbn [map fst] in N. injection N as -> N. unfold ser_fields, bytes_of in *. cbn [concat2 flat_map fst snd value].
  rewrite tl_get by (rewrite map_app in D; cbn [map fst] in D; apply NoDup_remove_2 in D; intros K; apply D; apply in_or_app; left; exact K). rewrite <- app_comm_cons. cbn [get]. rewrite String.eqb_refl. f_equal.
  specialize (IH L (P ++ [(g, x)]) N). rewrite <- !app_assoc in IH. cbn [app] in IH. apply IH. exact D.
Qed.
Lemma nodup_names : forall L seen, NoDup (map fst seen) -> ok_fields Y seen L = true -> NoDup (map fst (seen ++ L)).
Proof.
  induction L as [|[f w] L IH]; intros seen D H; [rewrite app_nil_r; exact D|]. apply ok_field_of in H as (H1 & _ & H & _). replace (seen ++ (f, w) :: L) with ((seen ++ [(f, w)]) ++ L) by (rewrite <- app_assoc; reflexivity). apply IH; [|exact H].
  rewrite map_app. cbn [map fst]. apply NoDup_rev in D. rewrite <- (rev_involutive (map fst seen ++ [f])). apply NoDup_rev. rewrite rev_app_distr. cbn [rev app]. constructor; [|exact D].
  intros K. apply in_rev in K. apply in_map_iff in K as ([g y] & Q & K). cbn in Q. subst g. assert (X : existsb (fun fw : string * wire => String.eqb f (fst fw)) seen = true) by (apply existsb_exists; exists (f, y); split; [exact K|apply String.eqb_refl]). congruence.
Qed.
Lemma nodup_left {A} (l m : list A) : NoDup (l ++ m) -> NoDup l.
Proof. induction l as [|a l IH]; intros H; [constructor|]. cbn [app] in H. inversion H as [|x y H1 H2]. constructor; [intros K; apply H1, in_or_app; left; exact K|auto]. Qed.
Section OpenFrame.
  Variable E : env.
  Hypothesis HE : classes E = lib_classes.
  Variable W : world.
  Definition body_grows (d : nat) (x : val) : Prop := forall b x' b', buf_wf b = true -> body_call W E d x b = (None, x', b') -> buf_wf b' = true /\ exists bs, appended b bs b'.
  Lemma written_of b bs e b1 : match e with None => appended b bs b1 /\ wf b1 | Some e => e = IOOBE /\ broken b b1 end -> written b bs e b1.
  Proof. destruct e as [e|]; [intros (-> & K & X); split; [apply buf_wf_iff; exact K|auto]|intros (X & K); split; [apply buf_wf_iff; exact K|exact X]]. Qed.
  Lemma open_frame d c fs x A M bf k B b e v1 b1 : object_of E c (VObj c fs) = true -> find c Y = Some (A ++ M ++ (bf, WBody k) :: B) -> framing A M B = true -> body_grows d x ->
    (forall alg s, services W alg = Some s -> careful s) -> buf_wf b = true -> encode_open W E (S d) (VObj c (set bf x fs)) b = (e, v1, b1) ->
    let v := VObj c (set bf x fs) in
    (exists e', e = Some e' /\ buf_wf b1 = true /\ (exists bs, appended b bs b1)
       /\ (e' = NPE /\ (exists g w, In (g, w) A /\ complete Y (value g v) w = false) \/ e' = IOOBE \/ e' = SOE /\ exists g w, In (g, w) A /\ (d < nesting (value g v))%nat))
    \/ (exists e' b0 x', e = Some e' /\ at_body Y v A M b b0 /\ body_call W E d x b0 = (Some e', x', b1) /\ v1 = VObj c (set bf x' fs))
    \/ (exists body x' b2, at_end W E d Y v x A M b body x' b2 /\ (forall g w, In (g, w) A -> complete Y (value g v) w = true)
         /\ ending W Y c B (with_length M (List.length body) (set bf x' fs)) b2 e v1 b1).
  Proof.
    intros Hv HL Fr Hg HS Hb He v. destruct (object_shape lib_classes E HE c _ Hv) as (fs' & [= <-] & Ht). pose proof (typed_obj lib_classes Y c fs _ _ library_conforms HL Ht) as Hf.
    unfold framing in Fr. apply andb_true_iff in Fr as [Fr FB]. apply andb_true_iff in Fr as [FA FM]. apply buf_wf_iff in Hb.
    destruct (fields_ok_split lib_classes _ _ _ Hf) as (afs & r1 & -> & Ka & Hf1). destruct (fields_ok_split lib_classes _ _ _ Hf1) as (mfs & r2 & -> & Km & Hf2).
    destruct r2 as [|[g ov] bfs]; [discriminate|]. apply fields_ok_cons in Hf2 as (-> & Hov & Kb).
    pose proof (conforms_ok lib_classes Y c _ library_conforms HL) as Hok. pose proof (nodup_names _ [] (NoDup_nil _) Hok) as ND. cbn [app] in ND.
    pose proof (fields_ok_names _ _ _ Ka) as Na. pose proof (fields_ok_names _ _ _ Km) as Nm. pose proof (fields_ok_names _ _ _ Kb) as Nb.
    assert (NDf : forall m y z, map fst m = map fst M -> map fst z = map fst B -> NoDup (map fst (afs ++ m ++ (bf, y) :: z))).
    { intros m y z Qm Qz. rewrite !map_app in ND |- *. cbn [map fst] in ND |- *. rewrite Na, Qm, Qz. exact ND. }
    assert (SB : forall m y y' z, map fst m = map fst M -> map fst z = map fst B -> set bf y' (afs ++ m ++ (bf, y) :: z) = afs ++ m ++ (bf, y') :: z).
    { intros m y y' z Qm Qz. pose proof (NDf m y z Qm Qz) as D. rewrite !app_assoc in *. apply set_mid. destruct (existsb (fun fw : string * val => String.eqb bf (fst fw)) (afs ++ m)) eqn:X; [|reflexivity]. exfalso.
      apply existsb_exists in X as ([h q] & X1 & X2). apply String.eqb_eq in X2. cbn in X2. subst h. rewrite map_app in D. cbn [map fst] in D. apply NoDup_remove_2 in D. apply D. apply in_or_app. left. apply (in_map fst) in X1. exact X1. }
    subst v. rewrite (SB mfs ov x bfs Nm Nb) in *. set (v := VObj c (afs ++ mfs ++ (bf, x) :: bfs)) in *.
    assert (FA' : forall fw, In fw A -> In fw (A ++ M ++ (bf, WBody k) :: B)) by (intros fw K; apply in_or_app; left; exact K).
    pose proof (fields_bare afs A c _ HL FA' FA Ka) as Ca.
    assert (G : grows E W d x). { intros b0 x' b0' W0 E0. apply buf_wf_iff in W0. destruct (Hg b0 x' b0' W0 E0) as [X1 X2]. split; [apply buf_wf_iff; exact X1|exact X2]. }
    assert (PM : plain_mid M = true) by (destruct M as [|[lf []] [|]]; try discriminate FM; try reflexivity; do 5 (destruct n as [|n]; try discriminate FM)).
    assert (PB : plain_end B = true) by exact FB.
    assert (EV : forall g w, In (g, w) A -> In (g, value g v) afs).
    { intros g w K. assert (In g (map fst afs)) as K1 by (rewrite Na; apply (in_map fst) in K; exact K). apply in_map_iff in K1 as ([h y] & Q & K1). cbn in Q. subst h. cbn [v value]. rewrite hd_get by (apply (in_map fst) in K1; exact K1).
      assert (D : NoDup (map fst afs)) by (specialize (NDf mfs x bfs Nm Nb); rewrite map_app in NDf; apply nodup_left in NDf; exact NDf).
      replace (get g afs) with y; [exact K1|]. clear - K1 D. induction afs as [|[h q] afs IH]; [contradiction|]. cbn [map fst] in D. inversion D as [|a b D1 D2]. subst a b. cbn [get]. destruct K1 as [[= -> ->]|K1]; [rewrite String.eqb_refl; reflexivity|].
      destruct (String.eqb_spec g h) as [->|N]; [exfalso; apply D1; apply (in_map fst) in K1; exact K1|auto]. }
    assert (HC : (complete_fields Y afs A = true -> forall g w, In (g, w) A -> complete Y (value g v) w = true) /\ (complete_fields Y afs A = false -> exists g w, In (g, w) A /\ complete Y (value g v) w = false)).
    { assert (D : NoDup (map fst afs)) by (specialize (NDf mfs x bfs Nm Nb); rewrite map_app in NDf; apply nodup_left in NDf; exact NDf).
      clearbody v. clear - Na EV D. unfold complete_fields. assert (X : forall i g w, nth_error A i = Some (g, w) -> nth_error afs i = Some (g, value g v)).
      { intros i g w K. assert (K2 : exists y, nth_error afs i = Some (g, y)). { clear - Na K. revert A Na i K. induction afs as [|[h q] afs IH]; intros [|[h' w'] A] N [|i] K; try discriminate; cbn [map fst] in N; injection N as -> N; cbn in K |- *; [injection K as -> ->; eauto|eapply IH; eauto]. }
        destruct K2 as (y & K2). rewrite K2. f_equal. f_equal. specialize (EV g w (nth_error_In _ _ K)). apply nth_error_In in K2. clear - D EV K2. induction afs as [|[h q] afs IH]; [contradiction|]. cbn [map fst] in D. inversion D as [|a b D1 D2]. subst a b.
        destruct K2 as [K2|K2]; destruct EV as [EV|EV]; try congruence; [injection K2 as -> ->; exfalso; apply D1; apply (in_map fst) in EV; exact EV|injection EV as -> _; exfalso; apply D1; apply (in_map fst) in K2; exact K2|auto]. }
      clear EV D. revert A Na X. induction afs as [|[h q] afs IH]; intros [|[h' w'] A] N X; try discriminate N; [split; [intros _ g w []|discriminate]|]. cbn [map fst] in N. injection N as -> N.
      pose proof (X 0%nat h' w' eq_refl) as X0. cbn in X0. injection X0 as ->. destruct (IH A N (fun i g w => X (S i) g w)) as [I1 I2]. cbn [all2 snd]. split.
      - intros K g w [[= -> ->]|K1]; apply andb_true_iff in K as [K2 K3]; auto.
      - intros K. apply andb_false_iff in K as [K|K]; [exists h', w'; split; [left; reflexivity|exact K]|]. destruct (I2 K) as (g & w & K1 & K2). exists g, w. split; [right; exact K1|exact K2]. }
    assert (HN : (d < nest_fields afs)%nat -> exists g w, In (g, w) A /\ (d < nesting (value g v))%nat).
    { intros K. unfold nest_fields in K. assert (exists g y, In (g, y) afs /\ (d < nesting y)%nat) as (g & y & K1 & K2).
      { clear - K. induction afs as [|[h q] afs IH]; cbn [max_of snd] in K; [lia|]. destruct (Nat.lt_ge_cases d (nesting q)) as [Q|Q]; [exists h, q; split; [left; reflexivity|exact Q]|]. destruct IH as (g & y & K1 & K2); [lia|]. exists g, y. split; [right; exact K1|exact K2]. }
      assert (In g (map fst A)) as K3 by (rewrite <- Na; apply (in_map fst) in K1; exact K1). apply in_map_iff in K3 as ([h w] & Q & K3). cbn in Q. subst h. exists g, w. split; [exact K3|].
      assert (D : NoDup (map fst afs)) by (specialize (NDf mfs x bfs Nm Nb); rewrite map_app in NDf; apply nodup_left in NDf; exact NDf).
      replace (value g v) with y; [exact K2|]. specialize (EV g w K3). clearbody v. clear - D EV K1. induction afs as [|[h q] afs IH]; [contradiction|]. cbn [map fst] in D. inversion D as [|a b D1 D2]. subst a b.
      destruct K1 as [K2|K2]; destruct EV as [EV|EV]; try congruence; [injection K2 as -> ->; exfalso; apply D1; apply (in_map fst) in EV; exact EV|injection EV as -> _; exfalso; apply D1; apply (in_map fst) in K2; exact K2|auto]. }
    assert (EH : ser_fields Y (fill_fields Y E (readable b) afs A) A = bytes_of Y v A).
    { rewrite fill_bare_fields by assumption. apply (concat_bytes c (mfs ++ (bf, x) :: bfs) afs A [] Na). cbn [app]. specialize (NDf mfs x bfs Nm Nb). rewrite map_app in NDf. apply nodup_left in NDf. exact NDf. }
    pose proof (run_frame lib_classes Y library_conforms E HE W bare) as RF.
    assert (K1 : forall c0, bare c0 = true -> of_library E c0 = true). { intros c0 Q. apply (bare_sumless E c0 HE) in Q. unfold sumless in Q. unfold of_library. destruct (find_class E c0); [reflexivity|discriminate]. }
    assert (K2 : forall c0 cd alg f, bare c0 = true -> find_class E c0 = Some cd -> In (ESum alg f) (c_enc cd) -> computes W E alg).
    { intros c0 cd alg f Q F K. apply (bare_sumless E c0 HE) in Q. unfold sumless in Q. rewrite F in Q. rewrite forallb_forall in Q. specialize (Q _ K). discriminate Q. }
    specialize (RF K1 K2 d c x A M bf k B afs mfs bfs b G PM PB HL (own_simple A FA) Ka Km Kb Ca (fun f n o alg s _ => HS alg s) Hb). clear K1 K2.
    change (VObj c (afs ++ mfs ++ (bf, x) :: bfs)) with v in RF. rewrite He in RF. unfold frame_post in RF. rewrite EH in RF. rewrite fill_bare_fields in RF by assumption.
    destruct RF as [(e' & -> & [Wb Xb] & R)|[(e' & b0 & x' & -> & A0 & W0 & EB & ->)|(body & x' & b0 & b0' & b2 & fs1 & loc1 & A0 & W0 & EB & A1 & A2 & W2 & Cm & -> & EP)]].
    - left. exists e'. split; [reflexivity|]. split; [apply buf_wf_iff; exact Wb|]. split; [exact Xb|]. destruct R as [[-> R]|[->|[-> R]]]; [left; split; [reflexivity|apply HC; exact R]|right; left; reflexivity|right; right; split; [reflexivity|apply HN; exact R]].
    - right. left. exists e', b0, x'. split; [reflexivity|]. split; [split; [exact A0|apply buf_wf_iff; exact W0]|]. split; [exact EB|]. rewrite (SB mfs ov x' bfs Nm Nb). reflexivity.
    - right. right. exists body, x', b2. split; [split; [exists b0, b0'; split; [split; [exact A0|apply buf_wf_iff; exact W0]|auto]|split; [exact A2|apply buf_wf_iff; exact W2]]|]. split; [apply HC; exact Cm|].
      rewrite (SB mfs ov x' bfs Nm Nb).
      assert (EL : with_length M (List.length body) (afs ++ mfs ++ (bf, x') :: bfs) = (afs ++ len_fields M (List.length body) ++ [(bf, x')]) ++ bfs).
      { destruct M as [|[lf w] M'].
        - destruct mfs; [|discriminate Nm]. cbn [with_length len_fields app]. rewrite <- app_assoc. reflexivity.
        - destruct w; try discriminate FM. destruct M' as [|q M']; [|do 5 (destruct n as [|n]; try discriminate FM)]. destruct mfs as [|[lf' y] [|q mfs]]; try discriminate Nm. cbn [map fst] in Nm. injection Nm as ->. cbn [with_length len_fields app].
          rewrite <- app_assoc. cbn [app]. apply set_mid. specialize (NDf [(lf, y)] x' bfs eq_refl Nb). destruct (existsb (fun fw : string * val => String.eqb lf (fst fw)) afs) eqn:X; [|reflexivity]. exfalso.
          apply existsb_exists in X as ([h q] & X1 & X2). apply String.eqb_eq in X2. cbn in X2. subst h. rewrite map_app in NDf. cbn [map fst app] in NDf. apply NoDup_remove_2 in NDf. apply NDf. apply in_or_app. left. apply (in_map fst) in X1. exact X1. }
      rewrite EL. set (dn := afs ++ len_fields M (List.length body) ++ [(bf, x')]) in *.
      assert (NL : map fst (len_fields M (List.length body)) = map fst M) by (destruct M as [|[lf []] [|]]; try discriminate PM; reflexivity).
      assert (ND3 : forall z, map fst z = map fst B -> NoDup (map fst (dn ++ z))).
      { intros z Qz. unfold dn. rewrite <- !app_assoc. cbn [app]. apply NDf; assumption. }
      unfold end_post in EP. unfold ending. destruct B as [|[sf w] B'].
      + destruct bfs; [|discriminate]. destruct EP as (-> & -> & ->). auto.
      + destruct bfs as [|[sf' z0] bfs']; [discriminate|]. cbn [map fst] in Nb. injection Nb as -> Nb.
        assert (SS : forall z, set sf z (dn ++ (sf, z0) :: bfs') = dn ++ (sf, z) :: bfs').
        { intros z. apply set_mid. specialize (ND3 ((sf, z0) :: bfs')). destruct (existsb (fun fw : string * val => String.eqb sf (fst fw)) dn) eqn:X; [|reflexivity]. exfalso.
          apply existsb_exists in X as ([h q] & X1 & X2). apply String.eqb_eq in X2. cbn in X2. subst h. rewrite map_app in ND3. cbn [map fst] in ND3. specialize (ND3 ltac:(cbn; congruence)). apply NoDup_remove_2 in ND3. apply ND3. apply in_or_app. left. apply (in_map fst) in X1. exact X1. }
        assert (BB : forall w', B' = [] -> bytes_of Y (VObj c (dn ++ (sf, z0) :: bfs')) [(sf, w')] = ser Y z0 w').
        { intros w' ->. destruct bfs'; [|discriminate Nb]. unfold bytes_of. cbn [flat_map fst snd value]. rewrite app_nil_r. rewrite tl_get; [cbn [get]; rewrite String.eqb_refl; reflexivity|].
          intros K. specialize (ND3 [(sf, z0)] eq_refl). rewrite map_app in ND3. cbn [map fst] in ND3. apply NoDup_remove_2 in ND3. apply ND3. apply in_or_app. left. exact K. }
        destruct w; try discriminate FB.
        * assert (B' = []) as -> by (destruct B'; [reflexivity|do 5 (destruct n as [|n]; try discriminate FB)]). rewrite (BB _ eq_refl). destruct EP as [-> EP]. split; [reflexivity|]. apply written_of. exact EP.
        * assert (B' = []) as -> by (destruct B'; [reflexivity|do 5 (destruct n as [|n]; try discriminate FB)]). rewrite (BB _ eq_refl). destruct (services W alg) as [s|].
          -- destruct (s b2) as [[e'|z] b3]; [destruct EP as (-> & -> & ->); auto|]. destruct EP as [-> EP]. rewrite SS. destruct bfs'; [|discriminate Nb]. split; [reflexivity|]. apply written_of. exact EP.
          -- destruct EP as [-> EP]. split; [reflexivity|]. apply written_of. exact EP.
  Qed.
End OpenFrame.

(* ---- decode ---- *)
Lemma compile_makes L s c : (forall f w, In (f, w) L -> bare_wire w = true) -> In s (compile_dec L) -> In c (makes s) -> bare c = true.
Proof.
  induction L as [|[f w] L IH]; intros HB; [contradiction|]. rewrite compile_dec_cons. intros K M. apply in_app_or in K as [K|K]; [|apply IH; auto; intros g u Q; apply (HB g); right; exact Q].
  specialize (HB f w (or_introl eq_refl)). destruct w; cbn [dec_stmts] in K; try (destruct K as [<-|[]]; contradiction).
  - destruct K as [<-|[<-|[]]]; [|contradiction]. destruct M as [<-|[]]. exact HB.
  - discriminate HB.
  - destruct K as [<-|[]]. destruct w; cbn [compile_delem makes] in M; try contradiction; try discriminate HB. destruct M as [<-|[]]. exact HB.
Qed.
Lemma compile_creates L f k : In (DCreate f k) (compile_dec L) -> In (f, WBody k) L.
Proof.
  induction L as [|[g w] L IH]; [contradiction|]. rewrite compile_dec_cons. intros K. apply in_app_or in K as [K|K]; [|right; exact (IH K)]. left.
  destruct w; cbn [dec_stmts] in K; repeat (destruct K as [K|K]; [try discriminate K|]); try contradiction. injection K as <- <-. reflexivity.
Qed.
Lemma compile_objs L f : In (DObj f) (compile_dec L) -> In f (map fst L).
Proof.
  induction L as [|[g w] L IH]; [contradiction|]. rewrite compile_dec_cons. intros K. apply in_app_or in K as [K|K]; [|right; exact (IH K)]. left.
  destruct w; cbn [dec_stmts] in K; repeat (destruct K as [K|K]; [try discriminate K; injection K as <-; reflexivity|]); contradiction.
Qed.
Lemma dec_app dec new create s1 s2 st : exec_dec dec new create (s1 ++ s2) st = match exec_dec dec new create s1 st with (None, st') => exec_dec dec new create s2 st' | x => x end.
Proof. revert st. induction s1 as [|s s1 IH]; intros st; [reflexivity|]. cbn [app exec_dec]. destruct (exec_dstmt dec new create s st) as [[e|] st']; [reflexivity|apply IH]. Qed.
Section OpenDecode.
  Variable E : env.
  Hypothesis HE : classes E = lib_classes.
  Variable W : world.
  Lemma bare_known c : bare c = true -> of_library E c = true.
  Proof. intros Q. apply (bare_sumless E c HE) in Q. unfold sumless in Q. unfold of_library. destruct (find_class E c); [reflexivity|discriminate]. Qed.
  Lemma bare_class c cd : bare c = true -> find_class E c = Some cd -> exists L, find c Y = Some L /\ c_dec cd = compile_dec L /\ forallb (fun fw => own (snd fw)) L = true.
  Proof.
    intros Bc FC. unfold bare in Bc. destruct (find c Y) as [L|] eqn:HL; [|discriminate]. pose proof (conforms_find lib_classes Y c library_conforms) as F. rewrite HL in F. destruct F as (cd' & E1 & _ & _ & _ & E2).
    unfold find_class in FC. rewrite HE, E1 in FC. injection FC as <-. eauto.
  Qed.
  Lemma bare_decode d v b : made_of bare v = true -> decode_open W E d v b = decode E d v b /\ made_of bare (snd (fst (decode E d v b))) = true.
  Proof.
    apply (decode_closed W E bare bare_known).
    - intros c cd s n Bc FC Hs Hn. destruct (bare_class c cd Bc FC) as (L & HL & Ed & Ol). rewrite Ed in Hs. rewrite forallb_forall in Ol. refine (compile_makes L s n _ Hs Hn). intros f w K1. exact (library_own c L f w HL K1 (Ol _ K1)).
    - intros c cd f k t n Bc FC Hs _. destruct (bare_class c cd Bc FC) as (L & HL & Ed & Ol). rewrite Ed in Hs. apply compile_creates in Hs. rewrite forallb_forall in Ol. specialize (Ol _ Hs). discriminate Ol.
  Qed.
  Lemma open_decode d c u U A M bf k B afs oa om ob obs r lb rest t : find c Y = Some (A ++ M ++ (bf, WBody k) :: B) -> framing A M B = true ->
    fields_ok lib_classes afs A = true -> fields_ok lib_classes oa A = true -> fields_ok lib_classes om M = true -> fields_ok lib_classes obs B = true ->
    all2 (fun fv fw => parsable Y (factory E) (snd fv) (snd fw)) afs A = true -> (nest_fields afs <= S d)%nat -> tag k afs A = Some t -> factory E c t = Some u ->
    find_class E u = None -> users W u = Some U -> wf r -> List.length lb = List.length (blank M) -> readable r = ser_fields Y afs A ++ lb ++ rest ->
    let pre := absorb_fields Y afs A oa ++ match M with (lf, WLen _ o) :: _ => [(lf, VInt (get_int o lb))] | _ => [] end in
    decode_open W E (S (S d)) (VObj c (oa ++ om ++ (bf, ob) :: obs)) r =
      let '(e, ufs, r2) := u_dec U (u_new U) (adv r (List.length (ser_fields Y afs A) + List.length lb)) in
      match e, B with
      | Some e, _ => (Some e, VObj c (pre ++ (bf, VObj u ufs) :: obs), r2)
      | None, (sf, WSum n o _) :: _ | None, (sf, WInt n o) :: _ =>
          match read_bytes n r2 with
          | (inr bs, r3) => (None, VObj c (pre ++ [(bf, VObj u ufs); (sf, VInt (get_int o bs))]), r3)
          | (inl e, r3) => (Some e, VObj c (pre ++ (bf, VObj u ufs) :: obs), r3)
          end
      | None, _ => (None, VObj c (pre ++ (bf, VObj u ufs) :: obs), r2)
      end.
  Proof.
    intros HL Fr Ka Koa Kom Kob Hp Hn Ht Hft Fu HU Hr Ll Er pre. unfold framing in Fr. apply andb_true_iff in Fr as [Fr FB]. apply andb_true_iff in Fr as [FA FM].
    pose proof (conforms_ok lib_classes Y c _ library_conforms HL) as Hok. pose proof (conforms_find lib_classes Y c library_conforms) as F. rewrite HL in F. destruct F as (cd & E1 & _ & _ & _ & E2).
    assert (DO : forall n fs b, decode_open W E (S n) (VObj c fs) b = let '(e, (fs', b')) := exec_dec (decode_open W E n) (new_open W E) (factory E c) (c_dec cd) (fs, b) in (e, VObj c fs', b')).
    { intros n fs b. cbn [decode_open]. unfold find_class. rewrite HE, E1. reflexivity. }
    rewrite DO, E2. clear DO. rewrite !compile_dec_app, dec_app.
    assert (FA' : forall fw, In fw A -> In fw (A ++ M ++ (bf, WBody k) :: B)) by (intros fw K; apply in_or_app; left; exact K).
    assert (CA : all_closed bare oa = true) by (exact (fields_bare oa A c _ HL FA' FA Koa)).
    assert (Noa : map fst oa = map fst A) by (apply (fields_ok_names lib_classes); exact Koa).
    (* header *)
    destruct (dstmts_closed W E bare bare_known (decode E (S d)) (decode_open W E (S d)) (bare_decode (S d)) (factory E c) (compile_dec A) (oa ++ om ++ (bf, ob) :: obs) r) as [-> _].
    { intros s n Hs Hm. rewrite forallb_forall in FA. refine (compile_makes A s n _ Hs Hm). intros f w K1. exact (library_own c _ f w HL (FA' _ K1) (FA _ K1)). }
    { intros f k0 Hs. apply compile_creates in Hs. rewrite forallb_forall in FA. specialize (FA _ Hs). discriminate FA. }
    { intros f Hs. apply compile_objs in Hs. rewrite hd_get by (rewrite Noa; exact Hs). apply closed_get. exact CA. }
    assert (Hpar : par_fs Y E c afs A afs A = true).
    { unfold par_fs. revert Hp FA. generalize afs at 1 3 as a. generalize A at 1 2 4 as A0. clear. intros A0 a. revert a.
      induction A0 as [|[h w] A0 IH]; intros [|[h' x] a]; auto. cbn [all2 snd forallb]. intros Q1 Q2. apply andb_true_iff in Q1 as [-> Q1]. apply andb_true_iff in Q2 as [Q2 Q3]. rewrite (IH a Q1 Q3). destruct w; auto. discriminate Q2. }
    destruct (dec_prefix lib_classes Y library_conforms E HE (S d) c afs A A (M ++ (bf, WBody k) :: B) [] [] afs [] oa (om ++ (bf, ob) :: obs) r (lb ++ rest)) as [X T]; auto.
    { intros k0. exact I. }
    cbn [app] in X, T. rewrite X, dec_app. clear X. change (ser_fs Y afs A) with (ser_fields Y afs A) in *.
    set (pa := absorb_fields Y afs A oa) in *. assert (Npa : map fst pa = map fst A) by (unfold pa; rewrite (absorb_fields_names Y afs A oa) by (apply (fields_ok_length lib_classes); assumption); apply (fields_ok_names lib_classes); exact Ka).
    destruct (adv_ok r _ _ Hr Er) as [W1 R1].
    (* length *)
    assert (XM : exec_dec (decode_open W E (S d)) (new_open W E) (factory E c) (compile_dec M) (pa ++ om ++ (bf, ob) :: obs, adv r (List.length (ser_fields Y afs A)))
                 = (None, (pre ++ (bf, ob) :: obs, adv r (List.length (ser_fields Y afs A) + List.length lb)))).
    { destruct M as [|[lf w] M'].
      - destruct om; [|discriminate Kom]. destruct lb; [|discriminate Ll]. cbn [compile_dec exec_dec app List.length]. rewrite Nat.add_0_r. unfold pre. rewrite app_nil_r. reflexivity.
      - destruct w; try discriminate FM. assert (n = 4%nat) as -> by (do 5 (destruct n as [|n]; try discriminate FM); reflexivity). destruct M'; [|discriminate FM]. cbn [blank] in Ll. rewrite repeat_length in Ll.
        destruct om as [|[lf' y] [|]]; try discriminate Kom; [|apply fields_ok_cons in Kom as (_ & _ & Kom); discriminate Kom]. apply fields_ok_cons in Kom as (-> & _ & _). cbn [compile_dec app exec_dec exec_dstmt].
        pose proof (read_bytes_ok _ lb rest W1 R1) as RB. rewrite Ll in RB. rewrite RB. fold (adv (adv r (List.length (ser_fields Y afs A))) 4). rewrite adv_adv, Ll.
        destruct (ok_prefix Y A ((lf, WLen 4 o) :: (bf, WBody k) :: B) [] (own_simple A FA) Hok) as [_ OR]. cbn [app] in OR. apply ok_field_of in OR as (Hf & _ & _ & _). rewrite <- (existsb_names lf pa A Npa) in Hf.
        rewrite set_mid by exact Hf. unfold pre. rewrite <- app_assoc. reflexivity. }
    rewrite XM. clear XM.
    (* body *)
    assert (NP : map fst pre = map fst (A ++ M)).
    { unfold pre. rewrite !map_app, Npa. f_equal. destruct M as [|[lf []] [|]]; try discriminate FM; try reflexivity; do 5 (destruct n as [|n]; try discriminate FM). }
    assert (OB : ok_fields Y (A ++ M) ((bf, WBody k) :: B) = true).
    { destruct (ok_prefix Y A (M ++ (bf, WBody k) :: B) [] (own_simple A FA) Hok) as [_ OR]. cbn [app] in OR. clear - OR FM. destruct M as [|[lf []] [|]]; try discriminate FM; cbn [app] in *; try (do 5 (destruct n as [|n]; try discriminate FM)).
      - rewrite app_nil_r. exact OR.
      - apply ok_field_of in OR as (_ & _ & OR & _). exact OR. }
    apply ok_field_of in OB as (Hbf & _ & OB & Hkey). rewrite <- (existsb_names bf pre (A ++ M) NP) in Hbf.
    rewrite compile_dec_cons, dec_app. cbn [dec_stmts exec_dec exec_dstmt].
    assert (KT : key_of (get k (pre ++ (bf, ob) :: obs)) = Some t).
    { assert (Kin : exists x, In (k, x) afs /\ In k (map fst A)).
      { clear - Ht Ka. revert A Ka Ht. induction afs as [|[h x] afs IH]; intros [|[g w] A] Ka Ht; try discriminate Ht. apply fields_ok_cons in Ka as (-> & _ & Ka). cbn [tag] in Ht. destruct (String.eqb_spec k g) as [->|N]; [exists x; split; left; reflexivity|]. destruct (IH A Ka Ht) as (y & K1 & K2). exists y. split; right; assumption. }
      destruct Kin as (x0 & _ & Kin). rewrite <- Npa in Kin. unfold pre. rewrite <- app_assoc. rewrite hd_get by exact Kin. specialize (T k).
      assert (Ek : match find k A with Some (WInt _ _) | Some (WFix _ _ _) => True | _ => False end).
      { clear - Ht Ka. revert A Ka Ht. induction afs as [|[h x] afs IH]; intros [|[g w] A] Ka Ht; try discriminate Ht. apply fields_ok_cons in Ka as (-> & _ & Ka). cbn [tag find] in *. destruct (String.eqb_spec k g) as [->|N]; [|exact (IH A Ka Ht)]. destruct w; try discriminate Ht; exact I. }
      destruct (find k A) as [[]|]; try contradiction; rewrite T; exact Ht. }
    rewrite KT, Hft. rewrite set_mid by exact Hbf. cbn [exec_dstmt]. rewrite get_mid by exact Hbf. unfold new_open at 1. rewrite Fu, HU. cbn [decode_open]. rewrite Fu, HU.
    destruct (u_dec U (u_new U) (adv r (List.length (ser_fields Y afs A) + List.length lb))) as [[[e|] ufs] r2]; rewrite set_mid by exact Hbf; [reflexivity|].
    (* checksum *)
    destruct B as [|[sf w] B']; [reflexivity|]. destruct obs as [|[sf' y] obs]; [discriminate Kob|]. apply fields_ok_cons in Kob as (-> & _ & Kob).
    assert (Hsf : existsb (fun fw : string * val => String.eqb sf (fst fw)) (pre ++ [(bf, VObj u ufs)]) = false).
    { apply ok_field_of in OB as (Hs & _ & _ & _). rewrite (existsb_names sf _ ((A ++ M) ++ [(bf, WBody k)])); [exact Hs|]. rewrite !map_app, NP, map_app. reflexivity. }
    assert (SS : forall z, set sf z (pre ++ (bf, VObj u ufs) :: (sf, y) :: obs) = pre ++ (bf, VObj u ufs) :: (sf, z) :: obs).
    { intros z. replace (pre ++ (bf, VObj u ufs) :: (sf, y) :: obs) with ((pre ++ [(bf, VObj u ufs)]) ++ (sf, y) :: obs) by (rewrite <- app_assoc; reflexivity). rewrite set_mid by exact Hsf. rewrite <- app_assoc. reflexivity. }
    destruct w; try discriminate FB; (assert (n = 4%nat) as -> by (do 5 (destruct n as [|n]; try discriminate FB); reflexivity); destruct B'; [|discriminate FB]; destruct obs; [|discriminate Kob]); cbn [compile_dec app exec_dec exec_dstmt];
      destruct (read_bytes 4 r2) as [[e|bs] r3]; try reflexivity; rewrite SS; reflexivity.
  Qed.
End OpenDecode.
