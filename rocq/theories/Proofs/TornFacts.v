(* A thread that encodes while others call setters (Model/SetterThreads.v): what it writes is what encode writes for a tree of held values. *)
From Coq Require Import ZArith List Bool String Lia.
From Verif.Model Require Import JavaPrim ByteBuf Utf8 Codec Ast Interp Heap EncodeThreads SetterThreads.
From Verif.Spec Require Import Bytes Wire Sharing Torn.
From Verif.Proofs Require Import HeapFacts HeapCycle PieceFacts EncodeThreadFacts EncodeSteps EncodeRace EncodeEnds.
Import ListNotations.

(* ---- statements see only the fields they read ---- *)
Fixpoint readset (ss : list estmt) : list string := match ss with [] => [] | s :: r => match reads s with Some f => f :: readset r | None => readset r end end.
Lemma get_absent f (gs : list (string * val)) : ~ In f (map fst gs) -> get f gs = VNull.
Proof. induction gs as [|[g v] gs IH]; cbn; auto. intros N. destruct (String.eqb_spec f g) as [->|]; [destruct N; auto|apply IH; auto]. Qed.
Lemma hget_absent f (gs : list (string * hval)) : ~ In f (map fst gs) -> hget f gs = HNull.
Proof. induction gs as [|[g v] gs IH]; cbn; auto. intros N. destruct (String.eqb_spec f g) as [->|]; [destruct N; auto|apply IH; auto]. Qed.
Lemma set_absent f x (gs : list (string * val)) : ~ In f (map fst gs) -> set f x gs = gs.
Proof. induction gs as [|[g v] gs IH]; cbn; auto. intros N. destruct (String.eqb_spec f g) as [->|]; [destruct N; auto|]. f_equal. apply IH; auto. Qed.
Lemma set_names f x (gs : list (string * val)) : map fst (set f x gs) = map fst gs.
Proof. induction gs as [|[g v] gs IH]; cbn; auto. destruct (String.eqb f g); cbn; [auto|]. f_equal. exact IH. Qed.
Lemma set_twice f x y (gs : list (string * val)) : set f x (set f y gs) = set f x gs.
Proof. induction gs as [|[g v] gs IH]; cbn; auto. destruct (String.eqb f g) eqn:Q; cbn; rewrite Q; [auto|]. f_equal. exact IH. Qed.
Lemma set_get f (gs : list (string * val)) : set f (get f gs) gs = gs.
Proof. induction gs as [|[g v] gs IH]; cbn; auto. destruct (String.eqb f g) eqn:Q; cbn; [auto|]. f_equal. exact IH. Qed.
Lemma get_set f g x (gs hs : list (string * val)) : map fst gs = map fst hs -> (f <> g -> get g gs = get g hs) -> get g (set f x gs) = get g (set f x hs).
Proof.
  intros N A. destruct (String.eqb_spec f g) as [->|D]; [|rewrite !get_other by exact D; auto]. destruct (in_dec String.string_dec g (map fst gs)) as [I|I].
  - rewrite !get_same; auto. now rewrite <- N.
  - rewrite !set_absent by (rewrite <- ?N; exact I). rewrite !get_absent; auto. now rewrite <- N.
Qed.
Ltac keep K := cbv beta iota; try (match goal with |- context [match ?e with Some _ => _ | None => _ end] => is_var e; destruct e end); (split; reflexivity) || (apply K).
Section Exec.
  Variable enc : val -> bytebuf -> option exn * val * bytebuf.
  Variable sums : string -> option (list Z -> Z).
  Lemma same_exec : forall ss gs hs loc b, map fst gs = map fst hs -> (forall f, In f (readset ss) -> get f gs = get f hs) ->
    fst (exec_enc enc sums ss (gs, loc, b)) = fst (exec_enc enc sums ss (hs, loc, b)) /\ snd (snd (exec_enc enc sums ss (gs, loc, b))) = snd (snd (exec_enc enc sums ss (hs, loc, b))).
  Proof.
    induction ss as [|s ss IH]; intros gs hs loc b N A; [split; reflexivity|]. cbn [exec_enc].
    assert (AT : forall f, In f (readset ss) -> get f gs = get f hs) by (intros f I; apply A; cbn [readset]; destruct (reads s); [right; exact I|exact I]).
    assert (KEEP : forall loc' b', fst (exec_enc enc sums ss (gs, loc', b')) = fst (exec_enc enc sums ss (hs, loc', b')) /\ snd (snd (exec_enc enc sums ss (gs, loc', b'))) = snd (snd (exec_enc enc sums ss (hs, loc', b')))) by (intros; apply IH; auto).
    assert (PUT : forall f x b', fst (exec_enc enc sums ss (set f x gs, loc, b')) = fst (exec_enc enc sums ss (set f x hs, loc, b')) /\ snd (snd (exec_enc enc sums ss (set f x gs, loc, b'))) = snd (snd (exec_enc enc sums ss (set f x hs, loc, b')))).
    { intros f x b'. apply IH; [rewrite !set_names; exact N|]. intros g I. apply get_set; auto. }
    destruct s as [n o f|n o f|f len pad lft|f zn zo n o|f zn zo ct n o x|f|f|y|n o|f y z|n o y f|a f]; cbn [exec_estmt]; try rewrite (A f (or_introl eq_refl)).
    - destruct (get f hs) as [|z|z|u|l|c q]; try keep KEEP. destruct (write_int o n z b). keep KEEP.
    - destruct (get f hs) as [|z|z|u|l|c q]; try keep KEEP. destruct (write_int o n z b). keep KEEP.
    - destruct (string_of (get f hs)); try keep KEEP. destruct (write_fixed _ _ _ _ _). keep KEEP.
    - destruct (string_of (get f hs)); try keep KEEP. destruct (write_dyn _ _ _ _ _ _). keep KEEP.
    - destruct (get f hs) as [| | | |l|]; try keep KEEP; [destruct (write_int zo zn 0 b); keep KEEP|]. destruct l as [|v l]; [destruct (write_int zo zn 0 b); keep KEEP|].
      destruct (write_int o n _ b) as [[e|] b']; [keep KEEP|]. destruct (enc_elems enc x (v :: l) b') as [[e l'] b2]. keep PUT.
    - destruct (enc (get f hs) b) as [[e v'] b']. keep PUT.
    - destruct (get f hs); try keep KEEP; destruct (enc _ b) as [[e v'] b']; keep PUT.
    - keep KEEP.
    - destruct (write_int o n 0 b). keep KEEP.
    - destruct (assoc y loc); [|keep KEEP]. destruct (assoc z loc); [|keep KEEP]. keep PUT.
    - destruct (assoc y loc) as [i|]; [|keep KEEP]. destruct (get f hs) as [|z|z|u|l|c q]; try keep KEEP. destruct (set_int o n i z b). keep KEEP.
    - destruct (sums a); [keep PUT|keep KEEP].
  Qed.
End Exec.

Lemma Forall2_imp {A B} (P Q : A -> B -> Prop) l m : (forall x y, P x y -> Q x y) -> Forall2 P l m -> Forall2 Q l m.
Proof. intros I. induction 1; constructor; auto. Qed.

(* ---- trees of held values ---- *)
(* encode one statement at a time, also where Model/SetterThreads.v makes two steps *)
Definition step_or_set (E : env) (m : moment) (h : heap) (t : encoder) : heap * encoder :=
  match m with Turn => encoder_step E h t | Sets l f v => (put_field h l f v, t) end.
Fixpoint steps_run (E : env) (ms : list moment) (h : heap) (t : encoder) : heap * encoder :=
  match ms with
  | [] => (h, t)
  | m :: r => let '(h', t') := step_or_set E m h t in steps_run E r h' t'
  end.

(* writing an empty string behind its length writes nothing *)
Lemma grown_long b n : Z.of_nat (widx b + n) <= maxcap b -> (widx b + n <= List.length (grown b n))%nat.
Proof. intros M. unfold grown. destruct (Nat.leb_spec (widx b + n) (List.length (arr b))); [assumption|]. rewrite app_length, map_length, seq_length. lia. Qed.
Lemma write_nothing bs b b' : write_bytes bs b = (None, b') -> write_bytes [] b' = (None, b').
Proof.
  unfold write_bytes. destruct (Z.leb_spec (Z.of_nat (widx b + List.length bs)) (maxcap b)) as [M|]; [|discriminate]. intros X. injection X as <-. pose proof (grown_long b (List.length bs) M) as G.
  set (g := grown b (List.length bs)) in *. cbn [set_widx set_arr widx maxcap arr List.length]. rewrite PeanoNat.Nat.add_0_r. destruct (Z.leb_spec (Z.of_nat (widx b + List.length bs)) (maxcap b)); [|lia].
  assert (L : List.length (splice g (widx b) bs) = List.length g) by (unfold splice; rewrite !app_length, firstn_length, skipn_length; lia).
  unfold grown. cbn [set_widx set_arr widx maxcap arr]. rewrite PeanoNat.Nat.add_0_r, L. destruct (Nat.leb_spec (widx b + List.length bs) (List.length g)); [|lia].
  assert (N : forall a i, splice a i [] = a) by (intros a i; unfold splice; cbn [app List.length]; rewrite PeanoNat.Nat.add_0_r; apply firstn_skipn). rewrite N. reflexivity.
Qed.
Lemma put_zero o o' n : put_int o n 0 = put_int o' n 0.
Proof.
  assert (A : forall l, map (byte_at 0) l = repeat 0%Z (List.length l)) by (induction l as [|i l IH]; [reflexivity|]; cbn [map repeat List.length]; f_equal; [unfold byte_at; rewrite Z.shiftr_0_l; reflexivity|exact IH]).
  destruct o, o'; cbn [put_int]; rewrite !A, ?rev_length; reflexivity.
Qed.
Lemma write_dyn_late s zo n o b : match write_int o n (Z.of_nat (List.length (utf8_encode s))) b with (None, b') => write_bytes (utf8_encode s) b' | x => x end = write_dyn (Some s) n zo n o b.
Proof.
  destruct s as [|u s]; [|reflexivity]. cbn [write_dyn]. change (utf8_encode []) with (@nil Z). cbn [List.length]. change (Z.of_nat 0) with 0. unfold write_int. rewrite (put_zero o zo). destruct (write_bytes (put_int zo n 0) b) as [[e|] b'] eqn:W; [reflexivity|]. eapply write_nothing; eauto.
Qed.

Section Torn.
  Variable E : env.
  Variable h : heap.
  Variable ms : list moment.
  Variable root : nat.
  Notation sums := (checksum E).
  Notation torn := (torn h ms).
  Notation held := (held h ms).

  (* the fields encode assigns, of a class *)
  Definition tg (c : string) : list string := match find_class E c with Some cd => targets (c_enc cd) | None => [] end.
  (* every other field is read once; objects and lists are never assigned *)
  Fixpoint once (T : list string) (ss : list estmt) : bool :=
    match ss with
    | [] => true
    | s :: r => match s with EObj f | EObjOpt f | EList f _ _ _ _ _ _ => negb (mem f T) | _ => true end
                && match reads s with Some f => mem f T || negb (mem f (readset r)) | None => true end && once T r
    end.
  Hypothesis ONCE : forall c cd, find_class E c = Some cd -> once (targets (c_enc cd)) (c_enc cd) = true.
  Hypothesis SETS : forall l f v, In (Sets l f v) ms -> scalar v /\ exists c fs, nth_error h l = Some (CObj c fs) /\ ~ In f (tg c).

  Lemma mem_in f l : mem f l = true <-> In f l.
  Proof. unfold mem. rewrite existsb_exists. split; [intros (x & I & Q); apply String.eqb_eq in Q; now subst|intros I; exists f; split; [exact I|apply String.eqb_refl]]. Qed.
  Lemma mem_out f l : mem f l = false <-> ~ In f l.
  Proof. rewrite <- mem_in. destruct (mem f l); split; congruence. Qed.

  (* the heap at some moment *)
  Definition drift (H : heap) : Prop := forall l, match nth_error h l with
    | Some (CObj c fs) => exists gs, nth_error H l = Some (CObj c gs) /\ map fst gs = map fst fs
        /\ (forall f, In f (map fst fs) -> ~ In f (tg c) -> held l f (hget f gs))
        /\ (forall f, In f (tg c) -> hget f gs = hget f fs \/ (l = root /\ exists z, hget f gs = HInt z))
    | o => nth_error H l = o
    end.
  Lemma drift0 : drift h.
  Proof. intros l. destruct (nth_error h l) as [[c fs|vs]|] eqn:Q; auto. exists fs. split; [auto|]. split; [auto|]. split; [|auto]. intros f _ _. left. unfold field. now rewrite Q. Qed.
  Lemma drift_elements H v : drift H -> elements H v = elements h v.
  Proof. intros D. destruct v as [| | | |l]; auto. cbn. specialize (D l). destruct (nth_error h l) as [[c fs|vs]|]; [destruct D as (gs & -> & _)|rewrite D|rewrite D]; reflexivity. Qed.
  Lemma hgot f g x (l : list (string * hval)) : hget g (hset f x l) = if String.eqb f g then (if mem f (map fst l) then x else HNull) else hget g l.
  Proof.
    induction l as [|[k v] l IH]; cbn; [now destruct (String.eqb f g)|]. destruct (String.eqb_spec f k) as [->|N]; cbn.
    - destruct (String.eqb_spec g k) as [->|N2]; [now rewrite String.eqb_refl|]. destruct (String.eqb_spec k g); [congruence|reflexivity].
    - rewrite IH. destruct (String.eqb_spec g k) as [->|N2]; [destruct (String.eqb_spec f k); [contradiction|reflexivity]|]. destruct (String.eqb f g); reflexivity.
  Qed.
  Lemma hnames f x (l : list (string * hval)) : map fst (hset f x l) = map fst l.
  Proof. induction l as [|[k v] l IH]; cbn; [auto|]. destruct (String.eqb f k); cbn; [auto|f_equal; exact IH]. Qed.
  Lemma drift_sets H l f x : drift H -> In (Sets l f x) ms -> drift (put_field H l f x).
  Proof.
    intros D I m. pose proof (D m) as Dm. destruct (PeanoNat.Nat.eq_dec m l) as [->|N].
    - destruct (SETS l f x I) as (_ & c & fs & Q & NT). rewrite Q in *. destruct Dm as (gs & Qg & Nm & A & B). exists (hset f x gs). split; [now apply put_at|]. split; [rewrite hnames; exact Nm|]. split.
      + intros g Ig Tg. rewrite hgot. destruct (String.eqb_spec f g) as [->|]; [|auto]. rewrite Nm. rewrite (proj2 (mem_in g _) Ig). right. exact I.
      + intros g Tg. rewrite hgot. destruct (String.eqb_spec f g) as [->|]; [contradiction|auto].
    - rewrite put_off by exact N. exact Dm.
  Qed.
  Lemma drift_own H f z c fs : drift H -> nth_error h root = Some (CObj c fs) -> In f (tg c) -> drift (put_field H root f (HInt z)).
  Proof.
    intros D Q T m. pose proof (D m) as Dm. destruct (PeanoNat.Nat.eq_dec m root) as [->|N].
    - rewrite Q in *. destruct Dm as (gs & Qg & Nm & A & B). exists (hset f (HInt z) gs). split; [now apply put_at|]. split; [rewrite hnames; exact Nm|]. split.
      + intros g Ig Tg. rewrite hgot. destruct (String.eqb_spec f g) as [->|]; [contradiction|auto].
      + intros g Tg. rewrite hgot. destruct (String.eqb_spec f g) as [->|]; [|auto]. destruct (mem g (map fst gs)) eqn:M; [right; eauto|]. left. rewrite hget_absent; [reflexivity|]. rewrite <- Nm. now apply mem_out.
    - rewrite put_off by exact N. exact Dm.
  Qed.

  (* what can be unfolded *)
  Definition seen (v : hval) : Prop := exists t, shows h v t.
  Lemma shows_torn : (forall v t, shows h v t -> torn v t) /\ (forall vs ts, shows_all h vs ts -> Forall2 torn vs ts).
  Proof.
    apply shows_ind2; intros; try (constructor; auto; fail).
    - eapply torn_list; eauto.
    - rename H into Q, H0 into N, H1 into S, H2 into F. eapply torn_obj; eauto. intros f I. exists (field h l f). split; [left; reflexivity|]. unfold field. rewrite Q. clear - N F I.
      revert gs N F. induction fs as [|[k a] fs IH]; intros [|[k' b] gs] N F; cbn in *; try discriminate; [destruct I|]. injection N as -> N. inversion F; subst. destruct (String.eqb_spec f k) as [->|NE]; [assumption|]. apply IH; auto. destruct I; [congruence|assumption].
  Qed.
  Lemma seen_torn v : seen v -> exists t, torn v t.
  Proof. intros (t & S). exists t. now apply shows_torn. Qed.
  Lemma seen_field l f c fs : seen (HRef l) -> nth_error h l = Some (CObj c fs) -> seen (hget f fs).
  Proof.
    intros (t & S) Q. inversion S as [| | | |? ? ? Q'|? c' fs' gs Q' N F]; subst; rewrite Q in Q'; [discriminate|]. injection Q' as <- <-. clear - N F. revert gs N F. induction fs as [|[k a] fs IH]; intros [|[k' b] gs] N F; cbn in *; try discriminate; [exists VNull; constructor|]. injection N as -> N.
    inversion F; subst. destruct (String.eqb f k); [eexists; eassumption|]. eapply IH; eauto.
  Qed.
  Lemma seen_elems l vs : seen (HRef l) -> nth_error h l = Some (CList vs) -> Forall seen vs.
  Proof.
    intros (t & S) Q. inversion S as [| | | |? ws ts Q' F|? c' fs' gs Q']; subst; rewrite Q in Q'; [|discriminate]. injection Q' as <-. clear - F. induction F; constructor; auto. eexists; eauto.
  Qed.
  (* the value of a field at any moment *)
  Lemma now_torn H l f : drift H -> seen (HRef l) -> exists t, torn (field H l f) t.
  Proof.
    intros D S. unfold field. specialize (D l). destruct (nth_error h l) as [[c fs|vs]|] eqn:Q; [|rewrite D; exists VNull; constructor|rewrite D; exists VNull; constructor]. destruct D as (gs & -> & Nm & A & B).
    destruct (in_dec String.string_dec f (map fst fs)) as [I|I]; [|rewrite hget_absent by (now rewrite Nm); exists VNull; constructor].
    destruct (in_dec String.string_dec f (tg c)) as [T|T].
    - destruct (B f T) as [->|(_ & z & ->)]; [apply seen_torn; eapply seen_field; eauto|eexists; constructor].
    - destruct (A f I T) as [->|I2]; [unfold field; rewrite Q; apply seen_torn; eapply seen_field; eauto|]. apply SETS in I2. destruct I2 as [SC _]. destruct (hget f gs); [exists VNull|eexists|eexists|eexists|destruct SC]; constructor.
  Qed.
  Lemma torn_kind v t : torn v t -> match v with HNull => t = VNull | HInt z => t = VInt z | HFlt z => t = VFlt z | HStr s => t = VStr s
    | HRef l => (exists vs ts, nth_error h l = Some (CList vs) /\ t = VList ts /\ Forall2 torn vs ts) \/ exists c fs gs, nth_error h l = Some (CObj c fs) /\ t = VObj c gs end.
  Proof. intros T. inversion T; subst; auto; [left|right]; repeat eexists; eauto. Qed.

  (* ---- the stack, with trees in place of references ---- *)
  Inductive titem := TBody (gs : list (string * val)) (ss : list estmt) (loc : list (string * nat)) | TLoop (x : eelem) (ts : list val).
  Fixpoint finish (k : list titem) (d : nat) (b : bytebuf) : option exn * bytebuf :=
    match k with
    | [] => (None, b)
    | TBody gs ss loc :: k' => match exec_enc (encode E d) sums ss (gs, loc, b) with (None, (_, _, b')) => finish k' (S d) b' | (Some e, (_, _, b')) => (Some e, b') end
    | TLoop x ts :: k' => match enc_elems (encode E d) x ts b with (None, _, b') => finish k' d b' | (Some e, _, b') => (Some e, b') end
    end.
  Definition suits (H : heap) (l : nat) (c : string) (fs : list (string * hval)) (gs : list (string * val)) : Prop :=
    map fst gs = map fst fs /\ forall f, In f (map fst fs) -> (In f (tg c) -> torn (field H l f) (get f gs)) /\ (~ In f (tg c) -> exists v, held l f v /\ torn v (get f gs)).
  Definition suffix (ss all : list estmt) : Prop := exists pre, all = pre ++ ss.
  Definition like (H : heap) (i : item) (j : titem) : Prop :=
    match i, j with
    | Body l ss loc, TBody gs ss' loc' => ss' = ss /\ loc' = loc /\ exists c fs, nth_error h l = Some (CObj c fs) /\ suits H l c fs gs
    | Loop x vs, TLoop y ts => y = x /\ Forall2 torn vs ts
    | _, _ => False
    end.
  (* an item of the stack: bottom is the body of the root *)
  Definition bare (c : string) : Prop := tg c = [].
  Definition calmly (v : hval) : Prop := seen v /\ forall l c fs, reach h v l -> nth_error h l = Some (CObj c fs) -> bare c.
  Definition right_item (i : item) : Prop :=
    match i with
    | Body l ss loc => seen (HRef l) /\ exists c fs cd, nth_error h l = Some (CObj c fs) /\ find_class E c = Some cd /\ suffix ss (c_enc cd) /\ (forall f, calmly (hget f fs)) /\ (l = root \/ bare c)
    | Loop x vs => Forall calmly vs
    end.
  Lemma choose (P : string -> val -> Prop) : forall ns, (forall f, In f ns -> exists t, P f t) -> exists gs, map fst gs = ns /\ forall f, In f ns -> P f (get f gs).
  Proof.
    induction ns as [|f ns IH]; intros A; [exists []; split; [auto|intros f []]|]. destruct (A f (or_introl eq_refl)) as (t & Pt). destruct IH as (gs & N & B); [intros g I; apply A; now right|]. exists ((f, t) :: gs). split; [cbn; now f_equal|].
    intros g I. cbn. destruct (String.eqb_spec g f) as [->|NE]; [exact Pt|]. destruct I; [congruence|auto].
  Qed.
  Lemma some_like H i : drift H -> right_item i -> exists j, like H i j.
  Proof.
    intros D. destruct i as [l ss loc|x vs]; intros R.
    - destruct R as (S & c & fs & cd & Q & _). destruct (choose (fun f t => (In f (tg c) -> torn (field H l f) t) /\ (~ In f (tg c) -> exists v, held l f v /\ torn v t)) (map fst fs)) as (gs & N & A).
      + intros f I. destruct (now_torn H l f D S) as (t & T). destruct (seen_torn _ (seen_field l f c fs S Q)) as (t0 & T0). destruct (in_dec String.string_dec f (tg c)) as [G|G]; [exists t; tauto|exists t0]. split; [tauto|]. intros _. exists (hget f fs). split; [left; unfold field; now rewrite Q|exact T0].
      + exists (TBody gs ss loc). cbn. split; [auto|]. split; [auto|]. exists c, fs. split; [exact Q|]. split; auto.
    - assert (X : exists ts, Forall2 torn vs ts) by (cbn in R; clear - R; induction R as [|v vs [S _] _ (ts & IH)]; [exists []; constructor|]; destruct (seen_torn v S) as (t & T); exists (t :: ts); constructor; auto). destruct X as (ts & F). exists (TLoop x ts). split; auto.
  Qed.
  Lemma all_like H k : drift H -> Forall right_item k -> exists ks, Forall2 (like H) k ks.
  Proof. intros D. induction 1 as [|i k R _ (ks & IH)]; [exists []; constructor|]. destruct (some_like H i D R) as (j & L). exists (j :: ks). constructor; auto. Qed.
  Lemma like_same H H' i j : (forall l c fs f, nth_error h l = Some (CObj c fs) -> In f (tg c) -> field H' l f = field H l f) -> like H' i j -> like H i j.
  Proof.
    intros S. destruct i, j; cbn; auto. intros (A & B & c & fs & Q & N & F). split; [auto|]. split; [auto|]. exists c, fs. split; [exact Q|]. split; [exact N|]. intros f I. destruct (F f I) as [F1 F2]. split; [|exact F2]. intros T. rewrite <- (S this c fs f Q T). auto.
  Qed.

  Definition inner (i : item) : Prop := match i with Body l _ _ => forall c fs, nth_error h l = Some (CObj c fs) -> bare c | Loop _ _ => True end.
  Inductive right_stack : list item -> Prop :=
  | rs_nil : right_stack []
  | rs_one i : right_item i -> right_stack [i]
  | rs_cons i k : right_item i -> inner i -> right_stack k -> right_stack (i :: k).
  Lemma rs_all k : right_stack k -> Forall right_item k.
  Proof. induction 1; repeat constructor; auto. Qed.
  Lemma rs_tail i k : right_stack (i :: k) -> right_item i /\ right_stack k.
  Proof. intros R. inversion R; subst; split; auto; constructor. Qed.
  Lemma rs_swap i j k : right_stack (i :: k) -> right_item j -> (inner i -> inner j) -> right_stack (j :: k).
  Proof. intros R J N. inversion R; subst; [now constructor|constructor; auto]. Qed.

  (* the thread after a step, and how it ends *)
  Definition good (H : heap) (t : encoder) (r : option exn * bytebuf) : Prop :=
    (ended t = Some (fst r) /\ out t = snd r) \/ (ended t = None /\ exists ks, Forall2 (like H) (stack t) ks /\ finish ks (room t) (out t) = r).
  Definition fresh (H : heap) (v : hval) : Prop := forall l c fs f, v = HRef l -> nth_error h l = Some (CObj c fs) -> In f (tg c) -> field H l f = field h l f.
  Lemma suits_torn H l c fs gs : nth_error h l = Some (CObj c fs) -> fresh H (HRef l) -> suits H l c fs gs -> torn (HRef l) (VObj c gs).
  Proof.
    intros Q FR (N & F). eapply torn_obj; eauto. intros f I. destruct (F f I) as [F1 F2]. destruct (in_dec String.string_dec f (tg c)) as [T|T]; [|auto]. exists (field H l f). split; [left; eapply FR; eauto|auto].
  Qed.
  Definition after (r1 : option exn * val * bytebuf) (k : list titem) (d : nat) : option exn * bytebuf := match r1 with (None, _, b) => finish k d b | (Some e, _, b) => (Some e, b) end.
  Lemma back_enter H v k t r : drift H -> seen v -> fresh H v -> Forall right_item k -> good H (enter E H v k t) r ->
    exists tv ks, torn v tv /\ Forall2 (like H) k ks /\ after (encode E (room t) tv (out t)) ks (room t) = r.
  Proof.
    intros D S FR RK G.
    assert (STOP : forall e, enter E H v k t = {| stack := []; room := room t; out := out t; ended := Some (Some e) |} -> (forall tv, torn v tv -> encode E (room t) tv (out t) = (Some e, tv, out t)) ->
      exists tv ks, torn v tv /\ Forall2 (like H) k ks /\ after (encode E (room t) tv (out t)) ks (room t) = r).
    { intros e Q A. rewrite Q in G. destruct (seen_torn v S) as (tv & T). destruct (all_like H k D RK) as (ks & L). exists tv, ks. split; [exact T|]. split; [exact L|]. rewrite (A tv T). destruct G as [[G1 G2]|[G1 _]]; [|discriminate]. cbn in G1, G2 |- *. injection G1 as G1. destruct r as [r1 r2]. cbn in *. congruence. }
    unfold enter in *. destruct v as [|z|z|s|l].
    - apply (STOP NPE); [reflexivity|]. intros tv T. apply torn_kind in T. subst tv. destruct (room t); reflexivity.
    - destruct (room t) as [|d] eqn:RM; [apply (STOP SOE)|apply (STOP TYPE)]; rewrite ?RM; try reflexivity; intros tv T; apply torn_kind in T; subst tv; reflexivity.
    - destruct (room t) as [|d] eqn:RM; [apply (STOP SOE)|apply (STOP TYPE)]; rewrite ?RM; try reflexivity; intros tv T; apply torn_kind in T; subst tv; reflexivity.
    - destruct (room t) as [|d] eqn:RM; [apply (STOP SOE)|apply (STOP TYPE)]; rewrite ?RM; try reflexivity; intros tv T; apply torn_kind in T; subst tv; reflexivity.
    - destruct (room t) as [|d] eqn:RM.
      + apply (STOP SOE); [rewrite ?RM; reflexivity|]. intros tv T. apply torn_kind in T. destruct T as [(vs & ts & _ & -> & _)|(c & fs & gs & _ & ->)]; reflexivity.
      + pose proof (D l) as Dl. destruct (nth_error h l) as [[c fs|vs]|] eqn:Q.
        * destruct Dl as (gs & QH & _). rewrite QH in *. destruct (find_class E c) as [cd|] eqn:K.
          -- destruct G as [[G _]|(_ & ks & L & F)]; [discriminate|]. cbn [stack room out] in L, F. inversion L as [|i j k' ks' L1 L2]; subst. destruct j as [gs1 ss loc|]; [|destruct L1]. destruct L1 as (-> & -> & c1 & fs1 & Q1 & SU). rewrite Q in Q1. injection Q1 as <- <-.
             exists (VObj c gs1), ks'. split; [eapply suits_torn; eauto|]. split; [exact L2|]. cbn [encode]. rewrite K. cbn [finish]. destruct (exec_enc (encode E d) sums (c_enc cd) (gs1, [], out t)) as [[e|] [[fs2 loc2] b2]]; reflexivity.
          -- apply (STOP TYPE); [rewrite ?RM; reflexivity|]. intros tv T. apply torn_kind in T. rewrite Q in T. destruct T as [(vs & ts & Q2 & _)|(c2 & fs2 & gs2 & Q2 & ->)]; [discriminate|]. injection Q2 as <- <-. cbn [encode]. rewrite K. reflexivity.
        * rewrite Dl in *. apply (STOP TYPE); [rewrite ?RM; reflexivity|]. intros tv T. apply torn_kind in T. rewrite Q in T. destruct T as [(vs' & ts & _ & -> & _)|(c2 & fs2 & gs2 & Q2 & _)]; [reflexivity|discriminate].
        * rewrite Dl in *. apply (STOP TYPE); [rewrite ?RM; reflexivity|]. intros tv T. apply torn_kind in T. rewrite Q in T. destruct T as [(vs' & ts & Q2 & _)|(c2 & fs2 & gs2 & Q2 & _)]; discriminate.
  Qed.

  (* statements without calls *)
  Definition leaf (s : estmt) : bool := match s with EObj _ | EObjOpt _ | EList _ _ _ _ _ _ _ => false | _ => true end.
  Lemma leaf_agrees enc henc H l s gs loc b : leaf s = true -> assigner s = false -> (forall f, reads s = Some f -> torn (field H l f) (get f gs)) ->
    exists e loc' b', hexec_estmt henc sums l s (H, loc, b) = (e, (H, loc', b')) /\ exec_estmt enc sums s (gs, loc, b) = (e, (gs, loc', b')).
  Proof.
    intros LF NA T. destruct s as [n o f|n o f|f len pad lft|f zn zo n o|f zn zo ct n o x|f|f|y|n o|f y z|n o y f|a f]; try discriminate; cbn [hexec_estmt exec_estmt].
    - specialize (T f eq_refl). apply torn_kind in T. destruct (field H l f) as [|z|z|u|m]; try (rewrite T); eauto; [destruct (write_int o n z b); eauto|]. destruct T as [(vs & ts & _ & -> & _)|(c & fs & g & _ & ->)]; eauto.
    - specialize (T f eq_refl). apply torn_kind in T. destruct (field H l f) as [|z|z|u|m]; try (rewrite T); eauto; [destruct (write_int o n z b); eauto|]. destruct T as [(vs & ts & _ & -> & _)|(c & fs & g & _ & ->)]; eauto.
    - specialize (T f eq_refl). apply torn_kind in T. destruct (field H l f) as [|z|z|u|m]; try (rewrite T); cbn [hstring_of string_of]; eauto; [destruct (write_fixed None len pad lft b); eauto|destruct (write_fixed (Some u) len pad lft b); eauto|]. destruct T as [(vs & ts & _ & -> & _)|(c & fs & g & _ & ->)]; cbn [string_of]; eauto.
    - specialize (T f eq_refl). apply torn_kind in T. destruct (field H l f) as [|z|z|u|m]; try (rewrite T); cbn [hstring_of string_of]; eauto; [destruct (write_dyn None zn zo n o b); eauto|destruct (write_dyn (Some u) zn zo n o b); eauto|]. destruct T as [(vs & ts & _ & -> & _)|(c & fs & g & _ & ->)]; cbn [string_of]; eauto.
    - eauto.
    - destruct (write_int o n 0 b); eauto.
    - specialize (T f eq_refl). apply torn_kind in T. destruct (assoc y loc) as [i|]; eauto. destruct (field H l f) as [|z|z|u|m]; try (rewrite T); eauto; [destruct (set_int o n i z b); eauto|]. destruct T as [(vs & ts & _ & -> & _)|(c & fs & g & _ & ->)]; eauto.
  Qed.
  Lemma suits_set H l c fs gs f t : suits H l c fs gs -> (In f (map fst fs) -> ~ In f (tg c) /\ exists v, held l f v /\ torn v t) -> suits H l c fs (set f t gs).
  Proof.
    intros (N & F) A. split; [now rewrite set_names|]. intros g I. destruct (String.eqb_spec f g) as [->|NE]; [|rewrite get_other by exact NE; auto]. rewrite get_same by (now rewrite N). destruct (A I) as (T & v & Hv & Tv). split; [contradiction|]. intros _. eauto.
  Qed.
  (* any other field of this now has a tree that may be used for it *)
  Lemma suits_now H l c fs gs f t : drift H -> nth_error h l = Some (CObj c fs) -> suits H l c fs gs -> ~ In f (tg c) -> torn (field H l f) t -> suits H l c fs (set f t gs) /\ torn (field H l f) (get f (set f t gs)).
  Proof.
    intros D Q SU NT T. pose proof (D l) as Dl. rewrite Q in Dl. destruct Dl as (gs' & QH & Nm & A & _). split.
    - apply suits_set; [exact SU|]. intros I. split; [exact NT|]. exists (field H l f). split; [|exact T]. unfold field. rewrite QH. auto.
    - destruct (in_dec String.string_dec f (map fst fs)) as [I|I]; [rewrite get_same; [exact T|]; now rewrite (proj1 SU)|]. rewrite set_absent, get_absent by (now rewrite (proj1 SU)). unfold field. rewrite QH. rewrite hget_absent by (now rewrite Nm). constructor.
  Qed.
  Lemma suits_reads H l c fs gs f : drift H -> nth_error h l = Some (CObj c fs) -> suits H l c fs gs -> In f (tg c) -> torn (field H l f) (get f gs).
  Proof.
    intros D Q (N & F) T. destruct (in_dec String.string_dec f (map fst fs)) as [I|I]; [apply (F f I), T|]. rewrite get_absent by (now rewrite N). pose proof (D l) as Dl. rewrite Q in Dl. destruct Dl as (gs' & QH & Nm & _). unfold field. rewrite QH. rewrite hget_absent by (now rewrite Nm). constructor.
  Qed.

  Lemma finish_same gs hs ss loc k d b : map fst gs = map fst hs -> (forall f, In f (readset ss) -> get f gs = get f hs) -> finish (TBody gs ss loc :: k) d b = finish (TBody hs ss loc :: k) d b.
  Proof.
    intros N A. cbn [finish]. destruct (same_exec (encode E d) sums ss gs hs loc b N A) as [S1 S2]. destruct (exec_enc _ _ ss (gs, loc, b)) as [e1 [[g1 l1] b1]]. destruct (exec_enc _ _ ss (hs, loc, b)) as [e2 [[g2 l2] b2]]. cbn in S1, S2. subst. reflexivity.
  Qed.
  Lemma finish_next gs s r loc k d b : finish (TBody gs (s :: r) loc :: k) d b = match exec_estmt (encode E d) sums s (gs, loc, b) with (None, (gs1, loc1, b1)) => finish (TBody gs1 r loc1 :: k) d b1 | (Some e, (_, _, b1)) => (Some e, b1) end.
  Proof. cbn [finish exec_enc]. destruct (exec_estmt _ _ s (gs, loc, b)) as [[e|] [[g l] b1]]; reflexivity. Qed.
  Lemma finish_elem x v ts k d b : finish (TLoop x (v :: ts) :: k) d b = match enc_elem (encode E d) x v b with (None, _, b1) => finish (TLoop x ts :: k) d b1 | (Some e, _, b1) => (Some e, b1) end.
  Proof. cbn [finish enc_elems]. destruct (enc_elem _ x v b) as [[[e|] v'] b1]; [reflexivity|]. destruct (enc_elems _ x ts b1) as [[e l'] b2]. reflexivity. Qed.

  Lemma calmly_scalar v : scalar v -> calmly v.
  Proof. intros S. split; [destruct v; [exists VNull|eexists|eexists|eexists|destruct S]; constructor|]. intros l c fs R. destruct v; [inversion R..|destruct S]. Qed.
  Lemma calmly_part l c fs f : calmly (HRef l) -> nth_error h l = Some (CObj c fs) -> calmly (hget f fs).
  Proof.
    intros [S A] Q. split; [eapply seen_field; eauto|]. intros m d gs R. destruct (in_dec String.string_dec f (map fst fs)) as [I|I]; [|rewrite hget_absent in R by exact I; inversion R]. apply A.
    assert (X : In (f, hget f fs) fs). { clear - I. induction fs as [|[k v] fs IH]; cbn in *; [destruct I|]. destruct (String.eqb_spec f k) as [->|NE]; [now left|right; apply IH; destruct I; [congruence|assumption]]. }
    eapply reach_field; eauto.
  Qed.
  Lemma calmly_elems v vs : calmly v -> elements h v = Some vs -> Forall calmly vs.
  Proof.
    intros [S A] Q. destruct v as [| | | |l]; try discriminate. cbn in Q. destruct (nth_error h l) as [[|ws]|] eqn:Ql; try discriminate. injection Q as ->. pose proof (seen_elems l vs S Ql) as F. apply Forall_forall. intros x I. split; [rewrite Forall_forall in F; auto|]. intros m c fs R. apply A. eapply reach_elem; eauto.
  Qed.
  Lemma now_calm H l f ss loc c fs : drift H -> right_item (Body l ss loc) -> nth_error h l = Some (CObj c fs) -> ~ In f (tg c) -> calmly (field H l f).
  Proof.
    intros D (S & c' & fs' & cd & Q' & _ & _ & CA & _) Q NT. rewrite Q in Q'. injection Q' as <- <-. pose proof (D l) as Dl. rewrite Q in Dl. destruct Dl as (gs & QH & Nm & A & _). unfold field. rewrite QH.
    destruct (in_dec String.string_dec f (map fst fs)) as [I|I]; [|rewrite hget_absent by (now rewrite Nm); apply calmly_scalar; exact Logic.I]. destruct (A f I NT) as [->|I2]; [unfold field; rewrite Q; apply CA|]. apply SETS in I2. apply calmly_scalar, I2.
  Qed.
  Lemma calmly_fresh H v : drift H -> calmly v -> fresh H v.
  Proof. intros D [S A] l c fs f -> Q T. rewrite (A l c fs) in T; [destruct T|constructor|exact Q]. Qed.
  Lemma enter_right H v k t : drift H -> calmly v -> right_stack k -> right_stack (stack (enter E H v k t)).
  Proof.
    intros D C R. unfold enter. destruct v as [|z|z|s|l]; destruct (room t); try constructor. pose proof (D l) as Dl. destruct (nth_error h l) as [[c fs|vs]|] eqn:Q; [|rewrite Dl; constructor|rewrite Dl; constructor]. destruct Dl as (gs & -> & _). destruct (find_class E c) as [cd|] eqn:K; [|constructor]. cbn [stack].
    assert (B : bare c) by (apply (proj2 C l c fs); [constructor|exact Q]). constructor; [|intros c' fs' Q'; rewrite Q in Q'; injection Q' as <- <-; exact B|exact R]. split; [apply C|]. exists c, fs, cd. split; [exact Q|]. split; [exact K|]. split; [exists []; reflexivity|]. split; [|now right]. intros f. eapply calmly_part; eauto.
  Qed.
  Lemma next_item l s r loc loc' : right_item (Body l (s :: r) loc) -> right_item (Body l r loc').
  Proof. intros (S & c & fs & cd & Q & K & (pre & P) & CA & B). split; [exact S|]. exists c, fs, cd. split; [exact Q|]. split; [exact K|]. split; [exists (pre ++ [s]); now rewrite <- app_assoc|]. auto. Qed.
  Lemma once_at T ss r : once T ss = true -> suffix r ss -> once T r = true.
  Proof. intros O (pre & ->). induction pre as [|s pre IH]; [exact O|]. apply IH. cbn [app once] in O. rewrite !andb_true_iff in O. tauto. Qed.
  Lemma target_in s r pre f : target s = Some f -> In f (targets (pre ++ s :: r)).
  Proof. intros T. induction pre as [|a pre IH]; cbn [app targets]; [rewrite T; now left|]. destruct (target a); [now right|exact IH]. Qed.
  Lemma step_fwd H t H1 t1 : drift H -> right_stack (stack t) -> encoder_step E H t = (H1, t1) -> drift H1 /\ right_stack (stack t1).
  Proof.
    intros D R X. unfold encoder_step in X. destruct (ended t) as [e|] eqn:EN; [injection X as <- <-; auto|]. destruct (stack t) as [|[l [|s ss] loc|x [|v vs]] k] eqn:ST.
    - injection X as <- <-. auto.
    - injection X as <- <-. split; [exact D|]. cbn. apply (rs_tail _ _ R).
    - destruct (rs_tail _ _ R) as [RI RK]. pose proof RI as (S & c & fs & cd & Q & K & SF & CA & RB). pose proof (once_at _ _ _ (ONCE c cd K) SF) as ON. cbn [once] in ON. rewrite !andb_true_iff in ON. destruct ON as [[ON1 _] _].
      assert (RN : forall loc', right_stack (Body l ss loc' :: k)) by (intros loc'; eapply rs_swap; [exact R|eapply next_item; exact RI|auto]).
      assert (GO : forall loc' e b, right_stack (stack (goes_on (Body l ss loc' :: k) (room t) e b))) by (intros loc' [e|] b; [constructor|apply RN]).
      assert (NTG : forall f, negb (mem f (targets (c_enc cd))) = true -> ~ In f (tg c)) by (intros f N; apply negb_true_iff in N; apply mem_out in N; unfold tg; now rewrite K).
      destruct s as [n o f|n o f|f len pad lft|f zn zo n o|f zn zo ct n o x|f|f|y|n o|f y z|n o y f|a f].
      5: { pose proof (now_calm H l f _ _ c fs D RI Q (NTG f ON1)) as CF. destruct (field H l f) as [|z|z|u|m] eqn:F; try (destruct (write_int zo zn 0 (out t)) as [e b]; injection X as <- <-; (split; [exact D|first [apply GO|constructor|apply RN]])); try (cbn [elements] in X; injection X as <- <-; (split; [exact D|first [apply GO|constructor|apply RN]])).
           rewrite (drift_elements H _ D) in X. destruct (elements h (HRef m)) as [[|v vs]|] eqn:EL; [destruct (write_int zo zn 0 (out t)) as [e b]; injection X as <- <-; (split; [exact D|first [apply GO|constructor|apply RN]])| |injection X as <- <-; (split; [exact D|first [apply GO|constructor|apply RN]])].
           destruct (write_int o n _ (out t)) as [[e|] b]; injection X as <- <-; (split; [exact D|]); cbn; [constructor|]. constructor; [|exact Logic.I|apply RN]. cbn. eapply calmly_elems; eauto. }
      5: { injection X as <- <-. split; [exact D|]. apply enter_right; auto. eapply now_calm; eauto. }
      5: { pose proof (now_calm H l f _ _ c fs D RI Q (NTG f ON1)) as CF. destruct (field H l f) as [|z|z|u|m] eqn:F; apply pair_equal_spec in X; destruct X as [<- <-]; (split; [exact D|]); [apply RN|apply enter_right; auto..]. }
      all: destruct (hexec_estmt no_call sums l _ (H, loc, out t)) as [e [[g loc'] b]] eqn:HX in X; injection X as <- <-; split; [|apply GO].
      all: cbn [hexec_estmt] in HX; repeat match type of HX with context [match ?y with _ => _ end] => destruct y end; injection HX as <- <- <- <-; try exact D.
      all: destruct SF as (pre & SF); destruct RB as [->|B]; [eapply drift_own; eauto; unfold tg; rewrite K, SF; apply target_in; reflexivity|exfalso; unfold bare, tg in B; rewrite K, SF in B].
      + pose proof (target_in (EDiff f y z) ss pre f eq_refl) as I. rewrite B in I. destruct I.
      + pose proof (target_in (ESum a f) ss pre f eq_refl) as I. rewrite B in I. destruct I.
    - injection X as <- <-. split; [exact D|]. cbn. apply (rs_tail _ _ R).
    - destruct (rs_tail _ _ R) as [RI RK]. cbn in RI. inversion RI as [|? ? C1 C2]; subst. assert (RN : right_stack (Loop x vs :: k)) by (eapply rs_swap; [exact R|exact C2|auto]).
      assert (ELEM : (let '(e, g, b) := henc_elem no_call x H v (out t) in (g, goes_on (Loop x vs :: k) (room t) e b)) = (H1, t1) -> drift H1 /\ right_stack (stack t1)).
      { intros Z. destruct (henc_elem no_call x H v (out t)) as [[e g] b] eqn:HX. injection Z as <- <-. assert (g = H) by (destruct x; cbn in HX; unfold no_call in HX; repeat match type of HX with context [match ?y with _ => _ end] => destruct y end; injection HX as <- <- <-; reflexivity). subst g. split; [exact D|]. destruct e; [constructor|exact RN]. }
      destruct x; [apply ELEM, X..|]. injection X as <- <-. split; [exact D|]. apply enter_right; auto.
  Qed.

  (* from the end to the beginning: one step back *)
  Lemma good_goes H k d e b r : good H (goes_on k d e b) r -> drift H -> Forall right_item k ->
    exists ks, Forall2 (like H) k ks /\ match e with Some x => r = (Some x, b) | None => finish ks d b = r end.
  Proof.
    intros G D R. destruct e as [x|].
    - destruct (all_like H k D R) as (ks & L). exists ks. split; [exact L|]. destruct G as [[G1 G2]|[G1 _]]; [|discriminate]. cbn in G1, G2. injection G1 as G1. destruct r; cbn in *; congruence.
    - destruct G as [[G1 _]|(_ & ks & L & F)]; [discriminate|]. exists ks. auto.
  Qed.
  Lemma readset_off T s r f : once T (s :: r) = true -> reads s = Some f -> ~ In f T -> ~ In f (readset r).
  Proof. cbn [once]. rewrite !andb_true_iff. intros [[_ O] _] RD N. rewrite RD in O. apply orb_true_iff in O. destruct O as [O|O]; [apply mem_in in O; contradiction|]. apply negb_true_iff in O. now apply mem_out. Qed.
  Lemma back_step H t H1 t1 r : drift H -> right_stack (stack t) -> ended t = None -> encoder_step E H t = (H1, t1) -> good H1 t1 r -> exists ks, Forall2 (like H) (stack t) ks /\ finish ks (room t) (out t) = r.
  Proof.
    destruct r as [re rb]. intros D R EN X G. pose proof (step_fwd H t H1 t1 D R X) as [D1 R1]. unfold encoder_step in X. rewrite EN in X. destruct (stack t) as [|[l [|s ss] loc|x [|v vs]] k] eqn:ST.
    - injection X as <- <-. exists []. split; [constructor|]. destruct G as [[G1 G2]|[G1 _]]; [|discriminate]. cbn in G1, G2 |- *. injection G1 as G1. cbn in *; congruence.
    - injection X as <- <-. destruct (rs_tail _ _ R) as [RI RK]. destruct G as [[G1 _]|(_ & ks & L & F)]; [discriminate|]. cbn [stack room out] in L, F. destruct (some_like H _ D RI) as (j & LJ). exists (j :: ks). split; [constructor; auto|]. destruct j as [gs ss loc'|]; [|destruct LJ]. destruct LJ as (-> & -> & _). cbn [finish exec_enc]. exact F.
    - destruct (rs_tail _ _ R) as [RI RK]. pose proof RI as (S & c & fs & cd & Q & K & SF & CA & RB). pose proof (once_at _ _ _ (ONCE c cd K) SF) as ON. pose proof ON as ON'. cbn [once] in ON'. rewrite !andb_true_iff in ON'. destruct ON' as [[ON1 _] _].
      assert (RN : forall loc', Forall right_item (Body l ss loc' :: k)) by (intros loc'; apply rs_all; eapply rs_swap; [exact R|eapply next_item; exact RI|auto]).
      assert (TQ : targets (c_enc cd) = tg c) by (unfold tg; now rewrite K). rewrite TQ in ON, ON1.
      assert (NTG : forall f, negb (mem f (tg c)) = true -> ~ In f (tg c)) by (intros f N; apply negb_true_iff in N; now apply mem_out in N).
      (* a tree for this, given one for what is left to do *)
      assert (NOW : forall f gs, suits H l c fs gs -> ~ In f (tg c) -> ~ In f (readset ss) -> forall t, torn (field H l f) t ->
        like H (Body l (s :: ss) loc) (TBody (set f t gs) (s :: ss) loc) /\ torn (field H l f) (get f (set f t gs)) /\ forall loc' y k' d b, finish (TBody (set f y (set f t gs)) ss loc' :: k') d b = finish (TBody gs ss loc' :: k') d b).
      { intros f gs SU NT NR t0 T0. destruct (suits_now H l c fs gs f t0 D Q SU NT T0) as [SU2 T2]. split; [split; [auto|]; split; [auto|]; exists c, fs; auto|]. split; [exact T2|]. intros loc' y k' d b. apply finish_same; [now rewrite !set_names|]. intros g I. rewrite set_twice. apply get_other. congruence. }
      assert (PLAIN : leaf s = true -> assigner s = false -> (let '(e, (g, loc', b)) := hexec_estmt no_call sums l s (H, loc, out t) in (g, goes_on (Body l ss loc' :: k) (room t) e b)) = (H1, t1) ->
        exists ks, Forall2 (like H) (Body l (s :: ss) loc :: k) ks /\ finish ks (room t) (out t) = (re, rb)).
      { intros LF NA Z. destruct (hexec_estmt no_call sums l s (H, loc, out t)) as [e [[g loc'] b]] eqn:HX. apply pair_equal_spec in Z. destruct Z as [-> <-].
        assert (H1 = H) by (clear - HX LF NA; destruct s; try discriminate; cbn [hexec_estmt] in HX; repeat match type of HX with context [match ?y with _ => _ end] => destruct y end; injection HX as <- <- <- <-; reflexivity). subst H1.
        destruct (good_goes H _ _ _ _ _ G D (RN loc')) as (ks & L & F). inversion L as [|i j k' ks' L1 L2]; subst. destruct j as [gs ss' loc''|]; [|destruct L1]. destruct L1 as (-> & -> & c1 & fs1 & Q1 & SU). rewrite Q in Q1. injection Q1 as <- <-.
        assert (Y : exists gs2, like H (Body l (s :: ss) loc) (TBody gs2 (s :: ss) loc) /\ (forall f, reads s = Some f -> torn (field H l f) (get f gs2)) /\ forall loc' k' d b, finish (TBody gs2 ss loc' :: k') d b = finish (TBody gs ss loc' :: k') d b).
        { assert (KEEP : (forall f, reads s = Some f -> In f (tg c)) -> exists gs2, like H (Body l (s :: ss) loc) (TBody gs2 (s :: ss) loc) /\ (forall f, reads s = Some f -> torn (field H l f) (get f gs2)) /\ forall loc' k' d b, finish (TBody gs2 ss loc' :: k') d b = finish (TBody gs ss loc' :: k') d b).
          { intros IT. exists gs. split; [split; [auto|]; split; [auto|]; exists c, fs; auto|]. split; [|reflexivity]. intros f RD. eapply suits_reads; eauto. }
          destruct (reads s) as [f|] eqn:RD; [|apply KEEP; discriminate]. destruct (in_dec String.string_dec f (tg c)) as [T|T]; [apply KEEP; intros f' [= <-]; exact T|].
          destruct (now_torn H l f D S) as (t0 & T0). destruct (NOW f gs SU T (readset_off _ _ _ _ ON RD T) t0 T0) as (A1 & A2 & A3). exists (set f t0 gs). split; [exact A1|]. split; [intros f' [= <-]; exact A2|]. intros loc2 k2 d2 b2. rewrite <- (A3 loc2 t0 k2 d2 b2). now rewrite set_twice. }
        destruct Y as (gs2 & LK & RDS & FS). exists (TBody gs2 (s :: ss) loc :: ks'). split; [constructor; auto|]. rewrite finish_next. destruct (leaf_agrees (encode E (room t)) no_call H l s gs2 loc (out t) LF NA RDS) as (e2 & l2 & b2 & Q2 & ->). rewrite HX in Q2. injection Q2 as <- <- <-. destruct e as [e|]; [congruence|]. rewrite FS. exact F. }
      assert (ASSIGN : forall f z b1, target s = Some f -> (forall gs, exec_estmt (encode E (room t)) sums s (gs, loc, out t) = (None, (set f (VInt z) gs, loc, b1))) -> (put_field H l f (HInt z), goes_on (Body l ss loc :: k) (room t) None b1) = (H1, t1) ->
        exists ks, Forall2 (like H) (Body l (s :: ss) loc :: k) ks /\ finish ks (room t) (out t) = (re, rb)).
      { intros f z b1 TF EX Z. apply pair_equal_spec in Z. destruct Z as [<- <-]. assert (IT : In f (tg c)) by (unfold tg; rewrite K; destruct SF as (pre & ->); now apply target_in).
        assert (k = []) by (inversion R as [|? ?|? ? ? IN ?]; subst; [reflexivity|]; exfalso; specialize (IN c fs Q); unfold bare in IN; rewrite IN in IT; destruct IT). subst k.
        destruct (good_goes _ _ _ _ _ _ G D1 (RN loc)) as (ks & L & F). inversion L as [|i j k' ks' L1 L2]; subst. destruct j as [gs ss' loc''|]; [|destruct L1]. destruct L1 as (-> & -> & c1 & fs1 & Q1 & SU). rewrite Q in Q1. injection Q1 as <- <-. inversion L2; subst.
        pose proof (D l) as Dl. rewrite Q in Dl. destruct Dl as (hs & QH & Nm & A & B). destruct SU as (N & SU). assert (FH : forall g, field (put_field H l f (HInt z)) l g = if String.eqb f g then (if mem f (map fst fs) then HInt z else HNull) else field H l g) by (intros g; unfold field; rewrite (put_at H l f (HInt z) c hs QH), QH, hgot, Nm; reflexivity).
        destruct (now_torn H l f D S) as (t0 & T0). exists [TBody (set f t0 gs) (s :: ss) loc]. split.
        - constructor; [|constructor]. split; [auto|]. split; [auto|]. exists c, fs. split; [exact Q|]. split; [now rewrite set_names|]. intros g I. destruct (SU g I) as [S1 S2]. destruct (String.eqb_spec f g) as [->|NE]; [rewrite get_same by (now rewrite N); tauto|]. rewrite get_other by exact NE. split; [|exact S2]. intros T. specialize (S1 T). rewrite FH in S1. destruct (String.eqb_spec f g); [contradiction|exact S1].
        - rewrite finish_next, EX, set_twice. replace (set f (VInt z) gs) with gs; [exact F|]. destruct (in_dec String.string_dec f (map fst fs)) as [I|I]; [|rewrite set_absent; [reflexivity|now rewrite N]]. destruct (SU f I) as [S1 _]. specialize (S1 IT). rewrite FH, String.eqb_refl, (proj2 (mem_in f _) I) in S1. apply torn_kind in S1. cbn in S1. rewrite <- S1. symmetry. apply set_get. }
      destruct s as [n o f|n o f|f len pad lft|f zn zo n o|f zn zo ct n o x|f|f|y|n o|f y z|n o y f|a f]; try (apply PLAIN; [reflexivity|reflexivity|exact X]).
      + (* a list *)
        specialize (NTG f ON1). pose proof (readset_off _ _ _ f ON eq_refl NTG) as NR.
        assert (SIMPLE : forall e b, (forall gs, torn (field H l f) (get f gs) -> exec_estmt (encode E (room t)) sums (EList f zn zo ct n o x) (gs, loc, out t) = (e, (gs, loc, b))) -> (H, goes_on (Body l ss loc :: k) (room t) e b) = (H1, t1) ->
          exists ks, Forall2 (like H) (Body l (EList f zn zo ct n o x :: ss) loc :: k) ks /\ finish ks (room t) (out t) = (re, rb)).
        { intros e b EX Z. apply pair_equal_spec in Z. destruct Z as [<- <-]. destruct (good_goes H _ _ _ _ _ G D (RN loc)) as (ks & L & F). inversion L as [|i j k' ks' L1 L2]; subst. destruct j as [gs ss' loc''|]; [|destruct L1]. destruct L1 as (-> & -> & c1 & fs1 & Q1 & SU). rewrite Q in Q1. injection Q1 as <- <-.
          destruct (now_torn H l f D S) as (t0 & T0). destruct (NOW f gs SU NTG NR t0 T0) as (A1 & A2 & A3). exists (TBody (set f t0 gs) (EList f zn zo ct n o x :: ss) loc :: ks'). split; [constructor; auto|]. rewrite finish_next, (EX _ A2). destruct e; [congruence|]. rewrite <- (A3 loc t0) in F. rewrite set_twice in F. exact F. }
        destruct (field H l f) as [|z|z|u|m] eqn:FF.
        * destruct (write_int zo zn 0 (out t)) as [e b] eqn:WI. apply (SIMPLE e b); [|exact X]. intros gs T. apply torn_kind in T. cbn [exec_estmt]. rewrite T, WI. reflexivity.
        * apply (SIMPLE (Some TYPE) (out t)); [|exact X]. intros gs T. apply torn_kind in T. cbn [exec_estmt]. rewrite T. reflexivity.
        * apply (SIMPLE (Some TYPE) (out t)); [|exact X]. intros gs T. apply torn_kind in T. cbn [exec_estmt]. rewrite T. reflexivity.
        * apply (SIMPLE (Some TYPE) (out t)); [|exact X]. intros gs T. apply torn_kind in T. cbn [exec_estmt]. rewrite T. reflexivity.
        * rewrite (drift_elements H _ D) in X. cbn [elements] in X. destruct (nth_error h m) as [[c' fs'|vs]|] eqn:Qm.
          -- apply (SIMPLE (Some TYPE) (out t)); [|exact X]. intros gs T. apply torn_kind in T. rewrite Qm in T. destruct T as [(vs & ts & Q2 & _)|(c2 & fs2 & gs2 & Q2 & T)]; [discriminate|]. cbn [exec_estmt]. rewrite T. reflexivity.
          -- destruct vs as [|v vs].
             ++ destruct (write_int zo zn 0 (out t)) as [e b] eqn:WI. apply (SIMPLE e b); [|exact X]. intros gs T. apply torn_kind in T. rewrite Qm in T. destruct T as [(vs & ts & Q2 & T & F2)|(c2 & fs2 & gs2 & Q2 & _)]; [|discriminate]. injection Q2 as <-. inversion F2; subst. cbn [exec_estmt]. rewrite T, WI. reflexivity.
             ++ destruct (write_int o n (wrap ct (Z.of_nat (List.length (v :: vs)))) (out t)) as [e b] eqn:WI. apply pair_equal_spec in X. destruct X as [<- <-].
                assert (CV : Forall calmly (v :: vs)). { eapply calmly_elems; [apply (now_calm H l f _ _ c fs D RI Q NTG)|]. rewrite FF. cbn [elements]. now rewrite Qm. }
                destruct (good_goes H _ _ _ _ _ G D) as (ks & L & F); [constructor; [exact CV|apply RN]|]. inversion L as [|i j k' ks' L1 L2]; subst. inversion L2 as [|i2 j2 k2 ks2 L3 L4]; subst. destruct j as [|x' ts]; [destruct L1|]. destruct L1 as (-> & TS). destruct j2 as [gs ss' loc''|]; [|destruct L3]. destruct L3 as (-> & -> & c1 & fs1 & Q1 & SU). rewrite Q in Q1. injection Q1 as <- <-.
                assert (T0 : torn (field H l f) (VList ts)) by (rewrite FF; eapply torn_list; eauto). destruct (NOW f gs SU NTG NR (VList ts) T0) as (A1 & A2 & A3). exists (TBody (set f (VList ts) gs) (EList f zn zo ct n o x :: ss) loc :: ks2). split; [constructor; auto|]. rewrite finish_next. cbn [exec_estmt].
                assert (IN : In f (map fst gs)). { rewrite (proj1 SU). destruct (in_dec String.string_dec f (map fst fs)) as [I|I]; [exact I|]. exfalso. pose proof (D l) as Dl. rewrite Q in Dl. destruct Dl as (hs & QH & Nm & _). unfold field in FF. rewrite QH, hget_absent in FF by (now rewrite Nm). discriminate. }
                rewrite get_same by exact IN. assert (LN : List.length ts = List.length (v :: vs)) by (symmetry; clear - TS; induction TS; cbn; auto). destruct ts as [|t0 ts]; [discriminate|]. rewrite LN, WI. destruct e as [e|]; [congruence|]. cbn [finish] in F. destruct (enc_elems (encode E (room t)) x (t0 :: ts) b) as [[[e|] l'] b2]; [exact F|]. rewrite A3. exact F.
          -- apply (SIMPLE (Some TYPE) (out t)); [|exact X]. intros gs T. apply torn_kind in T. rewrite Qm in T. destruct T as [(vs & ts & Q2 & _)|(c2 & fs2 & gs2 & Q2 & T)]; discriminate.
      + (* an object *)
        specialize (NTG f ON1). pose proof (readset_off _ _ _ f ON eq_refl NTG) as NR. apply pair_equal_spec in X. destruct X as [<- <-]. pose proof (now_calm H l f _ _ c fs D RI Q NTG) as CF.
        destruct (back_enter H (field H l f) _ t (re, rb) D (proj1 CF) (calmly_fresh H _ D CF) (RN loc) G) as (tv & ks & TV & L & F). inversion L as [|i j k' ks' L1 L2]; subst. destruct j as [gs ss' loc''|]; [|destruct L1]. destruct L1 as (-> & -> & c1 & fs1 & Q1 & SU). rewrite Q in Q1. injection Q1 as <- <-.
        destruct (NOW f gs SU NTG NR tv TV) as (A1 & A2 & A3). exists (TBody (set f tv gs) (EObj f :: ss) loc :: ks'). split; [constructor; auto|]. rewrite finish_next. cbn [exec_estmt].
        assert (GT : get f (set f tv gs) = tv). { destruct (in_dec String.string_dec f (map fst gs)) as [I|I]; [now apply get_same|]. rewrite set_absent, get_absent by exact I. pose proof (D l) as Dl. rewrite Q in Dl. destruct Dl as (hs & QH & Nm & _). unfold field in TV. rewrite QH, hget_absent in TV by (rewrite Nm, <- (proj1 SU); exact I). apply torn_kind in TV. now symmetry. }
        rewrite GT. unfold after in F. destruct (encode E (room t) tv (out t)) as [[[e|] v'] b']; [exact F|]. rewrite A3. exact F.
      + (* an object or null *)
        specialize (NTG f ON1). pose proof (readset_off _ _ _ f ON eq_refl NTG) as NR. pose proof (now_calm H l f _ _ c fs D RI Q NTG) as CF.
        destruct (field H l f) as [|z|z|u|m] eqn:FF.
        1: { apply pair_equal_spec in X. destruct X as [<- <-]. destruct G as [[G1 _]|(_ & ks & L & F)]; [discriminate|]. cbn [stack room out] in L, F. inversion L as [|i j k' ks' L1 L2]; subst. destruct j as [gs ss' loc''|]; [|destruct L1]. destruct L1 as (-> & -> & c1 & fs1 & Q1 & SU). rewrite Q in Q1. injection Q1 as <- <-.
             assert (T0 : torn (field H l f) VNull) by (rewrite FF; constructor). destruct (NOW f gs SU NTG NR VNull T0) as (A1 & A2 & A3). rewrite FF in A2. exists (TBody (set f VNull gs) (EObjOpt f :: ss) loc :: ks'). split; [constructor; auto|]. rewrite finish_next. cbn [exec_estmt]. apply torn_kind in A2. rewrite A2. rewrite <- (A3 loc VNull) in F. rewrite set_twice in F. exact F. }
        all: apply pair_equal_spec in X; destruct X as [<- <-].
        all: destruct (back_enter H _ _ t (re, rb) D (proj1 CF) (calmly_fresh H _ D CF) (RN loc) G) as (tv & ks & TV & L & F); inversion L as [|i j k' ks' L1 L2]; subst; destruct j as [gs ss' loc''|]; [|destruct L1]; destruct L1 as (-> & -> & c1 & fs1 & Q1 & SU); rewrite Q in Q1; injection Q1 as <- <-.
        all: pose proof TV as TV'; rewrite <- FF in TV'; destruct (NOW f gs SU NTG NR tv TV') as (A1 & A2 & A3); exists (TBody (set f tv gs) (EObjOpt f :: ss) loc :: ks'); (split; [constructor; auto|]); rewrite finish_next; cbn [exec_estmt].
        all: assert (IN : In f (map fst gs)) by (rewrite (proj1 SU); destruct (in_dec String.string_dec f (map fst fs)) as [I|I]; [exact I|]; exfalso; pose proof (D l) as Dl; rewrite Q in Dl; destruct Dl as (hs & QH & Nm & _); unfold field in FF; rewrite QH, hget_absent in FF by (now rewrite Nm); discriminate).
        all: rewrite get_same by exact IN; assert (NV : tv <> VNull) by (apply torn_kind in TV; cbn in TV; first [congruence|destruct TV as [(? & ? & _ & -> & _)|(? & ? & ? & _ & ->)]; discriminate]).
        all: unfold after in F; destruct tv; try contradiction; destruct (encode E (room t) _ (out t)) as [[[e|] v'] b']; try exact F; rewrite A3; exact F.
      + destruct (assoc y loc) as [i|] eqn:Ay; [destruct (assoc z loc) as [j|] eqn:Az|].
        * cbn [hexec_estmt] in X. rewrite Ay, Az in X. eapply ASSIGN; [reflexivity| |exact X]. intros gs. cbn [exec_estmt]. rewrite Ay, Az. reflexivity.
        * cbn [hexec_estmt] in X. rewrite Ay, Az in X. apply pair_equal_spec in X. destruct X as [<- <-]. destruct (good_goes H _ _ _ _ _ G D (RN loc)) as (ks & L & F). destruct (some_like H _ D RI) as (j & LJ). inversion L as [|? ? ? ks' _ L2]; subst. exists (j :: ks'). split; [constructor; auto|]. destruct j as [gs s2 l2|]; [|destruct LJ]. destruct LJ as (-> & -> & _). rewrite finish_next. cbn [exec_estmt]. rewrite Ay, Az. symmetry. exact F.
        * cbn [hexec_estmt] in X. rewrite Ay in X. apply pair_equal_spec in X. destruct X as [<- <-]. destruct (good_goes H _ _ _ _ _ G D (RN loc)) as (ks & L & F). destruct (some_like H _ D RI) as (j & LJ). inversion L as [|? ? ? ks' _ L2]; subst. exists (j :: ks'). split; [constructor; auto|]. destruct j as [gs s2 l2|]; [|destruct LJ]. destruct LJ as (-> & -> & _). rewrite finish_next. cbn [exec_estmt]. rewrite Ay. symmetry. exact F.
      + cbn [hexec_estmt] in X. destruct (sums a) as [cs|] eqn:CS.
        * eapply ASSIGN; [reflexivity| |exact X]. intros gs. cbn [exec_estmt]. rewrite CS. reflexivity.
        * apply pair_equal_spec in X. destruct X as [<- <-]. destruct (good_goes H _ _ _ _ _ G D (RN loc)) as (ks & L & F). inversion L as [|i j k' ks' L1 L2]; subst. destruct j as [gs ss' loc''|]; [|destruct L1]. destruct L1 as (-> & -> & c1 & fs1 & Q1 & SU). exists (TBody gs (ESum a f :: ss) loc :: ks'). split; [constructor; auto; split; [auto|]; split; [auto|]; eauto|]. rewrite finish_next. cbn [exec_estmt]. rewrite CS. exact F.
    - injection X as <- <-. destruct (rs_tail _ _ R) as [RI RK]. destruct G as [[G1 _]|(_ & ks & L & F)]; [discriminate|]. cbn [stack room out] in L, F. exists (TLoop x [] :: ks). split; [constructor; auto; split; [auto|constructor]|exact F].
    - destruct (rs_tail _ _ R) as [RI RK]. cbn in RI. inversion RI as [|? ? C1 C2]; subst. assert (RN : Forall right_item (Loop x vs :: k)) by (constructor; [exact C2|apply rs_all; exact RK]).
      assert (ELEM : x <> XObj -> (let '(e, g, b) := henc_elem no_call x H v (out t) in (g, goes_on (Loop x vs :: k) (room t) e b)) = (H1, t1) -> exists ks, Forall2 (like H) (Loop x (v :: vs) :: k) ks /\ finish ks (room t) (out t) = (re, rb)).
      { intros NX Z. destruct (henc_elem no_call x H v (out t)) as [[e g] b] eqn:HX. apply pair_equal_spec in Z. destruct Z as [-> <-]. destruct (seen_torn v (proj1 C1)) as (tv & TV).
        assert (AG : H1 = H /\ exists w, enc_elem (encode E (room t)) x tv (out t) = (e, w, b)).
        { apply torn_kind in TV. destruct x; [| | | |contradiction]; cbn [henc_elem enc_elem] in *; destruct v as [|z|z|u|m]; try (destruct TV as [(? & ? & _ & -> & _)|(? & ? & ? & _ & ->)]); try subst tv; cbn [hstring_of string_of] in *; repeat match type of HX with context [match ?y with _ => _ end] => destruct y eqn:? end; injection HX as <- <- <-; eauto. }
        destruct AG as (-> & w & EE). destruct (good_goes H _ _ _ _ _ G D RN) as (ks & L & F). inversion L as [|i j k' ks' L1 L2]; subst. destruct j as [|x' ts]; [destruct L1|]. destruct L1 as (-> & TS). exists (TLoop x (tv :: ts) :: ks'). split; [constructor; auto; split; [auto|constructor; auto]|]. rewrite finish_elem, EE. destruct e; [congruence|exact F]. }
      destruct x; try (apply ELEM; [discriminate|exact X]). apply pair_equal_spec in X. destruct X as [<- <-].
      destruct (back_enter H v _ t (re, rb) D (proj1 C1) (calmly_fresh H _ D C1) RN G) as (tv & ks & TV & L & F). inversion L as [|i j k' ks' L1 L2]; subst. destruct j as [|x' ts]; [destruct L1|]. destruct L1 as (-> & TS). exists (TLoop XObj (tv :: ts) :: ks'). split; [constructor; auto; split; [auto|constructor; auto]|]. rewrite finish_elem. cbn [enc_elem]. unfold after in F. destruct (encode E (room t) tv (out t)) as [[[e|] v'] b']; exact F.
  Qed.
  Lemma ended_stays : forall ns H t H1 t1 e, ended t = Some e -> steps_run E ns H t = (H1, t1) -> t1 = t.
  Proof.
    induction ns as [|n ns IH]; intros H t H1 t1 e EN X; cbn [steps_run] in X; [congruence|]. destruct n as [|l f v]; cbn [step_or_set] in X; [|eapply IH; eauto]. unfold encoder_step in X. rewrite EN in X. eapply IH; eauto.
  Qed.
  Lemma back_run : forall ns H t H1 t1 e, (forall n, In n ns -> In n ms) -> drift H -> right_stack (stack t) -> steps_run E ns H t = (H1, t1) -> ended t1 = Some e -> good H t (e, out t1).
  Proof.
    induction ns as [|n ns IH]; intros H t H1 t1 e I D R X EN; cbn [steps_run] in X; [injection X as <- <-; left; auto|]. destruct (ended t) as [e0|] eqn:ET.
    { left. destruct (step_or_set E n H t) as [H2 t2] eqn:MS. assert (t2 = t) by (destruct n; cbn in MS; [unfold encoder_step in MS; rewrite ET in MS|]; congruence). subst t2. rewrite (ended_stays _ _ _ _ _ _ ET X) in *. cbn. split; congruence. }
    destruct n as [|l f v]; cbn [step_or_set] in X.
    - destruct (encoder_step E H t) as [H2 t2] eqn:ES. destruct (step_fwd H t H2 t2 D R ES) as [D2 R2]. right. split; [exact ET|]. eapply back_step; eauto. eapply IH; eauto. intros n IN. apply I. now right.
    - assert (IM : In (Sets l f v) ms) by (apply I; now left). assert (G : good (put_field H l f v) t (e, out t1)) by (eapply IH; eauto; [intros n IN; apply I; now right|now apply drift_sets]).
      destruct G as [G|(G & ks & L & F)]; [left; exact G|]. right. split; [exact G|]. exists ks. split; [|exact F]. eapply Forall2_imp; [|exact L]. intros i j. apply like_same. intros m c fs g Q T. destruct (SETS l f v IM) as (_ & c' & fs' & Q' & NT). unfold field. destruct (PeanoNat.Nat.eq_dec m l) as [->|NE]; [|now rewrite put_off by exact NE].
      rewrite Q in Q'. injection Q' as <- <-. pose proof (D l) as Dl. rewrite Q in Dl. destruct Dl as (gs & QH & _). rewrite (put_at H l f v c gs QH), QH, hgot. destruct (String.eqb_spec f g); [subst; contradiction|reflexivity].
  Qed.

  (* ---- the heap ---- *)
  Lemma step_puts H t H1 t1 : drift H -> right_stack (stack t) -> encoder_step E H t = (H1, t1) -> H1 = H \/ exists f z c fs, H1 = put_field H root f (HInt z) /\ nth_error h root = Some (CObj c fs) /\ In f (tg c).
  Proof.
    intros D R X. unfold encoder_step in X. destruct (ended t) as [e|] eqn:EN; [injection X as <- <-; auto|]. destruct (stack t) as [|[l [|s ss] loc|x [|v vs]] k] eqn:ST.
    - injection X as <- <-. auto.
    - injection X as <- <-. auto.
    - destruct (rs_tail _ _ R) as [RI _]. destruct RI as (S & c & fs & cd & Q & K & SF & CA & RB).
      destruct s as [n o f|n o f|f len pad lft|f zn zo n o|f zn zo ct n o x|f|f|y|n o|f y z|n o y f|a f].
      5: { left. repeat match type of X with context [match ?y with _ => _ end] => destruct y end; apply pair_equal_spec in X; destruct X as [<- _]; reflexivity. }
      5: { left. apply pair_equal_spec in X; destruct X as [<- _]; reflexivity. }
      5: { left. destruct (field H l f); apply pair_equal_spec in X; destruct X as [<- _]; reflexivity. }
      all: destruct (hexec_estmt no_call sums l _ (H, loc, out t)) as [e [[g loc'] b]] eqn:HX in X; apply pair_equal_spec in X; destruct X as [<- _].
      all: cbn [hexec_estmt] in HX; repeat match type of HX with context [match ?y with _ => _ end] => destruct y end; injection HX as <- <- <- <-; try (left; reflexivity).
      all: right; destruct SF as (pre & SF); destruct RB as [->|B]; [eexists _, _, c, fs; split; [reflexivity|]; split; [exact Q|]; unfold tg; rewrite K, SF; apply target_in; reflexivity|exfalso; unfold bare, tg in B; rewrite K, SF in B].
      + pose proof (target_in (EDiff f y z) ss pre f eq_refl) as I. rewrite B in I. destruct I.
      + pose proof (target_in (ESum a f) ss pre f eq_refl) as I. rewrite B in I. destruct I.
    - injection X as <- <-. auto.
    - left. assert (ELEM : (let '(e, g, b) := henc_elem no_call x H v (out t) in (g, goes_on (Loop x vs :: k) (room t) e b)) = (H1, t1) -> H1 = H).
      { intros Z. destruct (henc_elem no_call x H v (out t)) as [[e g] b] eqn:HX. apply pair_equal_spec in Z. destruct Z as [<- _]. destruct x; cbn in HX; unfold no_call in HX; repeat match type of HX with context [match ?y with _ => _ end] => destruct y end; injection HX as <- <- <-; reflexivity. }
      destruct x; [apply ELEM, X..|]. apply pair_equal_spec in X. destruct X as [<- _]. reflexivity.
  Qed.
  (* what encode assigns: computed fields of the root *)
  Definition assigned (m : nat) (g : string) : Prop := m = root /\ exists c fs, nth_error h root = Some (CObj c fs) /\ In g (tg c).
  Definition alike (H G : heap) : Prop := (forall m, match nth_error H m, nth_error G m with Some (CObj c fs), Some (CObj c' gs) => c = c' /\ map fst fs = map fst gs | a, b => a = b end)
    /\ forall m g, ~ assigned m g -> field H m g = field G m g.
  Lemma alike_refl H : alike H H.
  Proof. split; [|auto]. intros m. destruct (nth_error H m) as [[c fs|vs]|]; auto. Qed.
  Lemma field_put H l f x m g : field (put_field H l f x) m g = if Nat.eqb m l && String.eqb f g then match nth_error H l with Some (CObj _ fs) => if mem f (map fst fs) then x else HNull | _ => HNull end else field H m g.
  Proof.
    unfold field. destruct (PeanoNat.Nat.eqb_spec m l) as [->|N]; cbn [andb]; [|now rewrite put_off by exact N]. destruct (nth_error H l) as [[c fs|vs]|] eqn:Q.
    - rewrite (put_at H l f x c fs Q), hgot. now destruct (String.eqb f g).
    - unfold put_field. rewrite Q, Q. now destruct (String.eqb f g).
    - unfold put_field. rewrite Q, Q. now destruct (String.eqb f g).
  Qed.
  Lemma kind_put H l f x m : match nth_error (put_field H l f x) m with Some (CObj c fs) => Some (inl (c, map fst fs)) | Some (CList vs) => Some (inr vs) | None => None end
    = match nth_error H m with Some (CObj c fs) => Some (inl (c, map fst fs)) | Some (CList vs) => Some (inr vs) | None => None end.
  Proof.
    destruct (PeanoNat.Nat.eq_dec m l) as [->|N]; [|now rewrite put_off by exact N]. destruct (nth_error H l) as [[c fs|vs]|] eqn:Q.
    - rewrite (put_at H l f x c fs Q), hnames. reflexivity.
    - unfold put_field. now rewrite Q, Q.
    - unfold put_field. now rewrite Q, Q.
  Qed.
  Lemma alike_put H G l f x : alike H G -> alike (put_field H l f x) (put_field G l f x).
  Proof.
    intros [K F]. split.
    - intros m. specialize (K m). pose proof (kind_put H l f x m) as K1. pose proof (kind_put G l f x m) as K2.
      destruct (nth_error (put_field H l f x) m) as [[c1 f1|v1]|]; destruct (nth_error H m) as [[c2 f2|v2]|]; try discriminate; destruct (nth_error (put_field G l f x) m) as [[c3 f3|v3]|]; destruct (nth_error G m) as [[c4 f4|v4]|]; try discriminate; congruence.
    - intros m g A. rewrite !field_put. destruct (Nat.eqb m l && String.eqb f g); [|auto]. specialize (K l).
      destruct (nth_error H l) as [[c1 f1|v1]|]; destruct (nth_error G l) as [[c2 f2|v2]|]; try discriminate; auto. destruct K as [_ ->]. reflexivity.
  Qed.
  Lemma alike_own H G f z c fs : alike H G -> nth_error h root = Some (CObj c fs) -> In f (tg c) -> alike (put_field H root f (HInt z)) G.
  Proof.
    intros [K F] Q T. split.
    - intros m. specialize (K m). pose proof (kind_put H root f (HInt z) m) as K1.
      destruct (nth_error (put_field H root f (HInt z)) m) as [[c1 f1|v1]|]; destruct (nth_error H m) as [[c2 f2|v2]|]; try discriminate; destruct (nth_error G m) as [[c4 f4|v4]|]; congruence.
    - intros m g A. rewrite field_put. destruct (PeanoNat.Nat.eqb_spec m root) as [->|N]; cbn [andb]; [|apply F; exact A]. destruct (String.eqb_spec f g) as [->|N]; [|apply F; exact A]. exfalso. apply A. split; [auto|]. exists c, fs. auto.
  Qed.
  Lemma run_alike : forall ns H G t H1 t1, (forall n, In n ns -> In n ms) -> drift H -> right_stack (stack t) -> alike H G -> steps_run E ns H t = (H1, t1) -> alike H1 (settings ns G).
  Proof.
    induction ns as [|n ns IH]; intros H G t H1 t1 I D R A X; cbn [steps_run] in X; [injection X as <- <-; exact A|]. unfold settings. cbn [fold_left]. destruct n as [|l f v]; cbn [step_or_set] in X.
    - destruct (encoder_step E H t) as [H2 t2] eqn:ES. destruct (step_fwd H t H2 t2 D R ES) as [D2 R2]. eapply IH; [intros n IN; apply I; now right|exact D2|exact R2| |exact X].
      destruct (step_puts H t H2 t2 D R ES) as [->|(f & z & c & fs & -> & Q & T)]; [exact A|]. eapply alike_own; eauto.
    - eapply IH; [intros n IN; apply I; now right| |exact R| |exact X]; [apply drift_sets; auto; apply I; now left|]. now apply alike_put.
  Qed.

  (* ---- tests ---- *)
  Hypothesis DYN : forall l f v c fs cd zn zo n o, In (Sets l f v) ms -> nth_error h l = Some (CObj c fs) -> find_class E c = Some cd -> In (EDyn f zn zo n o) (c_enc cd) -> exists s, v = HStr s.
  Hypothesis OPT : forall l f v c fs cd, In (Sets l f v) ms -> nth_error h l = Some (CObj c fs) -> find_class E c = Some cd -> ~ In (EObjOpt f) (c_enc cd).
  Hypothesis ZERO : forall c cd f zn zo n o, find_class E c = Some cd -> In (EDyn f zn zo n o) (c_enc cd) -> zn = n.
  Definition primed (H : heap) (c : caller) : Prop := tested c = true -> ended (work c) = None /\ exists l r loc k,
    (exists f zn zo n o s, stack (work c) = Body l (EDyn f zn zo n o :: r) loc :: k /\ field H l f = HStr s) \/ (exists f, stack (work c) = Body l (EObjOpt f :: r) loc :: k /\ field H l f <> HNull).
  Lemma primed_sets H l f v c : drift H -> right_stack (stack (work c)) -> In (Sets l f v) ms -> primed H c -> primed (put_field H l f v) c.
  Proof.
    intros D R I P T. destruct (P T) as (EN & m & r & loc & k & K). split; [exact EN|]. exists m, r, loc, k.
    destruct K as [(g & zn & zo & n & o & s & ST & F)|(g & ST & F)]; rewrite ST in R; destruct (rs_tail _ _ R) as [(S & c0 & fs & cd & Q & KC & (pre & SF) & _) _].
    - left. assert (IN : In (EDyn g zn zo n o) (c_enc cd)) by (rewrite SF; apply in_or_app; right; now left). destruct (Nat.eqb m l && String.eqb f g) eqn:B; [|exists g, zn, zo, n, o, s; rewrite field_put, B; auto].
      apply andb_true_iff in B. destruct B as [B1 B2]. apply PeanoNat.Nat.eqb_eq in B1. apply String.eqb_eq in B2. subst l g. destruct (DYN m f v c0 fs cd zn zo n o I Q KC IN) as (s' & ->). exists f, zn, zo, n, o, s'. split; [exact ST|].
      rewrite field_put, PeanoNat.Nat.eqb_refl, String.eqb_refl. cbn [andb]. unfold field in F. destruct (nth_error H m) as [[c1 gs|vs]|]; try discriminate. destruct (mem f (map fst gs)) eqn:M; [reflexivity|]. apply mem_out in M. rewrite (hget_absent f gs M) in F. discriminate.
    - right. assert (IN : In (EObjOpt g) (c_enc cd)) by (rewrite SF; apply in_or_app; right; now left). exists g. split; [exact ST|]. rewrite field_put. destruct (Nat.eqb m l && String.eqb f g) eqn:B; [|exact F].
      apply andb_true_iff in B. destruct B as [B1 B2]. apply PeanoNat.Nat.eqb_eq in B1. apply String.eqb_eq in B2. subst l g. destruct (OPT m f v c0 fs cd I Q KC IN).
  Qed.
  (* a turn is a step, or only a test *)
  Lemma turn_step H c H1 c1 : right_stack (stack (work c)) -> primed H c -> caller_step E H c = (H1, c1) ->
    (H1 = H /\ work c1 = work c /\ primed H c1) \/ (encoder_step E H (work c) = (H1, work c1) /\ tested c1 = false).
  Proof.
    intros R P X. assert (PLAIN : untested (encoder_step E H (work c)) = (H1, c1) -> (H1 = H /\ work c1 = work c /\ primed H c1) \/ (encoder_step E H (work c) = (H1, work c1) /\ tested c1 = false)).
    { intros Z. right. unfold untested in Z. destruct (encoder_step E H (work c)) as [g u]. injection Z as <- <-. auto. }
    unfold caller_step in X. destruct (ended (work c)) as [e|] eqn:EN; [apply PLAIN, X|]. destruct (stack (work c)) as [|[l [|s ss] loc|x vs] k] eqn:ST; try (apply PLAIN, X).
    destruct (rs_tail _ _ R) as [(S & c0 & fs & cd & Q & KC & (pre & SF) & _) _]. assert (IN : In s (c_enc cd)) by (rewrite SF; apply in_or_app; right; now left).
    destruct s as [n o f|n o f|f len pad lft|f zn zo n o|f zn zo ct n o x|f|f|y|n o|f y z|n o y f|a f]; try (apply PLAIN, X).
    - destruct (tested c) eqn:T.
      + destruct (P T) as (_ & l0 & r0 & loc0 & k0 & [(f0 & zn0 & zo0 & n0 & o0 & s & ST0 & F)|(f0 & ST0 & _)]); rewrite ST in ST0; [|discriminate]. injection ST0 as <- <- <- <- <- <- <- <- <-. rewrite F in X.
        rewrite (write_dyn_late s zo n o (out (work c))) in X. right. unfold encoder_step. rewrite EN, ST. cbn [hexec_estmt]. rewrite F. cbn [hstring_of]. rewrite (ZERO c0 cd f zn zo n o KC IN). destruct (write_dyn (Some s) n zo n o (out (work c))) as [e b]. unfold untested in X. injection X as <- <-. auto.
      + destruct (field H l f) as [|z|z|[|u s]|m] eqn:F; try (apply PLAIN, X). injection X as <- <-. left. split; [auto|]. split; [auto|]. intros _. cbn [work]. split; [exact EN|]. exists l, ss, loc, k. left. exists f, zn, zo, n, o, (u :: s). auto.
    - destruct (tested c) eqn:T.
      + destruct (P T) as (_ & l0 & r0 & loc0 & k0 & [(f0 & zn0 & zo0 & n0 & o0 & s & ST0 & F)|(f0 & ST0 & F)]); rewrite ST in ST0; [discriminate|]. injection ST0 as <- <- <- <- <-. right. unfold untested in X. apply pair_equal_spec in X. destruct X as [<- <-]. cbn [fst snd work tested]. split; [|auto].
        unfold encoder_step. rewrite EN, ST. destruct (field H l f); [contradiction|reflexivity..].
      + assert (GO : field H l f <> HNull -> (H, {| work := work c; tested := true |}) = (H1, c1) -> (H1 = H /\ work c1 = work c /\ primed H c1) \/ (encoder_step E H (work c) = (H1, work c1) /\ tested c1 = false)).
        { intros N Z. apply pair_equal_spec in Z. destruct Z as [<- <-]. left. split; [auto|]. split; [auto|]. intros _. cbn [work]. split; [exact EN|]. exists l, ss, loc, k. right. exists f. auto. }
        destruct (field H l f) as [|z|z|s|m] eqn:F; [apply PLAIN, X|apply GO; [discriminate|exact X]..].
  Qed.
  Lemma fine_coarse : forall ns H c H1 c1, (forall n, In n ns -> In n ms) -> drift H -> right_stack (stack (work c)) -> primed H c -> moments_run E ns H c = (H1, c1) ->
    exists ns', (forall n, In n ns' -> In n ns) /\ (forall G, settings ns' G = settings ns G) /\ steps_run E ns' H (work c) = (H1, work c1).
  Proof.
    induction ns as [|n ns IH]; intros H c H1 c1 I D R P X; cbn [moments_run] in X; [injection X as <- <-; exists []; split; [auto|]; split; reflexivity|].
    destruct (moment_step E n H c) as [H2 c2] eqn:MS. assert (I' : forall n, In n ns -> In n ms) by (intros a IA; apply I; now right). destruct n as [|l f v]; cbn [moment_step] in MS.
    - destruct (turn_step H c H2 c2 R P MS) as [(-> & W & P2)|(ES & T)].
      + destruct (IH H c2 H1 c1 I' D) as (ns' & A1 & A2 & A3); [rewrite W; exact R|exact P2|exact X|]. exists ns'. split; [intros a IA; right; auto|]. split; [exact A2|]. rewrite W in A3. exact A3.
      + destruct (step_fwd H (work c) H2 (work c2) D R ES) as [D2 R2]. destruct (IH H2 c2 H1 c1 I' D2 R2) as (ns' & A1 & A2 & A3); [intros T2; congruence|exact X|]. exists (Turn :: ns'). split; [intros a [<-|IA]; [now left|right; auto]|]. split; [exact A2|]. cbn [steps_run step_or_set]. rewrite ES. exact A3.
    - injection MS as <- <-. assert (IM : In (Sets l f v) ms) by (apply I; now left). destruct (IH (put_field H l f v) c H1 c1 I') as (ns' & A1 & A2 & A3); [now apply drift_sets|exact R|now apply primed_sets|exact X|].
      exists (Sets l f v :: ns'). split; [intros a [<-|IA]; [now left|right; auto]|]. split; [|exact A3]. intros G. unfold settings. cbn [fold_left]. apply A2.
  Qed.
End Torn.

(* ---- the thread ends ---- *)
Definition load (E : env) (h : heap) (c : caller) : nat := match ended (work c) with Some _ => 0%nat | None => (2 * weight E h (work c) + if tested c then 0 else 1)%nat end.
Lemma turn_load E h c h' c' : caller_step E h c = (h', c') -> ended (work c) = None -> (load E h' c' < load E h c)%nat.
Proof.
  intros X EN. assert (LO : load E h c = (2 * weight E h (work c) + if tested c then 0 else 1)%nat) by (unfold load; now rewrite EN).
  assert (LT : forall t, (weight E h' t < weight E h (work c))%nat -> (load E h' {| work := t; tested := false |} < load E h c)%nat).
  { intros t W. rewrite LO. unfold load. cbn [work tested]. destruct (ended t); destruct (tested c); lia. }
  assert (PLAIN : untested (encoder_step E h (work c)) = (h', c') -> (load E h' c' < load E h c)%nat).
  { intros Z. unfold untested in Z. destruct (encoder_step E h (work c)) as [g u] eqn:ES. injection Z as <- <-. apply LT. destruct (step_weight E h (work c) g u ES) as (_ & DEC & _). auto. }
  assert (TEST : tested c = false -> (h, {| work := work c; tested := true |}) = (h', c') -> (load E h' c' < load E h c)%nat).
  { intros T Z. apply pair_equal_spec in Z. destruct Z as [<- <-]. rewrite LO, T. unfold load. cbn [work tested]. rewrite EN. lia. }
  unfold caller_step in X. rewrite EN in X. destruct (stack (work c)) as [|[l [|s ss] loc|x vs] k] eqn:ST; try (apply PLAIN, X).
  destruct s as [n o f|n o f|f len pad lft|f zn zo n o|f zn zo ct n o x|f|f|y|n o|f y z|n o y f|a f]; try (apply PLAIN, X).
  - destruct (tested c) eqn:T; [|destruct (field h l f) as [|z|z|[|u s]|m]; try (apply PLAIN, X); apply TEST; auto].
    destruct (match field h l f with HNull => _ | _ => _ end) as [e b]. unfold untested in X. apply pair_equal_spec in X. destruct X as [<- <-]. cbn [fst snd] in *. apply LT.
    pose proof (goes_on_weight E h (Body l ss loc :: k) (room (work c)) e b) as G. unfold weight at 2. rewrite EN, ST. cbn [due sum fold_right inside] in *. unfold sum in *. lia.
  - destruct (tested c) eqn:T; [|destruct (field h l f) as [|z|z|s|m]; first [apply PLAIN, X|apply TEST; auto]].
    unfold untested in X. apply pair_equal_spec in X. destruct X as [<- <-]. cbn [fst snd] in *. apply LT. pose proof (enter_weight E h (field h l f) (Body l ss loc :: k) (work c)) as G. unfold weight at 2. rewrite EN, ST. cbn [due sum fold_right inside] in *. unfold sum in *. lia.
Qed.
Lemma turn_ended E h c h' c' e : caller_step E h c = (h', c') -> ended (work c) = Some e -> h' = h /\ work c' = work c.
Proof. intros X EN. unfold caller_step in X. rewrite EN in X. unfold untested, encoder_step in X. rewrite EN in X. apply pair_equal_spec in X. destruct X as [<- <-]. auto. Qed.
Lemma moments_end E : forall ms h c h' c', (forall l f v, In (Sets l f v) ms -> scalar v) -> (load E h c <= turns ms)%nat -> moments_run E ms h c = (h', c') -> ended (work c') <> None.
Proof.
  induction ms as [|m ms IH]; intros h c h' c' SC W X; cbn [moments_run] in X.
  - injection X as <- <-. unfold load, turns in W. cbn in W. destruct (ended (work c)) eqn:EN; [discriminate|]. unfold weight in W. rewrite EN in W. lia.
  - destruct (moment_step E m h c) as [g u] eqn:S. assert (SC' : forall l f v, In (Sets l f v) ms -> scalar v) by (intros l f v I; apply (SC l f v); now right). eapply IH; [exact SC'| |exact X]. destruct m as [|l f v]; cbn [moment_step] in S; unfold turns in *; cbn [filter] in W; cbn [List.length] in W.
    + destruct (ended (work c)) as [x|] eqn:EN; [destruct (turn_ended E h c g u x S EN) as [-> Q]; unfold load; rewrite Q, EN; lia|]. pose proof (turn_load E h c g u S EN). lia.
    + injection S as <- <-. pose proof (weight_le E h (put_field h l f v) (work c)) as LE. assert (SH : shrinks h (put_field h l f v)); [|specialize (LE SH); unfold load in *; destruct (ended (work c)); [lia|]; destruct (tested c); lia]. right. exists l, f, v. split; [|reflexivity]. apply (SC l f v). now left.
Qed.


(* ---- types ---- *)
Lemma torn_typed E h ms : (forall c cd, assoc c (classes E) = Some cd -> NoDup (map fst (c_fields cd))) -> heap_ok (classes E) h -> fitting (classes E) h ms -> forall v t, torn h ms v t -> forall ty, fits h v ty -> typed (classes E) t ty = true.
Proof.
  intros ND OK FT. fix IH 3. intros v t T. destruct T as [|z|z|s|l vs ts Hl S|l c fs gs Hl N F]; intros ty FI.
  - apply (proj1 (fits_typed E h OK) HNull); [constructor|exact FI].
  - apply (proj1 (fits_typed E h OK) (HInt z)); [constructor|exact FI].
  - apply (proj1 (fits_typed E h OK) (HFlt z)); [constructor|exact FI].
  - apply (proj1 (fits_typed E h OK) (HStr s)); [constructor|exact FI].
  - destruct ty; try (cbn [fits] in FI; try contradiction; destruct FI as (? & FI); try (destruct FI as (? & FI)); congruence).
    destruct (fits_list _ _ _ FI) as [F0|(l0 & vs0 & F0 & Hl0 & A)]; [discriminate|]. injection F0 as <-. rewrite Hl in Hl0. injection Hl0 as <-. cbn [typed]. clear Hl FI.
    induction S as [|v t vs ts T S IHS]; cbn; auto. apply andb_true_iff. split.
    + destruct (A v (or_introl eq_refl)) as [->|FV]; [inversion T; subst; reflexivity|]. rewrite (IH v t T _ FV). apply orb_true_r.
    + apply IHS. intros x Hx. apply A. right. exact Hx.
  - destruct (OK l c fs Hl) as (cd & A & T).
    assert (K : forall2b (fun fv ft => String.eqb (fst fv) (fst ft) && typed (classes E) (snd fv) (snd ft)) gs (c_fields cd) = true).
    { assert (HELD : forall f u, In f (map fst fs) -> (fits h (field h l f) u) -> In (f, u) (c_fields cd) -> typed (classes E) (get f gs) u = true).
      { intros f u If F0 It. destruct (F f If) as (v & HD & TV). apply (IH v _ TV). destruct HD as [->|IS]; [exact F0|]. exact (FT l f v c fs cd u IS Hl A It). }
      assert (HF : forall f u, In (f, u) (c_fields cd) -> fits h (field h l f) u).
      { unfold field. rewrite Hl. pose proof (ND c cd A) as NC. clear - T NC. induction T as [|[f v] [g u] fs fts [H1 H2] T IHT]; intros f' u' I; [destruct I|]. cbn in H1, H2, NC. subst g. inversion NC; subst. cbn [hget]. destruct (String.eqb_spec f' f) as [->|NE].
        - destruct I as [I|I]; [injection I as <-; exact H2|]. exfalso. apply H1. change f with (fst (f, u')). now apply in_map.
        - destruct I as [I|I]; [congruence|]. apply IHT; auto. }
      assert (NF : map fst fs = map fst (c_fields cd)) by (clear - T; induction T as [|? ? ? ? [H1 _] _ IHT]; cbn; congruence).
      assert (NG : map fst gs = map fst (c_fields cd)) by congruence.
      assert (G : forall f u, In (f, u) (c_fields cd) -> typed (classes E) (get f gs) u = true).
      { intros f u I. apply HELD; auto. rewrite NF. change f with (fst (f, u)). now apply in_map. }
      pose proof (ND c cd A) as NC. clear - NG G NC. revert gs NG G. induction (c_fields cd) as [|[g u] fts IHT]; intros [|[g' x] gs] NG G; cbn in NG |- *; try discriminate; auto. injection NG as -> NG. cbn in NC. inversion NC as [|? ? NI NC']; subst.
      apply andb_true_iff. split.
      - rewrite String.eqb_refl. specialize (G g u (or_introl eq_refl)). cbn in G. rewrite String.eqb_refl in G. exact G.
      - apply IHT; auto. intros f u' I. specialize (G f u' (or_intror I)). cbn in G. destruct (String.eqb_spec f g) as [->|]; [|exact G]. exfalso. apply NI. change g with (fst (g, u')). now apply in_map. }
    destruct ty; cbn [fits] in FI; try contradiction.
    + destruct FI as (vs & FI & _). congruence.
    + destruct FI as (fs0 & FI). assert (c0 = c) as -> by congruence. cbn [typed]. rewrite String.eqb_refl, A, K. reflexivity.
    + cbn [typed]. rewrite A, K. reflexivity.
Qed.
