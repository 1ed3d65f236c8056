(* Element types and sizes of lists: each list has one element type, which decode respects; and no list it makes is longer than an int counts. *)
From Coq Require Import ZArith List Bool String Lia.
From Verif.Model Require Import JavaPrim ByteBuf Utf8 Codec Ast Interp Show Heap.
From Verif.Spec Require Import Bytes Buffers Wire Sharing.
From Verif.Proofs Require Import BytesFacts BufFacts DecodeFacts DecodeInv HeapFacts HeapOwn HeapReach HeapEq HeapCycle HeapFrame HeapTypes JavaEncode.
Import ListNotations.
Open Scope Z_scope.
Open Scope list_scope.

(* T m: element type of the list at m *)
Definition later (n : nat) (T T' : nat -> ftype) : Prop := forall m, (m < n)%nat -> T' m = T m.
Lemma later_refl n T : later n T T. Proof. intros m _. reflexivity. Qed.
Lemma later_trans n n' T T1 T2 : (n <= n')%nat -> later n T T1 -> later n' T1 T2 -> later n T T2.
Proof. intros L A B m Hm. rewrite B by lia. now apply A. Qed.

Section Lists.
  Variable E : env.
  Let C := classes E.
  Definition agreed (T : nat -> ftype) (h : heap) : Prop :=
    forall l c fs cd f u m, nth_error h l = Some (CObj c fs) -> assoc c C = Some cd -> assoc f (c_fields cd) = Some (TList u) -> In (f, HRef m) fs -> T m = u.
  Lemma agreed_later T T' h : heap_ok C h -> later (List.length h) T T' -> agreed T h -> agreed T' h.
  Proof. intros OK L A l c fs cd f u m Hl Hc Hf I. rewrite L; [eapply A; eauto|]. eapply bounded; eauto. Qed.
  Lemma agreed_same T h h1 : (forall l c fs, nth_error h1 l = Some (CObj c fs) -> nth_error h l = Some (CObj c fs)) -> agreed T h -> agreed T h1.
  Proof. intros S A l c fs cd f u m Hl. apply (A l c fs). auto. Qed.
  Lemma hset_where f x fs g v : NoDup (map fst fs) -> In (g, v) (hset f x fs) -> (g = f /\ v = x) \/ In (g, v) fs.
  Proof.
    induction fs as [|[a w] fs IH]; cbn; auto. intros N. inversion N; subst. destruct (String.eqb_spec f a) as [->|D].
    - intros [I|I]; [injection I as <- <-; auto|auto].
    - intros [I|I]; [auto|]. destruct (IH H2 I); auto.
  Qed.
  Hypothesis flat_classes : forall c cd, find_class E c = Some cd -> forallb (fun ft => flat_type (snd ft)) (c_fields cd) = true.
  Hypothesis nodup_classes : forall c cd, find_class E c = Some cd -> NoDup (map fst (c_fields cd)).
  Hypothesis fine_classes : forall c cd, find_class E c = Some cd -> forallb (fine_dstmt (c_fields cd)) (c_dec cd) = true.
  Lemma agreed_put T h l c fs cd f x : heap_ok C h -> nth_error h l = Some (CObj c fs) -> assoc c C = Some cd -> agreed T h ->
    (forall u m, x = HRef m -> assoc f (c_fields cd) = Some (TList u) -> T m = u) -> agreed T (put_field h l f x).
  Proof.
    intros OK Hl Hc A X j c0 gs cd0 g u m Hj Hc0 Hg I. destruct (Nat.eq_dec j l) as [->|N].
    - rewrite (put_at h l f x c fs Hl) in Hj. injection Hj as <- <-. rewrite Hc in Hc0. injection Hc0 as <-.
      assert (ND : NoDup (map fst fs)) by (rewrite (names_of E h l c fs cd OK Hl Hc); eapply nodup_classes; exact Hc).
      destruct (hset_where _ _ _ _ _ ND I) as [[-> Q]|I']; [eapply X; eauto|]. eapply A; eauto.
    - rewrite put_off in Hj by exact N. eapply A; eauto.
  Qed.
  Lemma agreed_alloc T h k : match k with CObj _ fs => forall f m, ~ In (f, HRef m) fs | CList _ => True end -> agreed T h -> agreed T (h ++ [k]).
  Proof.
    intros K A j c0 gs cd0 g u m Hj Hc0 Hg I. destruct (Nat.lt_ge_cases j (List.length h)) as [L|L].
    - rewrite nth_app_old in Hj by exact L. eapply A; eauto.
    - rewrite nth_error_app2 in Hj by exact L. destruct (j - List.length h)%nat as [|[|i]]; cbn in Hj; try discriminate. injection Hj as ->. exfalso. eapply K; eauto.
  Qed.
  Lemma agreed_new T h c : agreed T h -> agreed T (fst (hnew E h c)).
  Proof. intros A. unfold hnew. destruct (find_class E c); [|exact A]. cbn [alloc_cell fst]. apply agreed_alloc; [|exact A]. intros f m. apply default_no_ref. Qed.

  (* lists but the one at l are small, and that one has at most n elements *)
  Definition sized (l n : nat) (h : heap) : Prop := forall m vs, nth_error h m = Some (CList vs) -> if Nat.eqb m l then (List.length vs <= n)%nat else Z.of_nat (List.length vs) < 2 ^ 31.
  Lemma sized_small l n h : Z.of_nat n < 2 ^ 31 -> sized l n h -> small h.
  Proof. intros L S m vs Hm. specialize (S m vs Hm). destruct (Nat.eqb m l); lia. Qed.
  Lemma small_put h l f x : small h -> small (put_field h l f x).
  Proof.
    intros S m vs Hm. unfold put_field in Hm. destruct (nth_error h l) as [[c fs|ws]|] eqn:Hl; try exact (S m vs Hm). destruct (Nat.eq_dec m l) as [->|N].
    - rewrite upd_at in Hm by (eapply nth_lt; eauto). discriminate.
    - rewrite upd_off in Hm by exact N. eauto.
  Qed.
  Lemma small_new h c : small h -> small (fst (hnew E h c)).
  Proof.
    intros S. unfold hnew. destruct (find_class E c); [|exact S]. cbn [alloc_cell fst]. intros m vs Hm. destruct (Nat.lt_ge_cases m (List.length h)) as [L|L]; [rewrite nth_app_old in Hm by exact L; eauto|].
    rewrite nth_error_app2 in Hm by exact L. destruct (m - List.length h)%nat as [|[|i]]; cbn in Hm; discriminate.
  Qed.

  Definition tidy (dec : heap -> hval -> bytebuf -> option exn * heap * bytebuf) : Prop :=
    forall T h v b, heap_ok C h -> bk b -> agreed T h -> small h -> let h1 := snd (fst (dec h v b)) in exists T', later (List.length h) T T' /\ agreed T' h1 /\ small h1.

  (* one iteration: the list at l, of element type u, grows by at most one *)
  Definition shared (this : nat) (f : string) (l i : nat) (T : nat -> ftype) (h : heap) : Prop := agreed T h /\ sized l i h.
  Lemma list_add_objects h v x j c fs : nth_error (list_add h v x) j = Some (CObj c fs) -> nth_error h j = Some (CObj c fs).
  Proof.
    unfold list_add. destruct v as [| | | |l]; auto. destruct (nth_error h l) as [[c0 gs|vs]|] eqn:Hl; auto. intros Hj. destruct (Nat.eq_dec j l) as [->|N].
    - rewrite upd_at in Hj by (eapply nth_lt; eauto). discriminate.
    - now rewrite upd_off in Hj by exact N.
  Qed.
  Lemma sized_add h l i x : sized l i h -> sized l (S i) (list_add h (HRef l) x).
  Proof.
    intros S m ws Hm. unfold list_add in Hm. destruct (nth_error h l) as [[c0 gs|vs]|] eqn:Hl.
    - specialize (S m ws Hm). destruct (Nat.eqb m l); lia.
    - destruct (Nat.eq_dec m l) as [->|N].
      + rewrite upd_at in Hm by (eapply nth_lt; eauto). injection Hm as <-. specialize (S l vs Hl). rewrite Nat.eqb_refl in *. rewrite app_length. cbn. lia.
      + rewrite upd_off in Hm by exact N. specialize (S m ws Hm). destruct (Nat.eqb m l); lia.
    - specialize (S m ws Hm). destruct (Nat.eqb m l); lia.
  Qed.
  Lemma sized_mono h l i j : (i <= j)%nat -> sized l i h -> sized l j h.
  Proof. intros L S m vs Hm. specialize (S m vs Hm). destruct (Nat.eqb m l); lia. Qed.
  Lemma tidy_elem dec this c fs cd f l u y T h b i : tidy dec -> typing E dec -> framed dec -> building E this c fs f l h -> assoc c C = Some cd -> assoc f (c_fields cd) = Some (TList u) -> hget f fs = HRef l ->
    bk b -> agreed T h -> sized l i h -> Z.of_nat i < 2 ^ 31 ->
    let h1 := fst (snd (hdec_elem dec (hnew E) this f y (h, b))) in exists T', later (List.length h) T T' /\ agreed T' h1 /\ sized l (S i) h1 /\ (List.length h <= List.length h1)%nat.
  Proof.
    intros TD TY FR B Hc Hf Hg Hb A S Li. pose proof (bd_this _ _ _ _ _ _ _ B) as Ht. assert (S1 : sized l (Datatypes.S i) h) by (eapply sized_mono; [|exact S]; lia).
    assert (LA : forall h v x, (List.length h <= List.length (list_add h v x))%nat).
    { intros g v x. unfold list_add. destruct v as [| | | |m]; auto. destruct (nth_error g m) as [[]|]; auto. rewrite upd_length. auto. }
    assert (ADD : forall x, exists T', later (List.length h) T T' /\ agreed T' (list_add h (field h this f) x) /\ sized l (Datatypes.S i) (list_add h (field h this f) x) /\ (List.length h <= List.length (list_add h (field h this f) x))%nat).
    { intros x. exists T. split; [apply later_refl|]. split; [eapply agreed_same; [intros; eapply list_add_objects; eauto|exact A]|]. split; [|apply LA]. rewrite (field_at h this f c fs Ht), Hg. now apply sized_add. }
    assert (STAY : exists T', later (List.length h) T T' /\ agreed T' h /\ sized l (Datatypes.S i) h /\ (List.length h <= List.length h)%nat) by (exists T; repeat split; auto using later_refl).
    destruct y; cbn [hdec_elem].
    - destruct (read_bytes n b) as [[e|bs] b']; [exact STAY|apply ADD].
    - destruct (read_bytes n b) as [[e|bs] b']; [exact STAY|apply ADD].
    - destruct (read_fixed len pad left b) as [[e|s] b']; [exact STAY|apply ADD].
    - destruct (read_bytes n b) as [[e|bs] b']; [exact STAY|]. cbv zeta. destruct (get_int o bs >? 0); [|exact STAY]. destruct (read_chars (get_int o bs) b') as [[e|cs] b'']; [exact STAY|apply ADD].
    - destruct (new_ok E h c0 (bd_ok _ _ _ _ _ _ _ B)) as (OK1 & K1 & F1). pose proof (agreed_new T h c0 A) as A1. pose proof (small_new h c0 (sized_small l i h Li S)) as SM1.
      assert (CQ : closed (fun m => (List.length h <= m)%nat) h) by (intros j k m L Hi; apply nth_lt in Hi; lia).
      destruct (new_moves E _ h c0 CQ (fun i L => L)) as [MQ IQ]. destruct (hnew E h c0) as [h1 x]. cbn [fst snd] in *.
      pose proof (has_new_later _ _ _ K1 (fun i L => L : (fun m => (List.length h <= m)%nat) i)) as NQ.
      pose proof (FR _ h1 x b (mv_closed _ _ _ MQ) NQ IQ) as DQ. destruct (TD T h1 x b OK1 Hb A1 SM1) as (T2 & L2 & A2 & SM2). destruct (TY h1 x b OK1 Hb) as [OK2 _].
      destruct (dec h1 x b) as [[e h2] b']. cbn [fst snd] in *. pose proof (moves_trans _ _ _ _ MQ DQ) as MM.
      pose proof (building_later E flat_classes nodup_classes _ _ _ _ _ _ _ B MM OK2) as B2. pose proof (keeps_length _ _ (mv_keeps _ _ _ MM)) as LL. pose proof (keeps_length _ _ (mv_keeps _ _ _ MQ)) as LL1.
      assert (S2 : sized l i h2).
      { intros m vs Hm. destruct (Nat.eqb_spec m l) as [->|N]; [|eauto]. destruct (bd_list _ _ _ _ _ _ _ B) as (ws & Hl). pose proof (nth_lt _ _ _ Hl) as Ll. rewrite (mv_off _ _ _ MM l) in Hm by lia. rewrite Hm in Hl. injection Hl as <-. specialize (S l vs Hm). now rewrite Nat.eqb_refl in S. }
      assert (L3 : later (List.length h) T T2) by (intros m Hm; apply L2; lia).
      destruct e; cbn [fst snd]; exists T2.
      + split; [exact L3|]. split; [exact A2|]. split; [eapply sized_mono; [|exact S2]; lia|exact LL].
      + split; [exact L3|]. split; [eapply agreed_same; [intros; eapply list_add_objects; eauto|exact A2]|]. split; [|etransitivity; [exact LL|apply LA]].
        rewrite (field_at h2 this f c fs (bd_this _ _ _ _ _ _ _ B2)), Hg. now apply sized_add.
  Qed.
  Lemma tidy_loop dec this c fs cd f l u y : tidy dec -> typing E dec -> framed dec -> assoc c C = Some cd -> assoc f (c_fields cd) = Some (TList u) -> hget f fs = HRef l -> fine_delem u y = true ->
    forall n T h b i, building E this c fs f l h -> bk b -> agreed T h -> sized l i h -> Z.of_nat i + Z.of_nat n < 2 ^ 31 ->
    let h1 := fst (snd (iter n (hdec_elem dec (hnew E) this f y) (h, b))) in exists T', later (List.length h) T T' /\ agreed T' h1 /\ sized l (i + n) h1.
  Proof.
    intros TD TY FR Hc Hf Hg Hy n. induction n as [|n IH]; intros T h b i B Hb A S Li; cbn [iter]; [exists T; split; [apply later_refl|split; [exact A|now rewrite Nat.add_0_r]]|].
    destruct (tidy_elem dec this c fs cd f l u y T h b i TD TY FR B Hc Hf Hg Hb A S ltac:(lia)) as (T1 & L1 & A1 & S1 & LL).
    destruct (building_elem E flat_classes nodup_classes dec this c fs cd f l u y h b TY FR B Hc Hf Hg Hy Hb) as [B1 K1].
    destruct (hdec_elem dec (hnew E) this f y (h, b)) as [[e|] [h1 b1]]; cbn [fst snd] in *.
    - exists T1. split; [exact L1|]. split; [exact A1|]. eapply sized_mono; [|exact S1]. lia.
    - destruct (IH T1 h1 b1 (Datatypes.S i) B1 K1 A1 S1 ltac:(lia)) as (T2 & L2 & A2 & S2). exists T2. split; [eapply later_trans; eauto|]. split; [exact A2|]. now replace (i + Datatypes.S n)%nat with (Datatypes.S i + n)%nat by lia.
  Qed.

  (* counts of at most four bytes *)
  Definition int_count (s : dstmt) : bool := match s with DList _ n _ _ => Nat.leb 1 n && Nat.leb n 4 | _ => true end.
  Lemma count_range o n bs : Nat.leb 1 n && Nat.leb n 4 = true -> List.length bs = n -> get_int o bs < 2 ^ 31.
  Proof.
    intros H L. assert (N : bs <> []) by (intros ->; cbn in L; subst n; discriminate H). pose proof (get_int_range o bs N) as G. rewrite L in G. apply in_signed_spec in G.
    destruct n as [|[|[|[|[|n]]]]]; try discriminate H; cbn in G; lia.
  Qed.
  Lemma tidy_dstmt dec create this c fs cd s T h b : tidy dec -> typing E dec -> framed dec -> heap_ok C h -> agreed T h -> small h ->
    nth_error h this = Some (CObj c fs) -> assoc c C = Some cd -> fine_dstmt (c_fields cd) s = true -> int_count s = true -> bk b ->
    let h1 := fst (snd (hexec_dstmt dec (hnew E) create this s (h, b))) in exists T', later (List.length h) T T' /\ agreed T' h1 /\ small h1.
  Proof.
    intros TD TY FR OK A SM Ht Hc Hs Hi Hb.
    assert (STAY : exists T', later (List.length h) T T' /\ agreed T' h /\ small h) by (exists T; split; [apply later_refl|split; assumption]).
    assert (PUT : forall f x, (forall m, x <> HRef m) -> exists T', later (List.length h) T T' /\ agreed T' (put_field h this f x) /\ small (put_field h this f x)).
    { intros f x N. exists T. split; [apply later_refl|]. split; [|now apply small_put]. eapply agreed_put; eauto. intros u m Q. now destruct (N m). }
    assert (NEW : forall f c0, (forall u, assoc f (c_fields cd) <> Some (TList u)) -> let h1 := put_field (fst (hnew E h c0)) this f (snd (hnew E h c0)) in exists T', later (List.length h) T T' /\ agreed T' h1 /\ small h1).
    { intros f c0 N. destruct (new_ok E h c0 OK) as (OK1 & K1 & _). destruct (keeps_object _ _ _ _ _ K1 Ht) as (gs & Hg & _). exists T. split; [apply later_refl|]. split; [|apply small_put, small_new; exact SM].
      eapply agreed_put; eauto; [apply agreed_new; exact A|]. intros u m _ Q. now destruct (N u). }
    destruct s; cbn [hexec_dstmt]; cbn [fine_dstmt int_count] in Hs, Hi.
    - destruct (read_bytes n b) as [[e|bs] b']; [exact STAY|]. apply PUT. discriminate.
    - destruct (read_bytes n b) as [[e|bs] b']; [exact STAY|]. apply PUT. discriminate.
    - destruct (read_fixed len pad left b) as [[e|s] b']; [exact STAY|]. apply PUT. discriminate.
    - destruct (read_bytes n b) as [[e|bs] b']; [exact STAY|]. cbv zeta. destruct (get_int o bs >? 0); [|exact STAY]. destruct (read_chars (get_int o bs) b') as [[e|cs] b'']; [exact STAY|]. apply PUT. discriminate.
    - pose proof (read_bytes_good n b Hb) as R. destruct (read_bytes n b) as [[e|bs] b']; [exact STAY|]. destruct R as (L & _ & K). cbv zeta. destruct (Z.gtb_spec (get_int o bs) 0) as [G0|G0]; [|exact STAY].
      destruct (assoc f (c_fields cd)) as [[]|] eqn:Af; try discriminate. apply andb_true_iff in Hs. destruct Hs as [_ Hs]. cbn [alloc_cell]. rewrite repeat_z_iter.
      set (l := List.length h). pose proof (building_start E flat_classes nodup_classes fine_classes this c fs cd f t h OK Ht Hc Af) as BS. cbv zeta in BS. fold l in BS. destruct BS as [B0 G].
      set (T0 := fun m => if Nat.eqb m l then t else T m).
      assert (L0 : later (List.length h) T T0) by (intros m Hm; unfold T0; destruct (Nat.eqb_spec m l); [unfold l in *; lia|reflexivity]).
      assert (A0 : agreed T0 (put_field (h ++ [CList []]) this f (HRef l))).
      { assert (OK1 : heap_ok C (h ++ [CList []])) by (apply alloc_ok; auto; exact I). eapply agreed_put; eauto.
        - rewrite nth_app_old; eauto. eapply nth_lt; eauto.
        - apply agreed_alloc; [exact I|]. eapply agreed_later; eauto.
        - intros u m Q Q2. injection Q as <-. rewrite Af in Q2. injection Q2 as <-. unfold T0. now rewrite Nat.eqb_refl. }
      assert (S0 : sized l 0 (put_field (h ++ [CList []]) this f (HRef l))).
      { intros m vs Hm. pose proof (bd_this _ _ _ _ _ _ _ B0) as Ht0. destruct (Nat.eq_dec m this) as [->|N]; [congruence|]. rewrite put_off in Hm by exact N. destruct (Nat.eqb_spec m l) as [->|Nl].
        - unfold l in Hm. rewrite nth_app_new in Hm. injection Hm as <-. auto.
        - destruct (Nat.lt_ge_cases m (List.length h)) as [Lm|Lm]; [rewrite nth_app_old in Hm by exact Lm; eauto|]. rewrite nth_error_app2 in Hm by exact Lm. destruct (m - List.length h)%nat as [|[|i]] eqn:Q; cbn in Hm; try discriminate. unfold l in Nl. lia. }
      pose proof (count_range o n bs Hi L) as CR.
      destruct (tidy_loop dec this c (hset f (HRef l) fs) cd f l t y TD TY FR Hc Af G Hs (Z.to_nat (get_int o bs)) T0 _ b' 0%nat B0 K A0 S0 ltac:(lia)) as (T1 & L1 & A1 & S1).
      exists T1. split; [|split; [exact A1|eapply sized_small; [|exact S1]; lia]]. intros m Hm. rewrite L1; [now apply L0|]. rewrite put_length, app_length. lia.
    - destruct (field h this f) eqn:Q; try exact STAY. specialize (NEW f c0). destruct (hnew E h c0) as [h1 x]. cbn [fst snd] in *. apply NEW. intros u Qu. rewrite Qu in Hs. discriminate.
    - destruct (TD T h (field h this f) b OK Hb A SM) as (T1 & L1 & A1 & S1). destruct (dec h (field h this f) b) as [[e h1] b1]. cbn [fst snd] in *. eauto.
    - destruct (hkey_of (field h this key)) as [kk|]; [|exact STAY]. destruct (create kk) as [c0|]; [|exact STAY].
      specialize (NEW f c0). destruct (hnew E h c0) as [h1 x]. cbn [fst snd] in *. apply NEW. intros u Qu. rewrite Qu in Hs. discriminate.
  Qed.
  Hypothesis count_classes : forall c cd, find_class E c = Some cd -> forallb int_count (c_dec cd) = true.
  Lemma tidy_dstmts dec create this c cd : tidy dec -> typing E dec -> framed dec -> assoc c C = Some cd -> forall ss T h fs b, heap_ok C h -> agreed T h -> small h ->
    nth_error h this = Some (CObj c fs) -> forallb (fine_dstmt (c_fields cd)) ss = true -> forallb int_count ss = true -> bk b ->
    let h1 := fst (snd (hexec_dec dec (hnew E) create this ss (h, b))) in exists T', later (List.length h) T T' /\ agreed T' h1 /\ small h1.
  Proof.
    intros TD TY FR Hc ss. induction ss as [|s ss IH]; intros T h fs b OK A SM Ht Hs Hi Hb; cbn [hexec_dec]; [exists T; split; [apply later_refl|split; assumption]|]. cbn [forallb] in Hs, Hi. apply andb_true_iff in Hs as [Hs Hss]. apply andb_true_iff in Hi as [Hi Hii].
    destruct (tidy_dstmt dec create this c fs cd s T h b TD TY FR OK A SM Ht Hc Hs Hi Hb) as (T1 & L1 & A1 & S1).
    destruct (typed_dstmt E flat_classes nodup_classes dec create this c fs cd s h b TY FR OK Ht Hc Hs Hb) as [OK1 K1]. pose proof (keeps_dstmt E dec create this s h b FR (nth_lt _ _ _ Ht)) as KP.
    destruct (hexec_dstmt dec (hnew E) create this s (h, b)) as [[e|] [h1 b1]]; cbn [fst snd] in *; [eauto|]. destruct (keeps_object _ _ _ _ _ KP Ht) as (gs & Hg & _).
    destruct (IH T1 h1 gs b1 OK1 A1 S1 Hg Hss Hii K1) as (T2 & L2 & A2 & S2). exists T2. split; [|auto]. eapply (later_trans _ (List.length h1)); [now apply keeps_length|exact L1|exact L2].
  Qed.
  Theorem tidy_decode d : tidy (hdecode E d).
  Proof.
    induction d as [|d IH]; intros T h v b OK Hb A SM; assert (STAY : exists T', later (List.length h) T T' /\ agreed T' h /\ small h) by (exists T; split; [apply later_refl|split; assumption]); [destruct v; exact STAY|].
    destruct v as [|z|z|s|l]; try exact STAY. cbn [hdecode]. destruct (nth_error h l) as [[c fs|vs]|] eqn:Hl; try exact STAY. destruct (find_class E c) as [cd|] eqn:Hc; [|exact STAY].
    pose proof (tidy_dstmts (hdecode E d) (factory E c) l c cd IH (typing_decode E flat_classes nodup_classes fine_classes d) (frame_decode E d) Hc (c_dec cd) T h fs b OK A SM Hl (fine_classes c cd Hc) (count_classes c cd Hc) Hb) as X.
    destruct (hexec_dec (hdecode E d) (hnew E) (factory E c) l (c_dec cd) (h, b)) as [e [h1 b1]]. exact X.
  Qed.

  (* list mutation by the program: anything of the element type *)
  Lemma fits_refill h m vs ws u : heap_ok C h -> nth_error h m = Some (CList vs) -> (match u with TList _ => false | _ => true end) = true ->
    (forall x, In x ws -> x = HNull \/ fits h x u) -> forall y t, flat_type t = true -> (forall w, t = TList w -> y = HRef m -> w = u) -> fits h y t -> fits (upd h m (CList ws)) y t.
  Proof.
    intros OK Hm U X. set (h1 := upd h m (CList ws)).
    assert (OFF : forall j, j <> m -> nth_error h1 j = nth_error h j) by (intros j D; apply upd_off; exact D).
    assert (AT : nth_error h1 m = Some (CList ws)) by (apply upd_at; eapply nth_lt; eauto).
    assert (KO : forall y t, (match t with TList _ => false | _ => true end) = true -> fits h y t -> fits h1 y t).
    { intros y t Q F. destruct t; try discriminate Q; try exact F; destruct y; cbn in *; auto.
      - destruct F as (gs & F). exists gs. rewrite OFF; [exact F|congruence].
      - destruct F as (c0 & gs & F). exists c0, gs. rewrite OFF; [exact F|congruence]. }
    intros y t FT D F. destruct t as [| | | | | | |w| |]; try (apply KO; auto; fail).
    assert (W : (match w with TList _ => false | _ => true end) = true) by (destruct w; auto).
    destruct (fits_list _ _ _ F) as [->|(j & xs & -> & Hj & A)]; [exact I|]. destruct (Nat.eq_dec j m) as [->|N].
    - rewrite (D w eq_refl eq_refl). apply fits_list_intro with ws; [exact AT|]. intros z Hz. destruct (X z Hz); auto.
    - apply fits_list_intro with xs; [rewrite OFF by exact N; exact Hj|]. intros z Hz. destruct (A z Hz); auto.
  Qed.
  Lemma refill_ok T h m vs ws u : heap_ok C h -> agreed T h -> T m = u -> nth_error h m = Some (CList vs) -> (match u with TList _ => false | _ => true end) = true ->
    (forall x, In x ws -> x = HNull \/ fits h x u) -> heap_ok C (upd h m (CList ws)) /\ agreed T (upd h m (CList ws)).
  Proof.
    intros OK A Tm Hm U X. assert (SAME : forall l c fs, nth_error (upd h m (CList ws)) l = Some (CObj c fs) -> nth_error h l = Some (CObj c fs)).
    { intros l c fs Hl. destruct (Nat.eq_dec l m) as [->|N]; [rewrite upd_at in Hl by (eapply nth_lt; eauto); discriminate|]. now rewrite upd_off in Hl by exact N. }
    split; [|eapply agreed_same; eauto]. intros l c fs Hl. pose proof (SAME l c fs Hl) as Hl0. destruct (OK l c fs Hl0) as (cd & Hc & F). exists cd. split; [exact Hc|].
    assert (FL : forallb (fun ft => flat_type (snd ft)) (c_fields cd) = true) by (apply (flat_classes c); exact Hc).
    assert (ND : NoDup (map fst (c_fields cd))) by (apply (nodup_classes c); exact Hc).
    assert (DL : forall g w, In (g, HRef m) fs -> In (g, TList w) (c_fields cd) -> w = u).
    { intros g w I1 I2. rewrite <- Tm. symmetry. apply (A l c fs cd g w m Hl0 Hc); [|exact I1]. clear - ND I2. induction (c_fields cd) as [|[a t] F IH]; [contradiction|]. cbn [assoc map fst] in *. inversion ND; subst.
      destruct I2 as [I2|I2]; [injection I2 as -> ->; now rewrite String.eqb_refl|]. destruct (String.eqb_spec g a) as [->|]; [|auto]. exfalso. apply H1. change a with (fst (a, TList w)). now apply in_map. }
    assert (R := fits_refill h m vs ws u OK Hm U X). clear - F FL DL R. induction F as [|[g v] [g' t] fs F [H1 H2] HF IH]; constructor; cbn [fst snd forallb] in *.
    - subst g'. split; auto. apply andb_true_iff in FL. destruct FL as [FL _]. apply R; auto. intros w -> ->. apply (DL g w); left; reflexivity.
    - apply IH; [apply andb_true_iff in FL; tauto|]. intros g0 t0 I1 I2. apply (DL g0 t0); right; assumption.
  Qed.
End Lists.
