(* Types on the heap: decode keeps every object well-typed, and what it reads does not depend on the objects it decodes into. *)
From Coq Require Import ZArith List Bool String Lia.
From Verif.Model Require Import JavaPrim ByteBuf Utf8 Codec Ast Interp Show Heap.
From Verif.Spec Require Import Bytes Buffers Wire Sharing.
From Verif.Proofs Require Import BytesFacts BufFacts Utf8More DecodeFacts DecodeRel DecodeInv HeapFacts HeapOwn HeapReach HeapEq HeapCycle HeapFrame.
Import ListNotations.
Open Scope Z_scope.

(* ---- values read from a buffer ---- *)
Lemma read_bytes_good n b : bk b -> match read_bytes n b with
  | (inr bs, b') => List.length bs = n /\ bytes_ok bs /\ bk b' | (inl _, b') => bk b' end.
Proof.
  intros H. destruct (read_bytes_cases n b) as [[bs T]|R].
  - pose proof T as T'. unfold took in T'. rewrite T'. destruct (took_inv b n bs H T) as (A & B & _). auto.
  - rewrite R. exact H.
Qed.
Lemma read_chars_good len b : bk b -> match read_chars len b with (inr bs, b') => bytes_ok bs /\ bk b' | (inl _, b') => bk b' end.
Proof.
  intros H. destruct (Z.ltb_spec len 0) as [L|L].
  - unfold read_chars. destruct (Z.eqb_spec len 0); [lia|]. destruct (Z.ltb_spec len 0); [exact H|lia].
  - destruct (read_chars_cases len b L) as [[bs T]|R].
    + pose proof T as T'. unfold took_chars in T'. rewrite Z2Nat.id in T' by lia. rewrite T'. destruct (took_chars_inv b _ bs H T) as (A & B & _). auto.
    + rewrite R. exact H.
Qed.
Definition units (s : list Z) : Prop := Forall (fun u => 0 <= u < 2 ^ 16) s.
Lemma units_of s : forallb is_unit s = true -> units s.
Proof.
  intros H. rewrite forallb_forall in H. apply Forall_forall. intros u Hu. specialize (H u Hu). unfold is_unit in H. lia.
Qed.
Lemma decode_units' bs : bytes_ok bs -> units (utf8_decode bs).
Proof. intros H. apply units_of, decode_units. exact H. Qed.
Lemma read_fixed_good len pad lft b : bk b -> match read_fixed len pad lft b with (inr s, b') => units s /\ bk b' | (inl _, b') => bk b' end.
Proof.
  intros H. unfold read_fixed. pose proof (read_chars_good len b H) as R. destruct (read_chars len b) as [[e|bs] b']; [exact R|]. destruct R as [B K]. split; [|exact K].
  apply units_of. destruct lft; rewrite CodecFacts.trim_spec; apply CodecFacts.strip_units; apply decode_units; exact B.
Qed.

(* ---- static types of the statements ---- *)
Definition int_type (n : nat) (t : ftype) : bool :=
  match n, t with 1%nat, TByte | 2%nat, TShort | 4%nat, TInt | 8%nat, TLong => true | _, _ => false end.
Definition flt_type (n : nat) (t : ftype) : bool := match n, t with 4%nat, TFloat | 8%nat, TDouble => true | _, _ => false end.
Definition fine_delem (u : ftype) (y : delem) : bool :=
  match y, u with
  | YInt n _, _ => int_type n u
  | YFlt n _, _ => flt_type n u
  | YFix _ _ _, TStr | YDyn _ _, TStr => true
  | YObj c, TObj c' => String.eqb c c'
  | _, _ => false
  end.
Definition fine_dstmt (F : list (string * ftype)) (s : dstmt) : bool :=
  match s with
  | DRead n _ f => match assoc f F with Some t => int_type n t | None => false end
  | DReadF n _ f => match assoc f F with Some t => flt_type n t | None => false end
  | DFix f _ _ _ | DDyn f _ _ => match assoc f F with Some TStr => true | _ => false end
  | DList f _ _ y => match assoc f F with Some (TList u) => flat_type (TList u) && fine_delem u y | _ => false end
  | DNewIfNull f c => match assoc f F with Some (TObj c') => String.eqb c c' | _ => false end
  | DObj _ => true
  | DCreate f _ => match assoc f F with Some TCodec => true | _ => false end
  end.
Lemma int_fits h n t o bs : int_type n t = true -> List.length bs = n -> fits h (HInt (get_int o bs)) t.
Proof.
  intros H L. assert (N : bs <> []) by (intros ->; subst n; discriminate H). pose proof (get_int_range o bs N) as G. rewrite L in G. apply in_signed_spec in G.
  destruct n as [|[|[|[|[|[|[|[|[|n]]]]]]]]], t; try discriminate H; exact G.
Qed.
Lemma flt_fits h n t o bs : flt_type n t = true -> List.length bs = n -> bytes_ok bs -> fits h (HFlt (get_bits o bs)) t.
Proof.
  intros H L B. pose proof (get_bits_range o bs B) as G. rewrite L in G.
  destruct n as [|[|[|[|[|[|[|[|[|n]]]]]]]]], t; try discriminate H; exact G.
Qed.

(* ---- heaps that grow ---- *)
Lemma fits_keeps h h1 t : keeps h h1 -> forall v, fits h v t -> fits h1 v t.
Proof.
  intros K. induction t; intros v F; try exact F.
  - destruct (fits_list _ _ _ F) as [->|(l & vs & -> & Hl & A)]; [exact I|]. destruct (K _ _ Hl) as (k & Hk & P). cbn in P. subst k.
    apply fits_list_intro with vs; auto. intros x Hx. destruct (A x Hx); auto.
  - destruct v; cbn in *; auto. destruct F as (fs & Hl). destruct (keeps_object _ _ _ _ _ K Hl) as (gs & Hg & _). eauto.
  - destruct v; cbn in *; auto. destruct F as (c & fs & Hl). destruct (keeps_object _ _ _ _ _ K Hl) as (gs & Hg & _). eauto.
Qed.
Section Types.
  Variable E : env.
  Let C := classes E.
  Definition well (h : heap) (c : string) (fs : list (string * hval)) : Prop :=
    exists cd, assoc c C = Some cd /\ Forall2 (fun fv ft => fst fv = fst ft /\ fits h (snd fv) (snd ft)) fs (c_fields cd).
  Lemma well_keeps h h1 c fs : keeps h h1 -> well h c fs -> well h1 c fs.
  Proof.
    intros K (cd & A & F). exists cd. split; auto. induction F as [|fv ft fs fts [H1 H2] F IH]; constructor; auto. split; auto. eapply fits_keeps; eauto.
  Qed.
  Lemma ok_step h h1 : heap_ok C h -> keeps h h1 -> (forall l c gs, nth_error h1 l = Some (CObj c gs) -> nth_error h l = Some (CObj c gs) \/ well h1 c gs) -> heap_ok C h1.
  Proof.
    intros OK K H l c gs Hl. destruct (H l c gs Hl) as [H0|W]; [|exact W]. apply (well_keeps h h1 c gs K). exact (OK l c gs H0).
  Qed.
  Lemma keeps_put h l f x : keeps h (put_field h l f x).
  Proof. apply (mv_keeps (fun _ => True)). apply put_moves; [intros ? ? ? _ _ _; exact I|exact I|intros ? _; exact I]. Qed.
  Lemma keeps_alloc h k : keeps h (h ++ [k]).
  Proof. apply (mv_keeps (fun _ => True)). apply alloc_moves; [intros ? ? ? _ _ _; exact I|intros ? _; exact I|intros ? _; exact I]. Qed.
  Lemma hset_well h f x t F : assoc f F = Some t -> fits h x t -> forall fs, Forall2 (fun fv ft => fst fv = fst ft /\ fits h (snd fv) (snd ft)) fs F ->
    Forall2 (fun fv ft => fst fv = fst ft /\ fits h (snd fv) (snd ft)) (hset f x fs) F.
  Proof.
    intros A Fx fs H. revert A. induction H as [|[g v] [g' t'] fs F [H1 H2] H IH]; cbn [assoc hset fst snd] in *; intros A; [constructor|]. subst g'.
    destruct (String.eqb f g) eqn:Q; [injection A as ->; constructor; auto|]. constructor; auto.
  Qed.
  Lemma put_ok h l c fs cd f t x : heap_ok C h -> nth_error h l = Some (CObj c fs) -> assoc c C = Some cd -> assoc f (c_fields cd) = Some t -> fits h x t ->
    heap_ok C (put_field h l f x).
  Proof.
    intros OK Hl Hc Hf Hx. apply (ok_step h); auto; [apply keeps_put|]. intros m c' gs Hm. destruct (Nat.eq_dec m l) as [->|N].
    - rewrite (put_at h l f x c fs Hl) in Hm. injection Hm as <- <-. right. apply (well_keeps h); [apply keeps_put|]. destruct (OK l c fs Hl) as (cd' & A & F).
      rewrite Hc in A. injection A as <-. exists cd. split; auto. eapply hset_well; eauto.
    - rewrite put_off in Hm by exact N. auto.
  Qed.
  Lemma alloc_ok h k : heap_ok C h -> match k with CObj c fs => well (h ++ [k]) c fs | CList _ => True end -> heap_ok C (h ++ [k]).
  Proof.
    intros OK W. apply (ok_step h); auto; [apply keeps_alloc|]. intros m c gs Hm. destruct (Nat.lt_ge_cases m (List.length h)) as [L|L].
    - rewrite nth_app_old in Hm by exact L. auto.
    - rewrite nth_error_app2 in Hm by exact L. destruct (m - List.length h)%nat as [|[|i]]; cbn in Hm; try discriminate. injection Hm as ->. right. exact W.
  Qed.
  Lemma default_fits h t : fits h (hdefault t) t.
  Proof. destruct t; cbn; auto; lia. Qed.
  Lemma new_ok h c : heap_ok C h -> heap_ok C (fst (hnew E h c)) /\ keeps h (fst (hnew E h c)) /\ fits (fst (hnew E h c)) (snd (hnew E h c)) (TObj c).
  Proof.
    intros OK. unfold hnew. destruct (find_class E c) as [cd|] eqn:A; cbn [alloc_cell fst snd]; [|split; [exact OK|split; [apply keeps_refl|exact I]]]. split; [|split].
    - apply alloc_ok; auto. exists cd. split; [exact A|]. generalize (h ++ [CObj c (map (fun ft => (fst ft, hdefault (snd ft))) (c_fields cd))]). intros h'.
      clear A. induction (c_fields cd) as [|[f t] F IH]; constructor; auto. split; [reflexivity|apply default_fits].
    - apply keeps_alloc.
    - eexists. apply nth_app_new.
  Qed.

  (* ---- the list being filled: only this.f refers to it ---- *)
  Definition sole (h : heap) (this : nat) (f : string) (l : nat) : Prop :=
    (forall j c fs g, nth_error h j = Some (CObj c fs) -> In (g, HRef l) fs -> j = this) /\ (forall c fs g, nth_error h this = Some (CObj c fs) -> In (g, HRef l) fs -> g = f).
  Record building (this : nat) (c : string) (fs : list (string * hval)) (f : string) (l : nat) (h : heap) : Prop := {
    bd_ok : heap_ok C h;
    bd_this : nth_error h this = Some (CObj c fs);
    bd_list : exists vs, nth_error h l = Some (CList vs);
    bd_sole : sole h this f l
  }.
  Hypothesis flat_classes : forall c cd, find_class E c = Some cd -> forallb (fun ft => flat_type (snd ft)) (c_fields cd) = true.
  Hypothesis nodup_classes : forall c cd, find_class E c = Some cd -> NoDup (map fst (c_fields cd)).
  Lemma assoc_nodup {A} (F : list (string * A)) f t u : NoDup (map fst F) -> In (f, t) F -> assoc f F = Some u -> t = u.
  Proof.
    induction F as [|[g x] F IH]; cbn; intros N I A0; [contradiction|]. inversion N; subst. destruct (String.eqb_spec f g) as [->|D].
    - injection A0 as <-. destruct I as [I|I]; [congruence|]. exfalso. apply H1. apply in_map_iff. exists (g, t). auto.
    - destruct I as [I|I]; [congruence|]. auto.
  Qed.
  Lemma add_ok this c fs cd f l u h x : building this c fs f l h -> assoc c C = Some cd -> assoc f (c_fields cd) = Some (TList u) -> hget f fs = HRef l ->
    (x = HNull \/ fits h x u) -> building this c fs f l (list_add h (field h this f) x).
  Proof.
    intros [OK Ht (vs & Hl) [S1 S2]] Hc Hf Hg Hx. rewrite (field_at h this f c fs Ht), Hg. cbn [list_add]. rewrite Hl.
    assert (NT : this <> l) by congruence.
    assert (OFF : forall m, m <> l -> nth_error (upd h l (CList (vs ++ [x]))) m = nth_error h m) by (intros m D; apply upd_off; exact D).
    assert (AT : nth_error (upd h l (CList (vs ++ [x]))) l = Some (CList (vs ++ [x]))) by (apply upd_at; eapply nth_lt; eauto).
    assert (FU : flat_type (TList u) = true).
    { pose proof (flat_classes c cd Hc) as Q. rewrite forallb_forall in Q. specialize (Q (f, TList u)). apply Q. clear - Hf.
      induction (c_fields cd) as [|[g t] F IH]; cbn in *; [discriminate|]. destruct (String.eqb_spec f g) as [->|]; [injection Hf as ->; auto|auto]. }
    assert (NX : x <> HRef l).
    { intros ->. destruct Hx as [Hx|Hx]; [discriminate|]. destruct u; cbn in FU, Hx; try contradiction; try discriminate FU.
      - destruct Hx as (gs & Hx). congruence.
      - destruct Hx as (c0 & gs & Hx). congruence. }
    assert (KO : forall y t, (match t with TList _ => false | _ => true end) = true -> fits h y t -> fits (upd h l (CList (vs ++ [x]))) y t).
    { intros y t Q F. destruct t; try discriminate Q; try exact F; destruct y; cbn in *; auto.
      - destruct F as (gs & F). exists gs. rewrite OFF; [exact F|congruence].
      - destruct F as (c0 & gs & F). exists c0, gs. rewrite OFF; [exact F|congruence]. }
    assert (KL : forall y t, flat_type t = true -> (y = HRef l -> t = TList u) -> fits h y t -> fits (upd h l (CList (vs ++ [x]))) y t).
    { intros y t Q D F. destruct t as [| | | | | | |w| |]; try (apply KO; auto; fail).
      assert (W : (match w with TList _ => false | _ => true end) = true) by (destruct w; auto).
      destruct (fits_list _ _ _ F) as [->|(m & ws & -> & Hm & A)]; [exact I|]. destruct (Nat.eq_dec m l) as [->|N].
      - specialize (D eq_refl). injection D as ->. rewrite Hl in Hm. injection Hm as <-. apply fits_list_intro with (vs ++ [x]); auto.
        intros z Hz. apply in_app_or in Hz. destruct Hz as [Hz|[<-|[]]].
        + destruct (A z Hz); auto.
        + destruct Hx; auto.
      - apply fits_list_intro with ws; [rewrite OFF by exact N; exact Hm|]. intros z Hz. destruct (A z Hz); auto. }
    constructor.
    - intros j c0 gs Hj. assert (j <> l) by congruence. rewrite OFF in Hj by auto. destruct (OK j c0 gs Hj) as (cd0 & A & F). exists cd0. split; auto.
      assert (FL : forallb (fun ft => flat_type (snd ft)) (c_fields cd0) = true) by (apply (flat_classes c0); exact A).
      assert (DL : forall g t, In (g, HRef l) gs -> In (g, t) (c_fields cd0) -> t = TList u).
      { intros g t I1 I2. assert (j = this) as -> by (eapply S1; eauto).
        rewrite Ht in Hj. injection Hj as <- <-. rewrite Hc in A. injection A as <-. pose proof (S2 c fs g Ht I1) as ->.
        eapply assoc_nodup; eauto. }
      clear - F KL FL DL. induction F as [|[g v] [g' t] gs F [H1 H2] HF IH]; constructor; cbn [fst snd forallb] in *.
      + subst g'. split; auto. apply andb_true_iff in FL. destruct FL as [FL _]. apply KL; auto. intros ->. apply (DL g t); left; reflexivity.
      + apply IH; [apply andb_true_iff in FL; tauto|]. intros g0 t0 I1 I2. apply (DL g0 t0); right; assumption.
    - rewrite OFF; auto.
    - eauto.
    - split.
      + intros j c0 gs g Hj Hp. assert (N : j <> l) by congruence. rewrite OFF in Hj by exact N. eauto.
      + intros c0 gs g H0 I0. rewrite OFF in H0 by exact NT. eauto.
  Qed.
  Lemma building_later this c fs f l h h1 : building this c fs f l h -> moves (fun m => (List.length h <= m)%nat) h h1 -> heap_ok C h1 -> building this c fs f l h1.
  Proof.
    intros [OK Ht (vs & Hl) [S1 S2]] [MC MK MO] OK1. pose proof (nth_lt _ _ _ Ht) as L1. pose proof (nth_lt _ _ _ Hl) as L2. constructor; auto.
    - rewrite MO by lia. exact Ht.
    - exists vs. rewrite MO by lia. exact Hl.
    - split.
      + intros j c0 gs g Hj Hp. destruct (Nat.lt_ge_cases j (List.length h)) as [L|L].
        * rewrite MO in Hj by lia. eauto.
        * assert (List.length h <= l)%nat by exact (MC j _ l L Hj (ex_intro _ g Hp)). lia.
      + intros c0 gs g H0 I0. rewrite MO in H0 by lia. eauto.
  Qed.

  (* ---- decode keeps the heap well-typed ---- *)
  Definition typing (dec : heap -> hval -> bytebuf -> option exn * heap * bytebuf) : Prop :=
    forall h v b, heap_ok C h -> bk b -> heap_ok C (snd (fst (dec h v b))) /\ bk (snd (dec h v b)).
  Lemma building_elem dec this c fs cd f l u y h b : typing dec -> framed dec -> building this c fs f l h -> assoc c C = Some cd -> assoc f (c_fields cd) = Some (TList u) -> hget f fs = HRef l ->
    fine_delem u y = true -> bk b ->
    building this c fs f l (fst (snd (hdec_elem dec (hnew E) this f y (h, b)))) /\ bk (snd (snd (hdec_elem dec (hnew E) this f y (h, b)))).
  Proof.
    intros T FR B Hc Hf Hg Hy Hb. assert (ADD := fun h x B => add_ok this c fs cd f l u h x B Hc Hf Hg). destruct y; cbn [hdec_elem].
    - pose proof (read_bytes_good n b Hb) as R. destruct (read_bytes n b) as [[e|bs] b']; [auto|]. destruct R as (L & _ & K). split; [|exact K]. apply ADD; auto. right. eapply int_fits; eauto.
    - pose proof (read_bytes_good n b Hb) as R. destruct (read_bytes n b) as [[e|bs] b']; [auto|]. destruct R as (L & Q & K). split; [|exact K]. apply ADD; auto. right. eapply flt_fits; eauto.
    - pose proof (read_fixed_good len pad left b Hb) as R. destruct (read_fixed len pad left b) as [[e|s] b']; [auto|]. destruct R as (L & K). split; [|exact K].
      destruct u; try discriminate Hy. apply ADD; auto.
    - pose proof (read_bytes_good n b Hb) as R. destruct (read_bytes n b) as [[e|bs] b']; [auto|]. destruct R as (L & _ & K). cbv zeta. destruct (get_int o bs >? 0); [|auto].
      pose proof (read_chars_good (get_int o bs) b' K) as R. destruct (read_chars (get_int o bs) b') as [[e|cs] b'']; [auto|]. destruct R as (Q & K2). split; [|exact K2].
      destruct u; try discriminate Hy. apply ADD; auto. right. apply decode_units'. exact Q.
    - destruct u; try discriminate Hy. cbn [fine_delem] in Hy. apply String.eqb_eq in Hy. subst c1.
      destruct (new_ok h c0 (bd_ok _ _ _ _ _ _ B)) as (OK1 & K1 & F1).
      assert (CQ : closed (fun m => (List.length h <= m)%nat) h) by (intros i k m L Hi; apply nth_lt in Hi; lia).
      destruct (new_moves E _ h c0 CQ (fun i L => L)) as [MQ IQ]. destruct (hnew E h c0) as [h1 x]. cbn [fst snd] in *.
      pose proof (has_new_later _ _ _ K1 (fun i L => L : (fun m => (List.length h <= m)%nat) i)) as NQ.
      pose proof (FR _ h1 x b (mv_closed _ _ _ MQ) NQ IQ) as DQ. destruct (T h1 x b OK1 Hb) as [OK2 K2]. destruct (dec h1 x b) as [[e h2] b']. cbn [fst snd] in *.
      pose proof (building_later _ _ _ _ _ _ _ B (moves_trans _ _ _ _ MQ DQ) OK2) as B2. destruct e; [auto|]. cbn [fst snd]. split; [|exact K2].
      apply ADD; auto. right. eapply fits_keeps; [exact (mv_keeps _ _ _ DQ)|exact F1].
  Qed.
  Lemma building_loop dec this c fs cd f l u y : typing dec -> framed dec -> assoc c C = Some cd -> assoc f (c_fields cd) = Some (TList u) -> hget f fs = HRef l -> fine_delem u y = true ->
    forall n h b, building this c fs f l h -> bk b ->
    building this c fs f l (fst (snd (iter n (hdec_elem dec (hnew E) this f y) (h, b)))) /\ bk (snd (snd (iter n (hdec_elem dec (hnew E) this f y) (h, b)))).
  Proof.
    intros T FR Hc Hf Hg Hy n. induction n as [|n IH]; intros h b B Hb; cbn [iter]; [auto|].
    destruct (building_elem dec this c fs cd f l u y h b T FR B Hc Hf Hg Hy Hb) as [B1 K1]. destruct (hdec_elem dec (hnew E) this f y (h, b)) as [[e|] [h1 b1]]; auto.
  Qed.
  Lemma hget_hset f x fs : In f (map fst fs) -> hget f (hset f x fs) = x.
  Proof.
    induction fs as [|[g v] fs IH]; cbn; [contradiction|]. destruct (String.eqb f g) eqn:Q; cbn; rewrite Q; auto.
    intros [I|I]; auto. subst g. rewrite String.eqb_refl in Q. discriminate.
  Qed.
  Lemma names_of h l c fs cd : heap_ok C h -> nth_error h l = Some (CObj c fs) -> assoc c C = Some cd -> map fst fs = map fst (c_fields cd).
  Proof.
    intros OK Hl Hc. destruct (OK l c fs Hl) as (cd' & A & F). rewrite Hc in A. injection A as <-. clear - F. induction F as [|fv ft fs F [H _] HF IH]; cbn; congruence.
  Qed.
  Lemma assoc_in_names {A} f (F : list (string * A)) t : assoc f F = Some t -> In f (map fst F).
  Proof. induction F as [|[g u] F IH]; cbn; [discriminate|]. destruct (String.eqb_spec f g); auto. Qed.
  Lemma bounded h l c fs g m : heap_ok C h -> nth_error h l = Some (CObj c fs) -> In (g, HRef m) fs -> (m < List.length h)%nat.
  Proof.
    intros OK Hl I. destruct (OK l c fs Hl) as (cd & _ & F).
    clear Hl. induction F as [|[g' v] [g'' t] fs F [H1 H2] HF IH]; [contradiction|]. destruct I as [I|I]; auto. injection I as -> ->. cbn [snd] in H2.
    destruct t; cbn in H2; try contradiction; [destruct H2 as (vs & H2 & _)|destruct H2 as (gs & H2)|destruct H2 as (c0 & gs & H2)]; eapply nth_lt; eauto.
  Qed.
  Lemma typed_dstmt dec create this c fs cd s h b : typing dec -> framed dec -> heap_ok C h ->
    nth_error h this = Some (CObj c fs) -> assoc c C = Some cd -> fine_dstmt (c_fields cd) s = true -> bk b ->
    heap_ok C (fst (snd (hexec_dstmt dec (hnew E) create this s (h, b)))) /\ bk (snd (snd (hexec_dstmt dec (hnew E) create this s (h, b)))).
  Proof.
    intros T FR OK Ht Hc Hs Hb. assert (PUT := fun f t x => put_ok h this c fs cd f t x OK Ht Hc). destruct s; cbn [hexec_dstmt]; cbn [fine_dstmt] in Hs.
    - pose proof (read_bytes_good n b Hb) as R. destruct (read_bytes n b) as [[e|bs] b']; [auto|]. destruct R as (L & _ & K). split; [|exact K].
      destruct (assoc f (c_fields cd)) as [t|] eqn:A; [|discriminate]. eapply PUT; eauto. eapply int_fits; eauto.
    - pose proof (read_bytes_good n b Hb) as R. destruct (read_bytes n b) as [[e|bs] b']; [auto|]. destruct R as (L & Q & K). split; [|exact K].
      destruct (assoc f (c_fields cd)) as [t|] eqn:A; [|discriminate]. eapply PUT; eauto. eapply flt_fits; eauto.
    - pose proof (read_fixed_good len pad left b Hb) as R. destruct (read_fixed len pad left b) as [[e|s] b']; [auto|]. destruct R as (L & K). split; [|exact K].
      destruct (assoc f (c_fields cd)) as [[]|] eqn:A; try discriminate. eapply PUT; eauto.
    - pose proof (read_bytes_good n b Hb) as R. destruct (read_bytes n b) as [[e|bs] b']; [auto|]. destruct R as (L & _ & K). cbv zeta. destruct (get_int o bs >? 0); [|auto].
      pose proof (read_chars_good (get_int o bs) b' K) as R. destruct (read_chars (get_int o bs) b') as [[e|cs] b'']; [auto|]. destruct R as (Q & K2). split; [|exact K2].
      destruct (assoc f (c_fields cd)) as [[]|] eqn:A; try discriminate. eapply PUT; eauto. apply decode_units'. exact Q.
    - pose proof (read_bytes_good n b Hb) as R. destruct (read_bytes n b) as [[e|bs] b']; [auto|]. destruct R as (L & _ & K). cbv zeta. destruct (get_int o bs >? 0); [|auto].
      destruct (assoc f (c_fields cd)) as [[]|] eqn:A; try discriminate. apply andb_true_iff in Hs. destruct Hs as [_ Hs]. cbn [alloc_cell]. rewrite repeat_z_iter.
      set (l := List.length h). assert (OK1 : heap_ok C (h ++ [CList []])) by (apply alloc_ok; auto; exact I).
      assert (Ht1 : nth_error (h ++ [CList []]) this = Some (CObj c fs)) by (rewrite nth_app_old; auto; eapply nth_lt; eauto).
      assert (NL : this <> l) by (apply nth_lt in Ht; unfold l; lia).
      destruct (building_loop dec this c (hset f (HRef l) fs) cd f l t y T FR Hc A) with (n := Z.to_nat (get_int o bs)) (h := put_field (h ++ [CList []]) this f (HRef l)) (b := b') as [B1 K1]; auto.
      + apply hget_hset. rewrite (names_of h this c fs cd OK Ht Hc). eapply assoc_in_names; eauto.
      + constructor.
        * eapply put_ok; eauto. apply fits_list_intro with []; [apply nth_app_new|intros x []].
        * apply put_at. exact Ht1.
        * exists []. rewrite put_off by auto. apply nth_app_new.
        * split.
          -- intros j c0 gs g Hj Hp. destruct (Nat.eq_dec j this) as [->|N]; auto. exfalso. rewrite put_off in Hj by exact N. destruct (Nat.lt_ge_cases j (List.length h)) as [LJ|LJ].
             ++ rewrite nth_app_old in Hj by exact LJ. assert (l < List.length h)%nat; [|unfold l in *; lia]. eapply bounded; eauto.
             ++ rewrite nth_error_app2 in Hj by exact LJ. destruct (j - List.length h)%nat as [|[|i]]; cbn in Hj; try discriminate.
          -- intros c0 gs g H0 I0. rewrite (put_at _ this f _ c fs Ht1) in H0. injection H0 as <- <-.
             assert (NF : forall g, ~ In (g, HRef l) fs).
             { intros g0 I1. assert (l < List.length h)%nat; [|unfold l in *; lia]. eapply bounded; [exact OK|exact Ht|exact I1]. }
             clear - I0 NF. induction fs as [|[g' v] fs IH]; cbn in *; [contradiction|]. destruct (String.eqb_spec f g') as [->|D].
             ++ destruct I0 as [I0|I0]; [congruence|]. exfalso. apply (NF g). right. exact I0.
             ++ destruct I0 as [I0|I0]; [exfalso; apply (NF g); left; exact I0|]. apply IH; auto. intros g0 I1. apply (NF g0). right. exact I1.
      + split; [|exact K1]. apply (bd_ok _ _ _ _ _ _ B1).
    - destruct (field h this f) eqn:Q; try (split; assumption). destruct (new_ok h c0 OK) as (OK1 & K1 & F1). destruct (hnew E h c0) as [h1 x]. cbn [fst snd] in *. split; [|exact Hb].
      destruct (keeps_object _ _ _ _ _ K1 Ht) as (gs & Hg & _). destruct (assoc f (c_fields cd)) as [[]|] eqn:A; try discriminate. apply String.eqb_eq in Hs. subst c1. eapply put_ok; eauto.
    - destruct (T h (field h this f) b OK Hb) as [A B]. destruct (dec h (field h this f) b) as [[e h1] b1]. split; assumption.
    - destruct (hkey_of (field h this key)) as [kk|]; [|split; assumption]. destruct (create kk) as [c0|]; [|split; assumption].
      destruct (new_ok h c0 OK) as (OK1 & K1 & F1). destruct (hnew E h c0) as [h1 x]. cbn [fst snd] in *. split; [|exact Hb].
      destruct (keeps_object _ _ _ _ _ K1 Ht) as (gs & Hg & _). destruct (assoc f (c_fields cd)) as [[]|] eqn:A; try discriminate. eapply put_ok; eauto.
      destruct x; cbn in *; auto. destruct F1 as (fs1 & F1). eauto.
  Qed.

  Lemma keeps_dstmt dec create this s (h : heap) b : framed dec -> (this < List.length h)%nat -> keeps h (fst (snd (hexec_dstmt dec (hnew E) create this s (h, b)))).
  Proof.
    intros FR L. apply (mv_keeps (fun _ => True)). apply frame_dstmt; auto; [intros ? ? ? _ _ _; exact I|intros ? _; exact I].
  Qed.
  Hypothesis fine_classes : forall c cd, find_class E c = Some cd -> forallb (fine_dstmt (c_fields cd)) (c_dec cd) = true.
  Lemma typed_dstmts dec create this c cd : typing dec -> framed dec -> assoc c C = Some cd -> forall ss h fs b, heap_ok C h ->
    nth_error h this = Some (CObj c fs) -> forallb (fine_dstmt (c_fields cd)) ss = true -> bk b ->
    heap_ok C (fst (snd (hexec_dec dec (hnew E) create this ss (h, b)))) /\ bk (snd (snd (hexec_dec dec (hnew E) create this ss (h, b)))).
  Proof.
    intros T FR Hc ss. induction ss as [|s ss IH]; intros h fs b OK Ht Hs Hb; cbn [hexec_dec]; [auto|]. cbn [forallb] in Hs. apply andb_true_iff in Hs. destruct Hs as [Hs Hss].
    destruct (typed_dstmt dec create this c fs cd s h b T FR OK Ht Hc Hs Hb) as [OK1 K1]. pose proof (keeps_dstmt dec create this s h b FR (nth_lt _ _ _ Ht)) as KP.
    destruct (hexec_dstmt dec (hnew E) create this s (h, b)) as [[e|] [h1 b1]]; cbn [fst snd] in *; [auto|]. destruct (keeps_object _ _ _ _ _ KP Ht) as (gs & Hg & _). eapply IH; eauto.
  Qed.
  Theorem typing_decode d : typing (hdecode E d).
  Proof.
    induction d as [|d IH]; intros h v b OK Hb; [destruct v; auto|]. destruct v as [|z|z|s|l]; auto. cbn [hdecode].
    destruct (nth_error h l) as [[c fs|vs]|] eqn:Hl; auto. destruct (find_class E c) as [cd|] eqn:Hc; auto.
    destruct (typed_dstmts (hdecode E d) (factory E c) l c cd IH (frame_decode E d) Hc (c_dec cd) h fs b OK Hl (fine_classes c cd Hc) Hb) as [A B].
    destruct (hexec_dec (hdecode E d) (hnew E) (factory E c) l (c_dec cd) (h, b)) as [e [h1 b1]]. auto.
  Qed.

  (* ---- two runs on the same bytes, into different objects of one class ---- *)
  Definition has (c : string) : bool := match find_class E c with Some _ => true | None => false end.
  Fixpoint keyed (K : list string) (T : option string) (ss : list dstmt) : bool :=
    match ss with
    | [] => true
    | DRead _ _ f :: r | DFix f _ _ _ :: r => keyed (f :: K) None r
    | DReadF _ _ _ :: r | DDyn _ _ _ :: r => keyed [] None r
    | DList f _ _ y :: r => match y with YObj c => has c | _ => true end && keyed (filter (fun k => negb (String.eqb k f)) K) None r
    | DNewIfNull f c :: r => has c && keyed [] (Some f) r
    | DObj f :: r => match T with Some g => String.eqb f g | None => false end && keyed [] None r
    | DCreate f k :: r => mem k K && keyed [] (Some f) r
    end.
  Definition alike (K : list string) (T : option string) (c : string) (h1 : heap) (l1 : nat) (h2 : heap) (l2 : nat) : Prop :=
    exists fs1 fs2, nth_error h1 l1 = Some (CObj c fs1) /\ nth_error h2 l2 = Some (CObj c fs2) /\ (forall k, In k K -> hget k fs1 = hget k fs2)
    /\ match T with
       | None => True
       | Some f => exists c' m1 m2 gs1 gs2, hget f fs1 = HRef m1 /\ hget f fs2 = HRef m2 /\ nth_error h1 m1 = Some (CObj c' gs1) /\ nth_error h2 m2 = Some (CObj c' gs2)
       end.
  Definition same (dec : heap -> hval -> bytebuf -> option exn * heap * bytebuf) : Prop :=
    forall h1 l1 fs1 h2 l2 fs2 c b, heap_ok C h1 -> heap_ok C h2 -> nth_error h1 l1 = Some (CObj c fs1) -> nth_error h2 l2 = Some (CObj c fs2) -> bk b ->
    fst (fst (dec h1 (HRef l1) b)) = fst (fst (dec h2 (HRef l2) b)) /\ snd (dec h1 (HRef l1) b) = snd (dec h2 (HRef l2) b).
  Lemma new_known h c : has c = true -> exists fs, hnew E h c = (h ++ [CObj c fs], HRef (List.length h)).
  Proof. unfold has, hnew. destruct (find_class E c); [|discriminate]. intros _. eexists. reflexivity. Qed.
  Lemma same_elem dec t1 t2 f y (h1 h2 : heap) b : same dec -> match y with YObj c => has c | _ => true end = true -> heap_ok C h1 -> heap_ok C h2 -> bk b ->
    fst (hdec_elem dec (hnew E) t1 f y (h1, b)) = fst (hdec_elem dec (hnew E) t2 f y (h2, b))
    /\ snd (snd (hdec_elem dec (hnew E) t1 f y (h1, b))) = snd (snd (hdec_elem dec (hnew E) t2 f y (h2, b))).
  Proof.
    intros S Hy OK1 OK2 Hb. destruct y; cbn [hdec_elem].
    - destruct (read_bytes n b) as [[e|bs] b']; auto.
    - destruct (read_bytes n b) as [[e|bs] b']; auto.
    - destruct (read_fixed len pad left b) as [[e|s] b']; auto.
    - destruct (read_bytes n b) as [[e|bs] b']; auto. cbv zeta. destruct (get_int o bs >? 0); auto. destruct (read_chars (get_int o bs) b') as [[e|cs] b'']; auto.
    - destruct (new_ok h1 c OK1) as (A1 & _). destruct (new_ok h2 c OK2) as (A2 & _). destruct (new_known h1 c Hy) as (g1 & N1). destruct (new_known h2 c Hy) as (g2 & N2).
      rewrite N1 in *. rewrite N2 in *. cbn [fst] in *. destruct (S _ _ g1 _ _ g2 c b A1 A2 (nth_app_new _ _) (nth_app_new _ _) Hb) as [Q1 Q2].
      destruct (dec (h1 ++ [CObj c g1]) (HRef (List.length h1)) b) as [[e1 h1'] b1]. destruct (dec (h2 ++ [CObj c g2]) (HRef (List.length h2)) b) as [[e2 h2'] b2]. cbn [fst snd] in *. subst.
      destruct e2; auto.
  Qed.
  Lemma same_loop dec c cd f u y t1 fs1 l1 t2 fs2 l2 : same dec -> typing dec -> framed dec -> assoc c C = Some cd -> assoc f (c_fields cd) = Some (TList u) -> fine_delem u y = true ->
    match y with YObj c => has c | _ => true end = true -> hget f fs1 = HRef l1 -> hget f fs2 = HRef l2 ->
    forall n h1 h2 b, building t1 c fs1 f l1 h1 -> building t2 c fs2 f l2 h2 -> bk b ->
    fst (iter n (hdec_elem dec (hnew E) t1 f y) (h1, b)) = fst (iter n (hdec_elem dec (hnew E) t2 f y) (h2, b))
    /\ snd (snd (iter n (hdec_elem dec (hnew E) t1 f y) (h1, b))) = snd (snd (iter n (hdec_elem dec (hnew E) t2 f y) (h2, b))).
  Proof.
    intros S T FR Hc Hf Hy Hh G1 G2 n. induction n as [|n IH]; intros h1 h2 b B1 B2 Hb; cbn [iter]; auto.
    destruct (same_elem dec t1 t2 f y h1 h2 b S Hh (bd_ok _ _ _ _ _ _ B1) (bd_ok _ _ _ _ _ _ B2) Hb) as [Q1 Q2].
    destruct (building_elem dec t1 c fs1 cd f l1 u y h1 b T FR B1 Hc Hf G1 Hy Hb) as [B1' K1]. destruct (building_elem dec t2 c fs2 cd f l2 u y h2 b T FR B2 Hc Hf G2 Hy Hb) as [B2' K2].
    destruct (hdec_elem dec (hnew E) t1 f y (h1, b)) as [e1 [h1' b1]]. destruct (hdec_elem dec (hnew E) t2 f y (h2, b)) as [e2 [h2' b2]]. cbn [fst snd] in *. subst. destruct e2; auto.
  Qed.
  (* the list of a DList has just been created *)
  Lemma building_start this c fs cd f t h : heap_ok C h -> nth_error h this = Some (CObj c fs) -> assoc c C = Some cd -> assoc f (c_fields cd) = Some (TList t) ->
    let l := List.length h in building this c (hset f (HRef l) fs) f l (put_field (h ++ [CList []]) this f (HRef l)) /\ hget f (hset f (HRef l) fs) = HRef l.
  Proof.
    intros OK Ht Hc A l. assert (OK1 : heap_ok C (h ++ [CList []])) by (apply alloc_ok; auto; exact I).
    assert (Ht1 : nth_error (h ++ [CList []]) this = Some (CObj c fs)) by (rewrite nth_app_old; auto; eapply nth_lt; eauto).
    assert (NL : this <> l) by (apply nth_lt in Ht; unfold l; lia).
    split.
    - constructor.
      + eapply put_ok; eauto. apply fits_list_intro with []; [apply nth_app_new|intros x []].
      + apply put_at. exact Ht1.
      + exists []. rewrite put_off by auto. apply nth_app_new.
      + split.
        * intros j c0 gs g Hj Hp. destruct (Nat.eq_dec j this) as [->|N]; auto. exfalso. rewrite put_off in Hj by exact N. destruct (Nat.lt_ge_cases j (List.length h)) as [LJ|LJ].
          -- rewrite nth_app_old in Hj by exact LJ. assert (l < List.length h)%nat; [|unfold l in *; lia]. eapply bounded; eauto.
          -- rewrite nth_error_app2 in Hj by exact LJ. destruct (j - List.length h)%nat as [|[|i]]; cbn in Hj; discriminate.
        * intros c0 gs g H0 I0. rewrite (put_at _ this f _ c fs Ht1) in H0. injection H0 as <- <-.
          assert (NF : forall g, ~ In (g, HRef l) fs).
          { intros g0 I1. assert (l < List.length h)%nat; [|unfold l in *; lia]. eapply bounded; [exact OK|exact Ht|exact I1]. }
          clear - I0 NF. induction fs as [|[g' v] fs IH]; cbn in *; [contradiction|]. destruct (String.eqb_spec f g') as [->|D].
          -- destruct I0 as [I0|I0]; [congruence|]. exfalso. apply (NF g). right. exact I0.
          -- destruct I0 as [I0|I0]; [exfalso; apply (NF g); left; exact I0|]. apply IH; auto. intros g0 I1. apply (NF g0). right. exact I1.
    - apply hget_hset. rewrite (names_of h this c fs cd OK Ht Hc). eapply assoc_in_names; eauto.
  Qed.
  Lemma hget_hset_off f g x fs : f <> g -> hget f (hset g x fs) = hget f fs.
  Proof.
    intros N. induction fs as [|[a v] fs IH]; cbn; auto. destruct (String.eqb_spec g a) as [->|D]; cbn; [destruct (String.eqb_spec f a); congruence|].
    destruct (String.eqb f a); auto.
  Qed.
  (* both sides store x in f *)
  Lemma alike_put K T c cd h1 l1 h2 l2 f x t : heap_ok C h1 -> heap_ok C h2 -> assoc c C = Some cd -> assoc f (c_fields cd) = Some t -> alike K T c h1 l1 h2 l2 ->
    alike (f :: K) None c (put_field h1 l1 f x) l1 (put_field h2 l2 f x) l2.
  Proof.
    intros OK1 OK2 Hc Hf (fs1 & fs2 & H1 & H2 & HK & _). exists (hset f x fs1), (hset f x fs2). rewrite (put_at h1 l1 f x c fs1 H1), (put_at h2 l2 f x c fs2 H2). repeat split; auto.
    assert (I1 : In f (map fst fs1)) by (rewrite (names_of h1 l1 c fs1 cd OK1 H1 Hc); eapply assoc_in_names; eauto).
    assert (I2 : In f (map fst fs2)) by (rewrite (names_of h2 l2 c fs2 cd OK2 H2 Hc); eapply assoc_in_names; eauto).
    intros k Hk. destruct (String.eqb_spec k f) as [->|N].
    - rewrite !hget_hset; auto.
    - rewrite !hget_hset_off by exact N. apply HK. destruct Hk; [congruence|assumption].
  Qed.
  Lemma alike_nothing K T c h1 l1 h2 l2 h1' h2' : alike K T c h1 l1 h2 l2 -> keeps h1 h1' -> keeps h2 h2' -> alike [] None c h1' l1 h2' l2.
  Proof.
    intros (fs1 & fs2 & H1 & H2 & _) K1 K2. destruct (keeps_object _ _ _ _ _ K1 H1) as (g1 & G1 & _). destruct (keeps_object _ _ _ _ _ K2 H2) as (g2 & G2 & _).
    exists g1, g2. repeat split; auto. intros k [].
  Qed.
  (* this.f = new c' *)
  Lemma put_new h l c cd fs f t c' : heap_ok C h -> nth_error h l = Some (CObj c fs) -> assoc c C = Some cd -> assoc f (c_fields cd) = Some t -> has c' = true ->
    exists gs, nth_error (put_field (fst (hnew E h c')) l f (snd (hnew E h c'))) l = Some (CObj c (hset f (HRef (List.length h)) fs))
      /\ hget f (hset f (HRef (List.length h)) fs) = HRef (List.length h) /\ nth_error (put_field (fst (hnew E h c')) l f (snd (hnew E h c'))) (List.length h) = Some (CObj c' gs).
  Proof.
    intros OK Hl Hc Hf Hh. destruct (new_known h c' Hh) as (gs & ->). cbn [fst snd]. exists gs. pose proof (nth_lt _ _ _ Hl) as L. split; [|split].
    - apply put_at. rewrite nth_app_old; auto.
    - apply hget_hset. rewrite (names_of h l c fs cd OK Hl Hc). eapply assoc_in_names; eauto.
    - rewrite put_off by lia. apply nth_app_new.
  Qed.
  Lemma known_field h l c cd fs f t : heap_ok C h -> nth_error h l = Some (CObj c fs) -> assoc c C = Some cd -> assoc f (c_fields cd) = Some t -> fits h (hget f fs) t.
  Proof.
    intros OK Hl Hc Hf. destruct (OK l c fs Hl) as (cd' & A & F). rewrite Hc in A. injection A as <-. clear - F Hf. revert Hf.
    induction F as [|[g v] [g' u] fs F [H1 H2] HF IH]; cbn [assoc hget fst snd] in *; intros Hf; [discriminate|]. subst g'. destruct (String.eqb f g); [congruence|auto].
  Qed.
  Lemma new_if_null h l c cd fs f c' b dec create : heap_ok C h -> nth_error h l = Some (CObj c fs) -> assoc c C = Some cd -> assoc f (c_fields cd) = Some (TObj c') -> has c' = true ->
    exists h' fs' m gs, hexec_dstmt dec (hnew E) create l (DNewIfNull f c') (h, b) = (None, (h', b)) /\ nth_error h' l = Some (CObj c fs')
      /\ hget f fs' = HRef m /\ nth_error h' m = Some (CObj c' gs).
  Proof.
    intros OK Hl Hc Hf Hh. cbn [hexec_dstmt]. rewrite (field_at h l f c fs Hl). pose proof (known_field h l c cd fs f _ OK Hl Hc Hf) as F.
    destruct (hget f fs) eqn:G; try contradiction.
    - destruct (put_new h l c cd fs f _ c' OK Hl Hc Hf Hh) as (gs & A & B & D). destruct (hnew E h c') as [h1 x]. cbn [fst snd] in *. eauto 10.
    - destruct F as (gs & F). eauto 10.
  Qed.
  Lemma same_dstmt dec create K T s r c cd h1 l1 h2 l2 b : same dec -> typing dec -> framed dec -> (forall k c', create k = Some c' -> has c' = true) ->
    heap_ok C h1 -> heap_ok C h2 -> assoc c C = Some cd -> alike K T c h1 l1 h2 l2 ->
    fine_dstmt (c_fields cd) s = true -> keyed K T (s :: r) = true -> bk b ->
    exists K' T', let '(e1, (h1', b1)) := hexec_dstmt dec (hnew E) create l1 s (h1, b) in let '(e2, (h2', b2)) := hexec_dstmt dec (hnew E) create l2 s (h2, b) in
    e1 = e2 /\ b1 = b2 /\ (e1 = None -> alike K' T' c h1' l1 h2' l2 /\ keyed K' T' r = true).
  Proof.
    intros S TY FR HF OK1 OK2 Hc A Hs Hk Hb. assert (A' := A). destruct A' as (fs1 & fs2 & H1 & H2 & HK & HT).
    pose proof (keeps_dstmt dec create l1 s h1 b FR (nth_lt _ _ _ H1)) as KP1. pose proof (keeps_dstmt dec create l2 s h2 b FR (nth_lt _ _ _ H2)) as KP2.
    destruct s; cbn [hexec_dstmt] in *; cbn [fine_dstmt] in Hs; cbn [keyed] in Hk.
    - exists (f :: K), None. destruct (read_bytes n b) as [[e|bs] b']; [split; auto; split; auto; discriminate|]. split; auto. split; auto. intros _. split; auto.
      destruct (assoc f (c_fields cd)) as [t|] eqn:Q; [|discriminate]. eapply alike_put; eauto.
    - exists [], None. destruct (read_bytes n b) as [[e|bs] b']; [split; auto; split; auto; discriminate|]. split; auto. split; auto. intros _. split; auto.
      eapply alike_nothing; eauto.
    - exists (f :: K), None. destruct (read_fixed len pad left b) as [[e|s] b']; [split; auto; split; auto; discriminate|]. split; auto. split; auto. intros _. split; auto.
      destruct (assoc f (c_fields cd)) as [t|] eqn:Q; [|discriminate]. eapply alike_put; eauto.
    - exists [], None. destruct (read_bytes n b) as [[e|bs] b']; [split; auto; split; auto; discriminate|]. cbv zeta in *. destruct (get_int o bs >? 0).
      + destruct (read_chars (get_int o bs) b') as [[e|cs] b'']; [split; auto; split; auto; discriminate|]. split; auto. split; auto. intros _. split; auto. eapply alike_nothing; eauto.
      + split; auto. split; auto. intros _. split; auto. eapply alike_nothing; eauto.
    - exists (filter (fun k => negb (String.eqb k f)) K), None. apply andb_true_iff in Hk. destruct Hk as [Hy Hk]. pose proof (read_bytes_good n b Hb) as R. destruct (read_bytes n b) as [[e|bs] b']; [split; auto; split; auto; discriminate|]. cbv zeta in *. destruct R as (_ & _ & Kb).
      destruct (get_int o bs >? 0); [|split; auto; split; auto; intros _; split; auto; exists fs1, fs2; repeat split; auto; intros k I; apply filter_In in I; apply HK; tauto]. cbn [alloc_cell] in *. rewrite !repeat_z_iter in *.
      destruct (assoc f (c_fields cd)) as [[]|] eqn:Q; try discriminate. apply andb_true_iff in Hs. destruct Hs as [_ Hs].
      destruct (building_start l1 c fs1 cd f t h1 OK1 H1 Hc Q) as [B1 G1]. destruct (building_start l2 c fs2 cd f t h2 OK2 H2 Hc Q) as [B2 G2]. cbv zeta in *.
      destruct (same_loop dec c cd f t y _ _ _ _ _ _ S TY FR Hc Q Hs Hy G1 G2 (Z.to_nat (get_int o bs)) _ _ b' B1 B2 Kb) as [E1 E2].
      destruct (building_loop dec l1 c _ cd f _ t y TY FR Hc Q G1 Hs (Z.to_nat (get_int o bs)) _ b' B1 Kb) as [D1 _]. destruct (building_loop dec l2 c _ cd f _ t y TY FR Hc Q G2 Hs (Z.to_nat (get_int o bs)) _ b' B2 Kb) as [D2 _].
      destruct (iter (Z.to_nat (get_int o bs)) (hdec_elem dec (hnew E) l1 f y) _) as [e1 [h1' b1]]. destruct (iter (Z.to_nat (get_int o bs)) (hdec_elem dec (hnew E) l2 f y) _) as [e2 [h2' b2]].
      cbn [fst snd] in *. split; auto. split; auto. intros _. split; auto. eexists _, _. split; [exact (bd_this _ _ _ _ _ _ D1)|]. split; [exact (bd_this _ _ _ _ _ _ D2)|]. split; [|exact I].
      intros k I. apply filter_In in I. destruct I as [Ik Nk]. assert (k <> f) by (intros ->; rewrite String.eqb_refl in Nk; discriminate). rewrite !hget_hset_off by assumption. auto.
    - exists [], (Some f). apply andb_true_iff in Hk. destruct Hk as [Hh Hk]. destruct (assoc f (c_fields cd)) as [[]|] eqn:Q; try discriminate. apply String.eqb_eq in Hs. subst c1.
      destruct (new_if_null h1 l1 c cd fs1 f c0 b dec create OK1 H1 Hc Q Hh) as (h1' & g1 & m1 & s1 & X1 & Y1 & Z1 & W1).
      destruct (new_if_null h2 l2 c cd fs2 f c0 b dec create OK2 H2 Hc Q Hh) as (h2' & g2 & m2 & s2 & X2 & Y2 & Z2 & W2). cbn [hexec_dstmt] in X1, X2. rewrite X1, X2.
      split; auto. split; auto. intros _. split; auto. exists g1, g2. repeat split; auto; [intros k []|]. exists c0, m1, m2, s1, s2. auto.
    - exists [], None. destruct T as [g|]; [|discriminate]. apply andb_true_iff in Hk. destruct Hk as [Hg Hk]. apply String.eqb_eq in Hg. subst g.
      destruct HT as (c' & m1 & m2 & s1 & s2 & X1 & X2 & X3 & X4). rewrite (field_at h1 l1 f c fs1 H1), (field_at h2 l2 f c fs2 H2), X1, X2 in *.
      destruct (S h1 m1 s1 h2 m2 s2 c' b OK1 OK2 X3 X4 Hb) as [Q1 Q2]. destruct (dec h1 (HRef m1) b) as [[e1 h1'] b1]. destruct (dec h2 (HRef m2) b) as [[e2 h2'] b2]. cbn [fst snd] in *.
      split; auto. split; auto. intros _. split; auto. eapply alike_nothing; eauto.
    - exists [], (Some f). apply andb_true_iff in Hk. destruct Hk as [Hh Hk]. apply mem_in in Hh. rewrite (field_at h1 l1 key c fs1 H1), (field_at h2 l2 key c fs2 H2), (HK _ Hh).
      destruct (hkey_of (hget key fs2)) as [kk|]; [|split; auto; split; auto; discriminate]. destruct (create kk) as [c0|] eqn:Q0; [|split; auto; split; auto; discriminate].
      apply HF in Q0. destruct (assoc f (c_fields cd)) as [t|] eqn:Q; [|discriminate].
      destruct (put_new h1 l1 c cd fs1 f _ c0 OK1 H1 Hc Q Q0) as (s1 & X1 & Y1 & Z1). destruct (put_new h2 l2 c cd fs2 f _ c0 OK2 H2 Hc Q Q0) as (s2 & X2 & Y2 & Z2).
      destruct (hnew E h1 c0) as [g1 x1]. destruct (hnew E h2 c0) as [g2 x2]. cbn [fst snd] in *. split; auto. split; auto. intros _. split; auto.
      eexists _, _. split; [exact X1|]. split; [exact X2|]. split; [intros k []|]. exists c0, (List.length h1), (List.length h2), s1, s2. auto.
  Qed.
  Lemma same_dstmts dec create c cd l1 l2 : same dec -> typing dec -> framed dec -> (forall k c', create k = Some c' -> has c' = true) -> assoc c C = Some cd ->
    forall ss K T h1 h2 b, heap_ok C h1 -> heap_ok C h2 -> alike K T c h1 l1 h2 l2 -> forallb (fine_dstmt (c_fields cd)) ss = true -> keyed K T ss = true -> bk b ->
    fst (hexec_dec dec (hnew E) create l1 ss (h1, b)) = fst (hexec_dec dec (hnew E) create l2 ss (h2, b))
    /\ snd (snd (hexec_dec dec (hnew E) create l1 ss (h1, b))) = snd (snd (hexec_dec dec (hnew E) create l2 ss (h2, b))).
  Proof.
    intros S TY FR HF Hc ss. induction ss as [|s ss IH]; intros K T h1 h2 b OK1 OK2 A Hs Hk Hb; cbn [hexec_dec]; auto.
    cbn [forallb] in Hs. apply andb_true_iff in Hs. destruct Hs as [Hs Hss].
    destruct (same_dstmt dec create K T s ss c cd h1 l1 h2 l2 b S TY FR HF OK1 OK2 Hc A Hs Hk Hb) as (K' & T' & Q). destruct A as (fs1 & fs2 & H1 & H2 & _).
    destruct (typed_dstmt dec create l1 c fs1 cd s h1 b TY FR OK1 H1 Hc Hs Hb) as [OK1' B1]. destruct (typed_dstmt dec create l2 c fs2 cd s h2 b TY FR OK2 H2 Hc Hs Hb) as [OK2' B2].
    destruct (hexec_dstmt dec (hnew E) create l1 s (h1, b)) as [e1 [h1' b1]]. destruct (hexec_dstmt dec (hnew E) create l2 s (h2, b)) as [e2 [h2' b2]]. cbn [fst snd] in *.
    destruct Q as (<- & <- & Q). destruct e1 as [e1|]; auto. destruct (Q eq_refl) as [A' Hk']. eapply IH; eauto.
  Qed.
  Hypothesis keyed_classes : forall c cd, find_class E c = Some cd -> keyed [] None (c_dec cd) = true.
  Hypothesis suppliers : forall o t c, factory E o t = Some c -> has c = true.
  Theorem same_decode d : same (hdecode E d).
  Proof.
    induction d as [|d IH]; intros h1 l1 fs1 h2 l2 fs2 c b OK1 OK2 H1 H2 Hb; [auto|]. cbn [hdecode]. rewrite H1, H2. destruct (find_class E c) as [cd|] eqn:Hc; auto.
    destruct (same_dstmts (hdecode E d) (factory E c) c cd l1 l2 IH (typing_decode d) (frame_decode E d) (suppliers c) Hc (c_dec cd) [] None h1 h2 b OK1 OK2) as [Q1 Q2]; auto.
    - exists fs1, fs2. repeat split; auto. intros k [].
    - apply (fine_classes c cd Hc).
    - apply (keyed_classes c cd Hc).
    - destruct (hexec_dec (hdecode E d) (hnew E) (factory E c) l1 (c_dec cd) (h1, b)) as [e1 [h1' b1]]. destruct (hexec_dec (hdecode E d) (hnew E) (factory E c) l2 (c_dec cd) (h2, b)) as [e2 [h2' b2]]. auto.
  Qed.
End Types.
