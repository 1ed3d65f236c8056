(* decode on any object graph: what it changes. *)
From Coq Require Import ZArith List Bool String Lia.
From Verif.Model Require Import JavaPrim ByteBuf Utf8 Codec Ast Interp Show Heap.
From Verif.Spec Require Import Bytes Wire Sharing.
From Verif.Proofs Require Import DecodeFacts HeapFacts HeapOwn.
Import ListNotations.

Definition points (k : cell) (m : nat) : Prop :=
  match k with CObj _ fs => exists f, In (f, HRef m) fs | CList vs => In (HRef m) vs end.
Definition closed (P : nat -> Prop) (h : heap) : Prop := forall l k m, P l -> nth_error h l = Some k -> points k m -> P m.
Definition inside (P : nat -> Prop) (v : hval) : Prop := forall l, v = HRef l -> P l.

Lemma preserved_refl k : preserved k k.
Proof. destruct k; cbn; auto. Qed.
Lemma preserved_trans k k1 k2 : preserved k k1 -> preserved k1 k2 -> preserved k k2.
Proof.
  destruct k as [c fs|vs], k1 as [c1 fs1|vs1], k2 as [c2 fs2|vs2]; cbn; intros A B; try congruence; try discriminate.
  destruct A as [-> A], B as [-> B]. split; congruence.
Qed.
(* cells that were there at the start (h0), now (h) *)
Definition keeps (h0 h : heap) : Prop := forall l k, nth_error h0 l = Some k -> exists k', nth_error h l = Some k' /\ preserved k k'.
Lemma keeps_refl h : keeps h h.
Proof. intros l k H. exists k. split; auto. apply preserved_refl. Qed.
Lemma keeps_trans h h1 h2 : keeps h h1 -> keeps h1 h2 -> keeps h h2.
Proof. intros A B l k H. destruct (A l k H) as (k1 & H1 & K1). destruct (B l k1 H1) as (k2 & H2 & K2). exists k2. split; auto. eapply preserved_trans; eauto. Qed.
Lemma keeps_length h h1 : keeps h h1 -> (List.length h <= List.length h1)%nat.
Proof.
  intros K. destruct (Nat.le_gt_cases (List.length h) (List.length h1)) as [L|L]; auto.
  destruct (nth_error h (List.length h1)) as [k|] eqn:A; [|apply nth_error_None in A; lia].
  destruct (K _ _ A) as (k' & A' & _). apply nth_lt in A'. lia.
Qed.
Lemma keeps_object h h1 l c fs : keeps h h1 -> nth_error h l = Some (CObj c fs) -> exists gs, nth_error h1 l = Some (CObj c gs) /\ map fst gs = map fst fs.
Proof. intros K H. destruct (K _ _ H) as ([c' gs|vs] & A & B); cbn in B; [destruct B as [-> B]; eauto|discriminate]. Qed.

Record moves (P : nat -> Prop) (h h1 : heap) : Prop := {
  mv_closed : closed P h1;
  mv_keeps : keeps h h1;
  mv_off : forall l, ~ P l -> nth_error h1 l = nth_error h l
}.
Definition has_new (P : nat -> Prop) (h : heap) : Prop := forall l, (List.length h <= l)%nat -> P l.
Lemma has_new_later P h h1 : keeps h h1 -> has_new P h -> has_new P h1.
Proof. intros K N l Hl. apply N. apply keeps_length in K. lia. Qed.
Lemma moves_refl P h : closed P h -> moves P h h.
Proof. intros C. constructor; auto. apply keeps_refl. Qed.
Lemma moves_trans P h h1 h2 : moves P h h1 -> moves P h1 h2 -> moves P h h2.
Proof. intros [C1 K1 O1] [C2 K2 O2]. constructor; auto. - eapply keeps_trans; eauto. - intros l N. rewrite O2, O1; auto. Qed.

Lemma hset_in f x fs g v : In (g, v) (hset f x fs) -> v = x \/ In (g, v) fs.
Proof.
  induction fs as [|[a u] fs IH]; cbn; auto. destruct (String.eqb f a); intros [I|I]; auto.
  - injection I as _ <-. auto.
  - destruct (IH I); auto.
Qed.
Lemma put_moves (P : nat -> Prop) h this f x : closed P h -> P this -> inside P x -> moves P h (put_field h this f x).
Proof.
  intros C Pt Px. unfold put_field. destruct (nth_error h this) as [[c fs|vs]|] eqn:Ht; try (apply moves_refl; exact C). constructor.
  - intros l k m Pl Hl Hm. destruct (Nat.eq_dec l this) as [->|N].
    + rewrite upd_at in Hl by (eapply nth_lt; eauto). injection Hl as <-. destruct Hm as (g & I). apply hset_in in I. destruct I as [I|I].
      * apply Px. auto.
      * apply (C this (CObj c fs) m Pt Ht). exists g. exact I.
    + rewrite upd_off in Hl by exact N. eapply C; eauto.
  - intros l k Hl. destruct (Nat.eq_dec l this) as [->|N].
    + rewrite upd_at by (eapply nth_lt; eauto). rewrite Ht in Hl. injection Hl as <-. exists (CObj c (hset f x fs)). split; auto. split; auto. apply names_hset.
    + rewrite upd_off by exact N. exists k. split; auto. apply preserved_refl.
  - intros l N. apply upd_off. intros ->. contradiction.
Qed.
Lemma alloc_moves (P : nat -> Prop) h k : closed P h -> has_new P h -> (forall m, points k m -> P m) -> moves P h (h ++ [k]).
Proof.
  intros C N K. constructor.
  - intros l k' m Pl Hl Hm. destruct (Nat.lt_ge_cases l (List.length h)) as [L|L].
    + rewrite nth_app_old in Hl by exact L. eapply C; eauto.
    + rewrite nth_error_app2 in Hl by exact L. destruct (l - List.length h)%nat as [|[|i]]; cbn in Hl; try discriminate. injection Hl as <-. auto.
  - intros l k' Hl. rewrite nth_app_old by (eapply nth_lt; eauto). exists k'. split; auto. apply preserved_refl.
  - intros l Hl. destruct (Nat.lt_ge_cases l (List.length h)) as [L|L]; [apply nth_app_old; exact L|]. exfalso. apply Hl. apply N. exact L.
Qed.
Lemma default_no_ref (l : list (string * ftype)) f m : ~ In (f, HRef m) (map (fun ft => (fst ft, hdefault (snd ft))) l).
Proof. intros I. apply in_map_iff in I. destruct I as ([g t] & E & _). cbn in E. destruct t; discriminate E. Qed.
Lemma new_moves E (P : nat -> Prop) h c : closed P h -> has_new P h -> moves P h (fst (hnew E h c)) /\ inside P (snd (hnew E h c)).
Proof.
  intros C N. unfold hnew. destruct (find_class E c) as [cd|].
  - cbn [alloc_cell fst snd]. split.
    + apply alloc_moves; auto. intros m (f & I). apply default_no_ref in I. contradiction.
    + intros l H. injection H as <-. apply N. auto.
  - split; [apply moves_refl; exact C|]. intros l H. discriminate H.
Qed.
Lemma hget_in f fs m : hget f fs = HRef m -> exists g, In (g, HRef m) fs.
Proof. induction fs as [|[g v] fs IH]; cbn; [discriminate|]. destruct (String.eqb f g); [intros ->; eauto|]. intros H. destruct (IH H) as (g' & I). eauto. Qed.
Lemma inside_field (P : nat -> Prop) h this f : closed P h -> P this -> inside P (field h this f).
Proof.
  intros C Pt m H. unfold field in H. destruct (nth_error h this) as [[c fs|vs]|] eqn:Ht; try discriminate H.
  apply hget_in in H. eapply C; eauto.
Qed.

Section FrameDecode.
  Variable E : env.
  Definition framed (dec : heap -> hval -> bytebuf -> option exn * heap * bytebuf) : Prop :=
    forall P h v b, closed P h -> has_new P h -> inside P v -> moves P h (snd (fst (dec h v b))).

  (* while the elements of the list this.f are decoded; h0 is the heap before the list was created *)
  Record filling (P : nat -> Prop) (h0 : heap) (this : nat) (f : string) (h : heap) : Prop := {
    fl_moves : moves P h0 h;
    fl_fresh : field h this f = HNull \/ exists l, field h this f = HRef l /\ (List.length h0 <= l)%nat
  }.
  Lemma field_moves (Q : nat -> Prop) h h1 this f : moves Q h h1 -> ~ Q this -> field h1 this f = field h this f.
  Proof. intros M N. unfold field. rewrite (mv_off _ _ _ M this N). reflexivity. Qed.
  Lemma add_filling (P : nat -> Prop) h0 this f h x : (this < List.length h0)%nat -> has_new P h0 -> inside P x -> filling P h0 this f h ->
    filling P h0 this f (list_add h (field h this f) x).
  Proof.
    intros Lt N Px [[C K O] FR]. destruct FR as [FR|(l & FR & L)]; rewrite FR; cbn [list_add]; [constructor; [constructor|]; auto|].
    destruct (nth_error h l) as [[c fs|vs]|] eqn:Hl; try (constructor; [constructor|]; eauto; fail).
    assert (OFF : forall m, m <> l -> nth_error (upd h l (CList (vs ++ [x]))) m = nth_error h m) by (intros m D; apply upd_off; exact D).
    constructor; [constructor|].
    - intros i k m Pi Hi Hm. destruct (Nat.eq_dec i l) as [->|D].
      + rewrite upd_at in Hi by (eapply nth_lt; eauto). injection Hi as <-. cbn in Hm. apply in_app_or in Hm. destruct Hm as [Hm|[Hm|[]]].
        * apply (C l (CList vs) m Pi Hl Hm).
        * apply Px. exact Hm.
      + rewrite OFF in Hi by exact D. eapply C; eauto.
    - intros i k Hi. rewrite OFF by (apply nth_lt in Hi; lia). exact (K i k Hi).
    - intros i Pi. rewrite OFF; auto. intros ->. apply Pi. apply N. exact L.
    - right. exists l. split; auto. unfold field. rewrite OFF by lia. exact FR.
  Qed.
  Lemma filling_later (P Q : nat -> Prop) h0 this f h h1 : filling P h0 this f h -> moves P h h1 -> moves Q h h1 -> ~ Q this -> filling P h0 this f h1.
  Proof. intros [M FR] M1 M2 N. constructor; [eapply moves_trans; eauto|]. rewrite (field_moves Q h h1 this f M2 N). exact FR. Qed.
  Lemma frame_delem dec (P : nat -> Prop) h0 this f y h b : framed dec -> (this < List.length h0)%nat -> has_new P h0 -> filling P h0 this f h ->
    filling P h0 this f (fst (snd (hdec_elem dec (hnew E) this f y (h, b)))).
  Proof.
    intros S Lt N F. assert (NR : forall v, (forall l, v <> HRef l) -> inside P v) by (intros v D l ->; destruct (D l); reflexivity).
    destruct y; cbn [hdec_elem].
    - destruct (read_bytes n b) as [[e|bs] b']; [exact F|]. apply add_filling; auto. apply NR. discriminate.
    - destruct (read_bytes n b) as [[e|bs] b']; [exact F|]. apply add_filling; auto. apply NR. discriminate.
    - destruct (read_fixed len pad left b) as [[e|s] b']; [exact F|]. apply add_filling; auto. apply NR. discriminate.
    - destruct (read_bytes n b) as [[e|bs] b']; [exact F|]. cbv zeta. destruct (get_int o bs >? 0)%Z; [|exact F].
      destruct (read_chars (get_int o bs) b') as [[e|cs] b'']; [exact F|]. apply add_filling; auto. apply NR. discriminate.
    - pose proof (fl_moves _ _ _ _ _ F) as [C K O]. pose proof (has_new_later _ _ _ K N) as N1.
      assert (CQ : closed (fun l => (List.length h <= l)%nat) h).
      { intros l k m L Hl. apply nth_lt in Hl. lia. }
      assert (NQ : has_new (fun l => (List.length h <= l)%nat) h) by (intros l L; exact L).
      assert (NT : ~ (List.length h <= this)%nat) by (apply keeps_length in K; lia).
      destruct (new_moves E P h c C N1) as [MP IP]. destruct (new_moves E _ h c CQ NQ) as [MQ IQ]. destruct (hnew E h c) as [h1 x]. cbn [fst snd] in *.
      pose proof (has_new_later _ _ _ (mv_keeps _ _ _ MP) N1) as N2. pose proof (has_new_later _ _ _ (mv_keeps _ _ _ MQ) NQ) as NQ2.
      pose proof (S P h1 x b (mv_closed _ _ _ MP) N2 IP) as DP. pose proof (S _ h1 x b (mv_closed _ _ _ MQ) NQ2 IQ) as DQ.
      destruct (dec h1 x b) as [[e h2] b']. cbn [fst snd] in DP, DQ.
      assert (F2 : filling P h0 this f h2).
      { eapply filling_later; [exact F| | |exact NT]; eapply moves_trans; eauto. }
      destruct e; [exact F2|]. apply add_filling; auto.
  Qed.
  Lemma frame_loop dec (P : nat -> Prop) h0 this f y : framed dec -> (this < List.length h0)%nat -> has_new P h0 -> forall n h b, filling P h0 this f h ->
    filling P h0 this f (fst (snd (iter n (hdec_elem dec (hnew E) this f y) (h, b)))).
  Proof.
    intros S Lt N n. induction n as [|n IH]; intros h b F; cbn [iter]; [exact F|].
    pose proof (frame_delem dec P h0 this f y h b S Lt N F) as F1. destruct (hdec_elem dec (hnew E) this f y (h, b)) as [[e|] [h1 b1]]; [exact F1|]. apply IH. exact F1.
  Qed.
  Lemma frame_dstmt dec create (P : nat -> Prop) this s h b : framed dec -> closed P h -> has_new P h -> P this -> (this < List.length h)%nat ->
    moves P h (fst (snd (hexec_dstmt dec (hnew E) create this s (h, b)))).
  Proof.
    intros S C N Pt Lt. pose proof (moves_refl P h C) as R. assert (NR : forall v, (forall l, v <> HRef l) -> inside P v) by (intros v D l ->; destruct (D l); reflexivity).
    assert (NEW : forall f c, moves P h (put_field (fst (hnew E h c)) this f (snd (hnew E h c)))).
    { intros f c. destruct (new_moves E P h c C N) as [M I]. eapply moves_trans; [exact M|]. apply put_moves; auto. apply (mv_closed _ _ _ M). }
    destruct s; cbn [hexec_dstmt].
    - destruct (read_bytes n b) as [[e|bs] b']; [exact R|]. apply put_moves; auto. apply NR. discriminate.
    - destruct (read_bytes n b) as [[e|bs] b']; [exact R|]. apply put_moves; auto. apply NR. discriminate.
    - destruct (read_fixed len pad left b) as [[e|s] b']; [exact R|]. apply put_moves; auto. apply NR. discriminate.
    - destruct (read_bytes n b) as [[e|bs] b']; [exact R|]. cbv zeta. destruct (get_int o bs >? 0)%Z; [|exact R].
      destruct (read_chars (get_int o bs) b') as [[e|cs] b'']; [exact R|]. apply put_moves; auto. apply NR. discriminate.
    - destruct (read_bytes n b) as [[e|bs] b']; [exact R|]. cbv zeta. destruct (get_int o bs >? 0)%Z; [|exact R]. cbn [alloc_cell].
      rewrite repeat_z_iter. apply (fl_moves P h this f). apply frame_loop; auto.
      assert (M : moves P h (h ++ [CList []])) by (apply alloc_moves; auto; intros m []).
      assert (I : inside P (HRef (List.length h))) by (intros l H; injection H as <-; apply N; auto).
      constructor; [eapply moves_trans; [exact M|apply put_moves; auto; apply (mv_closed _ _ _ M)]|].
      unfold field, put_field. rewrite nth_app_old by exact Lt. destruct (nth_error h this) as [[c fs|vs]|] eqn:Ht.
      + rewrite upd_at by (rewrite app_length; cbn; lia). clear. induction fs as [|[g v] fs IH]; cbn; auto.
        destruct (String.eqb f g) eqn:Q; cbn; rewrite Q; [right; eauto|exact IH].
      + rewrite nth_app_old by exact Lt. rewrite Ht. auto.
      + rewrite nth_app_old by exact Lt. rewrite Ht. auto.
    - destruct (field h this f) eqn:Hf; try exact R. specialize (NEW f c). destruct (hnew E h c) as [h1 x]. exact NEW.
    - pose proof (S P h (field h this f) b C N (inside_field P h this f C Pt)) as M. destruct (dec h (field h this f) b) as [[e h1] b1]. exact M.
    - destruct (hkey_of (field h this key)) as [kk|]; [|exact R]. destruct (create kk) as [c|]; [|exact R].
      specialize (NEW f c). destruct (hnew E h c) as [h1 x]. exact NEW.
  Qed.
  Lemma frame_dstmts dec create (P : nat -> Prop) this : framed dec -> forall ss h b, closed P h -> has_new P h -> P this -> (this < List.length h)%nat ->
    moves P h (fst (snd (hexec_dec dec (hnew E) create this ss (h, b)))).
  Proof.
    intros S ss. induction ss as [|s ss IH]; intros h b C N Pt Lt; cbn [hexec_dec]; [apply moves_refl; exact C|].
    pose proof (frame_dstmt dec create P this s h b S C N Pt Lt) as M. destruct (hexec_dstmt dec (hnew E) create this s (h, b)) as [[e|] [h1 b1]]; [exact M|].
    cbn [fst snd] in M. eapply moves_trans; [exact M|]. pose proof (mv_keeps _ _ _ M) as K. apply IH; auto.
    - apply (mv_closed _ _ _ M).
    - eapply has_new_later; eauto.
    - apply keeps_length in K. lia.
  Qed.
  Theorem frame_decode d : framed (hdecode E d).
  Proof.
    induction d as [|d IH]; intros P h v b C N I; [destruct v; apply moves_refl; exact C|].
    destruct v as [|z|z|s|l]; try (apply moves_refl; exact C). cbn [hdecode]. destruct (nth_error h l) as [[c fs|vs]|] eqn:Hl; try (apply moves_refl; exact C).
    destruct (find_class E c) as [cd|]; [|apply moves_refl; exact C].
    pose proof (frame_dstmts (hdecode E d) (factory E c) P l IH (c_dec cd) h b C N (I l eq_refl) (nth_lt _ _ _ Hl)) as M.
    destruct (hexec_dec (hdecode E d) (hnew E) (factory E c) l (c_dec cd) (h, b)) as [e [h1 b1]]. exact M.
  Qed.
End FrameDecode.

(* ---- with reachability ---- *)
Lemma reach_points h v l k m : reach h v l -> nth_error h l = Some k -> points k m -> reach h v m.
Proof.
  intros R. induction R as [l|l c fs f v m' Hl I R IH|l vs v m' Hl I R IH]; intros Hk Hp.
  - destruct k as [c fs|vs]; cbn in Hp.
    + destruct Hp as (f & I). eapply reach_field; eauto. constructor.
    + eapply reach_elem; eauto. constructor.
  - eapply reach_field; eauto.
  - eapply reach_elem; eauto.
Qed.
Lemma closed_reach (P : nat -> Prop) h v l : closed P h -> inside P v -> reach h v l -> P l.
Proof.
  intros C I R. induction R as [l|l c fs f v m Hl If R IH|l vs v m Hl If R IH]; auto.
  - apply IH. intros j ->. eapply C; [apply (I l eq_refl)|exact Hl|]. exists f. exact If.
  - apply IH. intros j ->. eapply C; [apply (I l eq_refl)|exact Hl|]. exact If.
Qed.
Lemma decode_moves E d h v b : moves (fun l => reach h v l \/ (List.length h <= l)%nat) h (snd (fst (hdecode E d h v b))).
Proof.
  apply frame_decode.
  - intros l k m [R|L] Hl Hm; [left; eapply reach_points; eauto|]. apply nth_lt in Hl. lia.
  - intros l L. auto.
  - intros l ->. left. constructor.
Qed.
Lemma shows_apart h h1 : (forall v t, shows h v t -> (forall l, reach h v l -> nth_error h1 l = nth_error h l) -> shows h1 v t)
  /\ (forall vs ts, shows_all h vs ts -> (forall v l, In v vs -> reach h v l -> nth_error h1 l = nth_error h l) -> shows_all h1 vs ts).
Proof.
  apply shows_ind2; intros; try (constructor; auto; fail).
  - apply shows_list with vs; [rewrite H2 by constructor; assumption|]. apply H1. intros v j Hv R. apply H2. eapply reach_elem; eauto.
  - apply shows_obj with fs; [rewrite H3 by constructor; assumption|assumption|]. apply H2. intros v j Hv R. apply H3.
    apply in_map_iff in Hv. destruct Hv as ([f w] & <- & I). eapply reach_field; eauto.
  - constructor; [apply H0; intros j R; eapply H3; [left; reflexivity|exact R]|apply H2; intros w j Hw R; eapply H3; [right; exact Hw|exact R]].
Qed.
