(* Two decodes side by side: the second buffer holds the same bytes but may end earlier. *)
From Coq Require Import ZArith List Bool String Lia.
From Verif.Model Require Import JavaPrim ByteBuf Utf8 Codec Ast Interp.
From Verif.Spec Require Import Bytes Buffers.
From Verif.Proofs Require Import BytesFacts BufFacts DecodeFacts.
Import ListNotations.
Open Scope Z_scope.

(* bytes before the writer index; bytes readCharSequence can reach (negative once the reader ran past) *)
Definition avail (b : bytebuf) : Z := Z.of_nat (widx b) - Z.of_nat (ridx b).
Definition reach (b : bytebuf) : Z := Z.of_nat (cs_limit b) - Z.of_nat (ridx b).

Record cut (b b' : bytebuf) : Prop := {
  cut_avail : avail b' <= avail b;
  cut_reach : reach b' <= reach b;
  cut_order : avail b' <= reach b';
  cut_same : forall k, Z.of_nat k <= reach b' -> slice (arr b) (ridx b) k = slice (arr b') (ridx b') k
}.

Lemma avail_adv b n : avail (adv b n) = avail b - Z.of_nat n.
Proof. unfold avail, adv. simpl. lia. Qed.
Lemma reach_adv b n : reach (adv b n) = reach b - Z.of_nat n.
Proof. unfold reach, adv, cs_limit. simpl. lia. Qed.
Lemma skipn_add {A} n m (l : list A) : skipn n (skipn m l) = skipn (m + n) l.
Proof. revert l; induction m; intros l; [reflexivity|]. destruct l; [rewrite !skipn_nil; reflexivity|]. apply IHm. Qed.
Lemma slice_adv a i n k : slice a (i + n) k = skipn n (slice a i (n + k)).
Proof.
  unfold slice. rewrite skipn_firstn_comm, skipn_add. f_equal; lia.
Qed.
Lemma cut_adv b b' n : cut b b' -> cut (adv b n) (adv b' n).
Proof.
  intros [H1 H2 H3 H4]. constructor; rewrite ?avail_adv, ?reach_adv; try lia.
  intros k Hk. cbn [adv set_ridx arr ridx]. rewrite !slice_adv, H4 by lia. reflexivity.
Qed.
Lemma cut_refl b : avail b <= reach b -> cut b b.
Proof. constructor; auto; lia. Qed.

Lemma adv_read b n : set_ridx b (ridx b + n) = adv b n.
Proof. reflexivity. Qed.

(* either the cut buffer ran out, or both went the same way and the cut buffer was not overrun *)
Definition lock {A} (b b' : bytebuf) (r r' : A * bytebuf) (out : A -> Prop) : Prop :=
  out (fst r') \/ (fst r = fst r' /\ exists n, snd r = adv b n /\ snd r' = adv b' n /\ (0 <= reach b' -> Z.of_nat n <= reach b')).

Lemma lock_read n b b' : cut b b' -> lock b b' (read_bytes n b) (read_bytes n b') (eq (inl IOOBE)).
Proof.
  intros C. unfold read_bytes. destruct (Nat.leb_spec (ridx b' + n) (widx b')) as [H|H].
  - right. pose proof (cut_avail _ _ C) as A. pose proof (cut_order _ _ C) as O. unfold avail in A, O.
    destruct (Nat.leb_spec (ridx b + n) (widx b)) as [H'|H']; [|lia].
    cbn [fst snd]. split; [f_equal; apply (cut_same _ _ C); lia|]. exists n. rewrite !adv_read. repeat split; lia.
  - left. reflexivity.
Qed.
Lemma lock_chars len b b' : cut b b' -> lock b b' (read_chars len b) (read_chars len b') (eq (inl IOOBE)).
Proof.
  intros C. unfold read_chars. destruct (len =? 0) eqn:E0.
  - right. split; auto. exists O. rewrite !adv_0. repeat split; lia.
  - pose proof (cut_reach _ _ C) as R. unfold reach in R.
    destruct (len <? 0) eqn:E1; [left; reflexivity|]. cbn [orb].
    destruct (Z.ltb_spec (Z.of_nat (cs_limit b')) (Z.of_nat (ridx b') + len)) as [H|H]; [left; reflexivity|].
    destruct (Z.ltb_spec (Z.of_nat (cs_limit b)) (Z.of_nat (ridx b) + len)) as [H'|H']; [lia|].
    right. cbn [fst snd]. apply Z.ltb_ge in E1. split; [f_equal; apply (cut_same _ _ C); unfold reach; lia|].
    exists (Z.to_nat len). rewrite !adv_read. unfold reach. repeat split; lia.
Qed.
Lemma lock_fixed len ch lft b b' : cut b b' -> lock b b' (read_fixed len ch lft b) (read_fixed len ch lft b') (eq (inl IOOBE)).
Proof.
  intros C. unfold read_fixed. destruct (lock_chars len b b' C) as [H|(H & n & H1 & H2 & H3)].
  - left. destruct (read_chars len b') as [[e|bs] b1']; cbn in *; congruence.
  - right. destruct (read_chars len b) as [[e|bs] b1], (read_chars len b') as [[e'|bs'] b1']; cbn [fst snd] in *; try discriminate; injection H as ->; (split; [reflexivity|]); eauto.
Qed.

(* two runs that return an exception and a state with a buffer in it *)
Definition lock2 {S} (b b' : bytebuf) (r r' : option exn * (S * bytebuf)) : Prop :=
  fst r' = Some IOOBE
  \/ (fst r = fst r' /\ fst (snd r) = fst (snd r') /\ exists n, snd (snd r) = adv b n /\ snd (snd r') = adv b' n /\ (0 <= reach b' -> Z.of_nat n <= reach b')).
Lemma lock2_stay {S} b b' e (s : S) : lock2 b b' (e, (s, b)) (e, (s, b')).
Proof. right. repeat split. exists O. rewrite !adv_0. repeat split; lia. Qed.
Lemma lock2_seq {S} b b' (r r' : option exn * (S * bytebuf)) (k k' : S * bytebuf -> option exn * (S * bytebuf)) :
  cut b b' -> lock2 b b' r r' ->
  (forall s n, lock2 (adv b n) (adv b' n) (k (s, adv b n)) (k' (s, adv b' n))) ->
  lock2 b b' (match r with (None, st) => k st | (Some e, st) => (Some e, st) end) (match r' with (None, st) => k' st | (Some e, st) => (Some e, st) end).
Proof.
  intros C [H|(H1 & H2 & n & H3 & H4 & H5)] K.
  - left. destruct r' as [[e'|] [s' x']]; cbn in *; congruence.
  - destruct r as [e [s b1]], r' as [e' [s' b1']]. cbn [fst snd] in *. subst e' s' b1 b1'. destruct e as [e|].
    + right. cbn [fst snd]. split; auto. split; auto. eauto.
    + destruct (K s n) as [H|(K1 & K2 & m & K3 & K4 & K5)]; [left; auto|].
      right. split; auto. split; auto. exists (n + m)%nat. rewrite K3, K4, !adv_adv. repeat split. intros H0. specialize (H5 H0). rewrite reach_adv in K5. lia.
Qed.
(* a read followed by something *)
Lemma lock2_read {A S} b b' (r r' : (exn + A) * bytebuf) (k k' : A -> bytebuf -> option exn * (S * bytebuf)) (s : S) :
  cut b b' -> lock b b' r r' (eq (inl IOOBE)) ->
  (forall a n, lock2 (adv b n) (adv b' n) (k a (adv b n)) (k' a (adv b' n))) ->
  lock2 b b' (match r with (inr a, x) => k a x | (inl e, x) => (Some e, (s, x)) end)
             (match r' with (inr a, x) => k' a x | (inl e, x) => (Some e, (s, x)) end).
Proof.
  intros C [H|(H & n & H1 & H2 & H3)] K.
  - left. destruct r' as [[e|a] x]; cbn in *; congruence.
  - destruct r as [q b1], r' as [q' b1']. cbn [fst snd] in *. subst q' b1 b1'. destruct q as [e|a].
    + right. cbn [fst snd]. split; [reflexivity|]. split; [reflexivity|]. exists n. auto.
    + destruct (K a n) as [K1|(K1 & K2 & m & K3 & K4 & K5)]; [left; auto|].
      right. split; auto. split; auto. exists (n + m)%nat. rewrite K3, K4, !adv_adv. repeat split. intros H0. specialize (H3 H0). rewrite reach_adv in K5. lia.
Qed.

Section Lock.
  Variable new : string -> val.
  Variable create : key -> option string.
  Variable dec : val -> bytebuf -> option exn * val * bytebuf.
  Definition re {A} (r : option exn * A * bytebuf) : option exn * (A * bytebuf) := let '(e, v, b) := r in (e, (v, b)).
  Hypothesis Hdec : forall v b b', cut b b' -> lock2 b b' (re (dec v b)) (re (dec v b')).

  Lemma lock_elem y l b b' : cut b b' -> lock2 b b' (dec_elem dec new y (l, b)) (dec_elem dec new y (l, b')).
  Proof.
    intros C. destruct y; cbn [dec_elem].
    - refine (lock2_read b b' _ _ (fun bs x => (None, (l ++ [VInt (get_int o bs)], x))) _ l C (lock_read n b b' C) _). intros. apply lock2_stay.
    - refine (lock2_read b b' _ _ (fun bs x => (None, (l ++ [VFlt (get_bits o bs)], x))) _ l C (lock_read n b b' C) _). intros. apply lock2_stay.
    - refine (lock2_read b b' _ _ (fun s x => (None, (l ++ [VStr s], x))) _ l C (lock_fixed len pad left b b' C) _). intros. apply lock2_stay.
    - refine (lock2_read b b' _ _ (fun bs x => let len := get_int o bs in if len >? 0 then match read_chars len x with
          | (inr cs, b'') => (None, (l ++ [VStr (utf8_decode cs)], b'')) | (inl e, b'') => (Some e, (l, b'')) end else (None, (l, x)))
          (fun bs x => let len := get_int o bs in if len >? 0 then match read_chars len x with
          | (inr cs, b'') => (None, (l ++ [VStr (utf8_decode cs)], b'')) | (inl e, b'') => (Some e, (l, b'')) end else (None, (l, x))) l C (lock_read n b b' C) _).
      intros bs m. cbv zeta. destruct (get_int o bs >? 0); [|apply lock2_stay].
      pose proof (cut_adv _ _ m C) as C1.
      refine (lock2_read _ _ _ _ (fun cs x => (None, (l ++ [VStr (utf8_decode cs)], x))) _ l C1 (lock_chars _ _ _ C1) _). intros. apply lock2_stay.
    - destruct (Hdec (new c) b b' C) as [H|(H1 & H2 & n & H3 & H4 & H5)].
      + left. destruct (dec (new c) b') as [[[e|] v] x]; cbn in *; congruence.
      + destruct (dec (new c) b) as [[e v] x], (dec (new c) b') as [[e' v'] x']. cbn [re fst snd] in *. subst.
        right. destruct e'; cbn [fst snd]; (split; [reflexivity|]); (split; [reflexivity|]); exists n; auto.
  Qed.
  Lemma lock_iter {S} (body : S * bytebuf -> option exn * (S * bytebuf)) k :
    (forall s b b', cut b b' -> lock2 b b' (body (s, b)) (body (s, b'))) ->
    forall s b b', cut b b' -> lock2 b b' (iter k body (s, b)) (iter k body (s, b')).
  Proof.
    intros Hb. induction k; intros s b b' C; [apply lock2_stay|]. cbn [iter].
    apply (lock2_seq b b' _ _ (iter k body) (iter k body) C (Hb s b b' C)). intros s1 n. apply IHk. apply cut_adv; auto.
  Qed.

  Lemma lock_stmt st fs b b' : cut b b' -> lock2 b b' (exec_dstmt dec new create st (fs, b)) (exec_dstmt dec new create st (fs, b')).
  Proof.
    intros C. destruct st; cbn [exec_dstmt].
    - refine (lock2_read b b' _ _ (fun bs x => (None, (set f (VInt (get_int o bs)) fs, x))) _ fs C (lock_read n b b' C) _). intros. apply lock2_stay.
    - refine (lock2_read b b' _ _ (fun bs x => (None, (set f (VFlt (get_bits o bs)) fs, x))) _ fs C (lock_read n b b' C) _). intros. apply lock2_stay.
    - refine (lock2_read b b' _ _ (fun s x => (None, (set f (VStr s) fs, x))) _ fs C (lock_fixed len pad left b b' C) _). intros. apply lock2_stay.
    - pose (k := fun bs x => let len := get_int o bs in if len >? 0 then match read_chars len x with
          | (inr cs, b'') => (None, (set f (VStr (utf8_decode cs)) fs, b'')) | (inl e, b'') => (Some e, (fs, b'')) end else (None, (fs, x))).
      refine (lock2_read b b' _ _ k k fs C (lock_read n b b' C) _).
      intros bs m. unfold k. cbv zeta. destruct (get_int o bs >? 0); [|apply lock2_stay].
      pose proof (cut_adv _ _ m C) as C1.
      refine (lock2_read _ _ _ _ (fun cs x => (None, (set f (VStr (utf8_decode cs)) fs, x))) _ fs C1 (lock_chars _ _ _ C1) _). intros. apply lock2_stay.
    - pose (k := fun bs x => let len := get_int o bs in if len >? 0 then let '(e, (l, b'')) := repeat_z len (dec_elem dec new y) ([], x) in (e, (set f (VList l) fs, b'')) else (None, (fs, x))).
      refine (lock2_read b b' _ _ k k fs C (lock_read n b b' C) _).
      intros bs m. unfold k. cbv zeta. destruct (get_int o bs >? 0); [|apply lock2_stay].
      rewrite !repeat_z_iter. pose proof (cut_adv _ _ m C) as C1.
      destruct (lock_iter (dec_elem dec new y) (Z.to_nat (get_int o bs)) (lock_elem y) [] _ _ C1) as [H|(H1 & H2 & j & H3 & H4 & H5)].
      + left. destruct (iter _ _ ([], adv b' m)) as [e [l x]]. exact H.
      + right. destruct (iter _ _ ([], adv b m)) as [e [l x]]. destruct (iter _ _ ([], adv b' m)) as [e' [l' x']]. cbn [fst snd] in *. subst. cbn [fst snd]. split; [reflexivity|]. split; [reflexivity|]. exists j. auto.
    - destruct (get f fs); apply lock2_stay.
    - destruct (Hdec (get f fs) b b' C) as [H|(H1 & H2 & n & H3 & H4 & H5)].
      + left. destruct (dec (get f fs) b') as [[e v] x]; cbn in *; congruence.
      + destruct (dec (get f fs) b) as [[e v] x], (dec (get f fs) b') as [[e' v'] x']. cbn [re fst snd] in *. subst. right. split; [reflexivity|]. split; [reflexivity|]. exists n. auto.
    - destruct (key_of (get key fs)) as [kk|]; [|apply lock2_stay]. destruct (create kk); apply lock2_stay.
  Qed.
  Lemma lock_stmts ss : forall fs b b', cut b b' -> lock2 b b' (exec_dec dec new create ss (fs, b)) (exec_dec dec new create ss (fs, b')).
  Proof.
    induction ss as [|s ss IH]; intros fs b b' C; [apply lock2_stay|]. cbn [exec_dec].
    apply (lock2_seq b b' _ _ (exec_dec dec new create ss) (exec_dec dec new create ss) C (lock_stmt s fs b b' C)). intros s1 n. apply IH. apply cut_adv; auto.
  Qed.
End Lock.

Theorem lockstep E d : forall v b b', cut b b' -> lock2 b b' (re (decode E d v b)) (re (decode E d v b')).
Proof.
  induction d as [|d IH]; intros v b b' C.
  - destruct v; apply lock2_stay.
  - destruct v; try apply lock2_stay. cbn [decode]. destruct (find_class E c) as [cd|]; [|apply lock2_stay].
    destruct (lock_stmts (new_obj E) (factory E c) (decode E d) IH (c_dec cd) fs b b' C) as [H|(H1 & H2 & n & H3 & H4 & H5)].
    + left. destruct (exec_dec _ _ _ _ (fs, b')) as [e [v x]]. exact H.
    + right. destruct (exec_dec _ _ _ _ (fs, b)) as [e [v x]], (exec_dec _ _ _ _ (fs, b')) as [e' [v' x']]. cbn [re fst snd] in *. subst. split; [reflexivity|]. split; [reflexivity|]. exists n. auto.
Qed.
