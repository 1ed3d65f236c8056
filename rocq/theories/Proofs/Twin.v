(* Two decodes side by side from buffers with the same unread bytes: they do the same. *)
From Coq Require Import ZArith List Bool String Lia.
From Verif.Model Require Import JavaPrim ByteBuf Utf8 Codec Ast Interp.
From Verif.Spec Require Import Bytes Buffers.
From Verif.Proofs Require Import BytesFacts BufFacts DecodeFacts Lockstep.
Import ListNotations.
Open Scope Z_scope.

Record twin (b b' : bytebuf) : Prop := {
  twin_avail : avail b' = avail b;
  twin_reach : reach b' = reach b;
  twin_order : avail b <= reach b;
  twin_same : forall k, Z.of_nat k <= reach b -> slice (arr b) (ridx b) k = slice (arr b') (ridx b') k
}.
Lemma twin_adv b b' n : twin b b' -> twin (adv b n) (adv b' n).
Proof.
  intros [H1 H2 H3 H4]. constructor; rewrite ?avail_adv, ?reach_adv; try lia.
  intros k Hk. cbn [adv set_ridx arr ridx]. rewrite !slice_adv, H4 by lia. reflexivity.
Qed.

Definition alike {A} (b b' : bytebuf) (r r' : A * bytebuf) : Prop :=
  fst r = fst r' /\ exists n, snd r = adv b n /\ snd r' = adv b' n.
Lemma alike_read n b b' : twin b b' -> alike b b' (read_bytes n b) (read_bytes n b').
Proof.
  intros C. unfold read_bytes. pose proof (twin_avail _ _ C) as A. pose proof (twin_order _ _ C) as Q. unfold avail in A, Q.
  destruct (Nat.leb_spec (ridx b' + n) (widx b')) as [H|H], (Nat.leb_spec (ridx b + n) (widx b)) as [H'|H']; try lia.
  - split; cbn [fst snd]; [f_equal; apply (twin_same _ _ C); lia|]. exists n. rewrite !adv_read. auto.
  - split; [reflexivity|]. exists O. rewrite !adv_0. auto.
Qed.
Lemma alike_chars len b b' : twin b b' -> alike b b' (read_chars len b) (read_chars len b').
Proof.
  intros C. unfold read_chars. destruct (len =? 0) eqn:E0.
  - split; auto. exists O. rewrite !adv_0. auto.
  - pose proof (twin_reach _ _ C) as R. unfold reach in R.
    destruct (len <? 0) eqn:E1; cbn [orb]; [split; auto; exists O; rewrite !adv_0; auto|].
    destruct (Z.ltb_spec (Z.of_nat (cs_limit b')) (Z.of_nat (ridx b') + len)) as [H|H], (Z.ltb_spec (Z.of_nat (cs_limit b)) (Z.of_nat (ridx b) + len)) as [H'|H']; try lia.
    + split; auto; exists O; rewrite !adv_0; auto.
    + apply Z.ltb_ge in E1. split; cbn [fst snd]; [f_equal; apply (twin_same _ _ C); unfold reach; lia|].
      exists (Z.to_nat len). rewrite !adv_read. auto.
Qed.
Lemma alike_fixed len ch lft b b' : twin b b' -> alike b b' (read_fixed len ch lft b) (read_fixed len ch lft b').
Proof.
  intros C. unfold read_fixed. destruct (alike_chars len b b' C) as (H & n & H1 & H2).
  destruct (read_chars len b) as [[e|bs] b1], (read_chars len b') as [[e'|bs'] b1']; cbn [fst snd] in *; try discriminate; injection H as ->; (split; [reflexivity|]); eauto.
Qed.

Definition alike2 {S} (b b' : bytebuf) (r r' : option exn * (S * bytebuf)) : Prop :=
  fst r = fst r' /\ fst (snd r) = fst (snd r') /\ exists n, snd (snd r) = adv b n /\ snd (snd r') = adv b' n.
Lemma alike2_stay {S} b b' e (s : S) : alike2 b b' (e, (s, b)) (e, (s, b')).
Proof. repeat split. exists O. rewrite !adv_0. auto. Qed.
Lemma alike2_seq {S} b b' (r r' : option exn * (S * bytebuf)) (k k' : S * bytebuf -> option exn * (S * bytebuf)) :
  alike2 b b' r r' -> (forall s n, alike2 (adv b n) (adv b' n) (k (s, adv b n)) (k' (s, adv b' n))) ->
  alike2 b b' (match r with (None, st) => k st | (Some e, st) => (Some e, st) end) (match r' with (None, st) => k' st | (Some e, st) => (Some e, st) end).
Proof.
  intros (H1 & H2 & n & H3 & H4) K.
  destruct r as [e [s b1]], r' as [e' [s' b1']]. cbn [fst snd] in *. subst e' s' b1 b1'. destruct e as [e|].
  - repeat split. exists n. auto.
  - destruct (K s n) as (K1 & K2 & m & K3 & K4). split; auto. split; auto. exists (n + m)%nat. rewrite K3, K4, !adv_adv. auto.
Qed.
Lemma alike2_read {A S} b b' (r r' : (exn + A) * bytebuf) (k k' : A -> bytebuf -> option exn * (S * bytebuf)) (s : S) :
  alike b b' r r' -> (forall a n, alike2 (adv b n) (adv b' n) (k a (adv b n)) (k' a (adv b' n))) ->
  alike2 b b' (match r with (inr a, x) => k a x | (inl e, x) => (Some e, (s, x)) end)
              (match r' with (inr a, x) => k' a x | (inl e, x) => (Some e, (s, x)) end).
Proof.
  intros (H & n & H1 & H2) K. destruct r as [q b1], r' as [q' b1']. cbn [fst snd] in *. subst q' b1 b1'. destruct q as [e|a].
  - repeat split. exists n. auto.
  - destruct (K a n) as (K1 & K2 & m & K3 & K4). split; auto. split; auto. exists (n + m)%nat. rewrite K3, K4, !adv_adv. auto.
Qed.

Section Alike.
  Variable new : string -> val.
  Variable create : key -> option string.
  Variable dec : val -> bytebuf -> option exn * val * bytebuf.
  Hypothesis Hdec : forall v b b', twin b b' -> alike2 b b' (re (dec v b)) (re (dec v b')).

  Lemma alike_elem y l b b' : twin b b' -> alike2 b b' (dec_elem dec new y (l, b)) (dec_elem dec new y (l, b')).
  Proof.
    intros C. destruct y; cbn [dec_elem].
    - refine (alike2_read b b' _ _ (fun bs x => (None, (l ++ [VInt (get_int o bs)], x))) _ l (alike_read n b b' C) _). intros. apply alike2_stay.
    - refine (alike2_read b b' _ _ (fun bs x => (None, (l ++ [VFlt (get_bits o bs)], x))) _ l (alike_read n b b' C) _). intros. apply alike2_stay.
    - refine (alike2_read b b' _ _ (fun s x => (None, (l ++ [VStr s], x))) _ l (alike_fixed len pad left b b' C) _). intros. apply alike2_stay.
    - pose (k := fun bs x => let len := get_int o bs in if len >? 0 then match read_chars len x with
          | (inr cs, b'') => (None, (l ++ [VStr (utf8_decode cs)], b'')) | (inl e, b'') => (Some e, (l, b'')) end else (None, (l, x))).
      refine (alike2_read b b' _ _ k k l (alike_read n b b' C) _).
      intros bs m. unfold k. cbv zeta. destruct (get_int o bs >? 0); [|apply alike2_stay].
      refine (alike2_read _ _ _ _ (fun cs x => (None, (l ++ [VStr (utf8_decode cs)], x))) _ l (alike_chars _ _ _ (twin_adv _ _ m C)) _). intros. apply alike2_stay.
    - destruct (Hdec (new c) b b' C) as (H1 & H2 & n & H3 & H4).
      destruct (dec (new c) b) as [[e v] x], (dec (new c) b') as [[e' v'] x']. cbn [re fst snd] in *. subst.
      destruct e'; repeat split; exists n; auto.
  Qed.
  Lemma alike_iter {S} (body : S * bytebuf -> option exn * (S * bytebuf)) k :
    (forall s b b', twin b b' -> alike2 b b' (body (s, b)) (body (s, b'))) ->
    forall s b b', twin b b' -> alike2 b b' (iter k body (s, b)) (iter k body (s, b')).
  Proof.
    intros Hb. induction k; intros s b b' C; [apply alike2_stay|]. cbn [iter].
    apply (alike2_seq b b' _ _ (iter k body) (iter k body) (Hb s b b' C)). intros s1 n. apply IHk. apply twin_adv; auto.
  Qed.
  Lemma alike_stmt st fs b b' : twin b b' -> alike2 b b' (exec_dstmt dec new create st (fs, b)) (exec_dstmt dec new create st (fs, b')).
  Proof.
    intros C. destruct st; cbn [exec_dstmt].
    - refine (alike2_read b b' _ _ (fun bs x => (None, (set f (VInt (get_int o bs)) fs, x))) _ fs (alike_read n b b' C) _). intros. apply alike2_stay.
    - refine (alike2_read b b' _ _ (fun bs x => (None, (set f (VFlt (get_bits o bs)) fs, x))) _ fs (alike_read n b b' C) _). intros. apply alike2_stay.
    - refine (alike2_read b b' _ _ (fun s x => (None, (set f (VStr s) fs, x))) _ fs (alike_fixed len pad left b b' C) _). intros. apply alike2_stay.
    - pose (k := fun bs x => let len := get_int o bs in if len >? 0 then match read_chars len x with
          | (inr cs, b'') => (None, (set f (VStr (utf8_decode cs)) fs, b'')) | (inl e, b'') => (Some e, (fs, b'')) end else (None, (fs, x))).
      refine (alike2_read b b' _ _ k k fs (alike_read n b b' C) _).
      intros bs m. unfold k. cbv zeta. destruct (get_int o bs >? 0); [|apply alike2_stay].
      refine (alike2_read _ _ _ _ (fun cs x => (None, (set f (VStr (utf8_decode cs)) fs, x))) _ fs (alike_chars _ _ _ (twin_adv _ _ m C)) _). intros. apply alike2_stay.
    - pose (k := fun bs x => let len := get_int o bs in if len >? 0 then let '(e, (l, b'')) := repeat_z len (dec_elem dec new y) ([], x) in (e, (set f (VList l) fs, b'')) else (None, (fs, x))).
      refine (alike2_read b b' _ _ k k fs (alike_read n b b' C) _).
      intros bs m. unfold k. cbv zeta. destruct (get_int o bs >? 0); [|apply alike2_stay].
      rewrite !repeat_z_iter.
      destruct (alike_iter (dec_elem dec new y) (Z.to_nat (get_int o bs)) (alike_elem y) [] _ _ (twin_adv _ _ m C)) as (H1 & H2 & j & H3 & H4).
      destruct (iter _ _ ([], adv b m)) as [e [l x]]. destruct (iter _ _ ([], adv b' m)) as [e' [l' x']]. cbn [fst snd] in *. subst. repeat split. exists j. auto.
    - destruct (get f fs); apply alike2_stay.
    - destruct (Hdec (get f fs) b b' C) as (H1 & H2 & n & H3 & H4).
      destruct (dec (get f fs) b) as [[e v] x], (dec (get f fs) b') as [[e' v'] x']. cbn [re fst snd] in *. subst. repeat split. exists n. auto.
    - destruct (key_of (get key fs)) as [kk|]; [|apply alike2_stay]. destruct (create kk); apply alike2_stay.
  Qed.
  Lemma alike_stmts ss : forall fs b b', twin b b' -> alike2 b b' (exec_dec dec new create ss (fs, b)) (exec_dec dec new create ss (fs, b')).
  Proof.
    induction ss as [|s ss IH]; intros fs b b' C; [apply alike2_stay|]. cbn [exec_dec].
    apply (alike2_seq b b' _ _ (exec_dec dec new create ss) (exec_dec dec new create ss) (alike_stmt s fs b b' C)). intros s1 n. apply IH. apply twin_adv; auto.
  Qed.
End Alike.

Theorem twins E d : forall v b b', twin b b' -> alike2 b b' (re (decode E d v b)) (re (decode E d v b')).
Proof.
  induction d as [|d IH]; intros v b b' C.
  - destruct v; apply alike2_stay.
  - destruct v; try apply alike2_stay. cbn [decode]. destruct (find_class E c) as [cd|]; [|apply alike2_stay].
    destruct (alike_stmts (new_obj E) (factory E c) (decode E d) IH (c_dec cd) fs b b' C) as (H1 & H2 & n & H3 & H4).
    destruct (exec_dec _ _ _ _ (fs, b)) as [e [v x]], (exec_dec _ _ _ _ (fs, b')) as [e' [v' x']]. cbn [re fst snd] in *. subst. repeat split. exists n. auto.
Qed.
