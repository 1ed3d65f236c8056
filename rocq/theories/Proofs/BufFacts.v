(* Buffer operations. *)
From Coq Require Import ZArith List Bool Lia.
From Verif.Model Require Import JavaPrim ByteBuf.
From Verif.Spec Require Import Bytes Buffers.
From Verif.Proofs Require Import BytesFacts.
Import ListNotations.
Open Scope Z_scope.

Notation bytes_ok l := (Forall (fun b => 0 <= b < 256) l).

Record wf (b : bytebuf) : Prop := {
  wf_bytes : bytes_ok (arr b);
  wf_ridx : (ridx b <= widx b)%nat;
  wf_widx : (widx b <= length (arr b))%nat;
  wf_cap : Z.of_nat (length (arr b)) <= maxcap b;
  wf_max : maxcap b < 2 ^ 31
}.
Lemma buf_wf_iff b : buf_wf b = true <-> wf b.
Proof.
  unfold buf_wf. rewrite !andb_true_iff, forallb_bytes, !Nat.leb_le, Z.leb_le, Z.ltb_lt.
  split; [intros [[[[? ?] ?] ?] ?]; constructor; auto|intros []; auto].
Qed.

Lemma content_length b : (widx b <= length (arr b))%nat -> length (content b) = widx b.
Proof. intros. unfold content. rewrite firstn_length. lia. Qed.
Lemma readable_length b : wf b -> length (readable b) = (widx b - ridx b)%nat.
Proof. intros H. unfold readable. rewrite skipn_length, content_length by apply H. reflexivity. Qed.
Lemma Forall_firstn {A} (P : A -> Prop) n l : Forall P l -> Forall P (firstn n l).
Proof. revert n; induction l; intros [|n] H; simpl; auto. inversion H; subst; constructor; auto. Qed.
Lemma Forall_skipn {A} (P : A -> Prop) n l : Forall P l -> Forall P (skipn n l).
Proof. revert n; induction l; intros [|n] H; simpl; auto. inversion H; subst; auto. Qed.
Lemma content_bytes b : wf b -> bytes_ok (content b).
Proof. intros H. apply Forall_firstn, H. Qed.

Lemma splice_length a i bs : (i + length bs <= length a)%nat -> length (splice a i bs) = length a.
Proof. intros. unfold splice. rewrite !app_length, firstn_length, skipn_length. lia. Qed.
Lemma firstn_splice a i bs : (i + length bs <= length a)%nat ->
  firstn (i + length bs) (splice a i bs) = firstn i a ++ bs.
Proof.
  intros. unfold splice. rewrite app_assoc, firstn_app.
  rewrite firstn_all2 by (rewrite app_length, firstn_length; lia).
  rewrite app_length, firstn_length.
  replace (i + length bs - (Nat.min i (length a) + length bs))%nat with 0%nat by lia.
  apply app_nil_r.
Qed.

Lemma grown_length b n : wf b -> Z.of_nat (widx b + n) <= maxcap b ->
  (widx b + n <= length (grown b n))%nat /\ Z.of_nat (length (grown b n)) <= maxcap b.
Proof.
  intros H Hn. unfold grown. destruct (Nat.leb_spec (widx b + n) (length (arr b))).
  - pose proof (wf_cap _ H). lia.
  - rewrite app_length, map_length, seq_length. pose proof (wf_cap _ H).
    set (t := Z.min _ _). assert (Z.of_nat (widx b + n) <= t <= maxcap b) by lia. lia.
Qed.
Lemma grown_bytes b n : wf b -> bytes_ok (grown b n).
Proof.
  intros H. unfold grown. destruct (Nat.leb _ _); [apply H|]. apply Forall_app. split; [apply H|].
  apply Forall_forall. intros x Hx. apply in_map_iff in Hx. destruct Hx as (i & <- & _).
  apply Z.mod_pos_bound; lia.
Qed.
Lemma firstn_grown b n k : (k <= length (arr b))%nat -> firstn k (grown b n) = firstn k (arr b).
Proof.
  intros. unfold grown. destruct (Nat.leb _ _); auto. rewrite firstn_app.
  replace (k - length (arr b))%nat with 0%nat by lia. simpl. apply app_nil_r.
Qed.

Lemma write_bytes_fit b bs : wf b -> bytes_ok bs -> fits b (length bs) ->
  exists b1, write_bytes bs b = (None, b1) /\ appended b bs b1 /\ wf b1 /\ widx b1 = (widx b + length bs)%nat.
Proof.
  intros H Hbs Hf. unfold write_bytes, fits in *. rewrite (proj2 (Z.leb_le _ _)) by lia.
  eexists. split; [reflexivity|].
  destruct (grown_length b (length bs) H) as [G1 G2]; [lia|].
  assert (E : firstn (widx b) (grown b (length bs)) = content b).
  { unfold content. apply firstn_grown. apply H. }
  split; [|split].
  - constructor; simpl; auto. unfold content at 1. simpl.
    rewrite firstn_splice by exact G1. rewrite E. reflexivity.
  - constructor; simpl.
    + unfold splice. apply Forall_app; split; [|apply Forall_app; split; auto].
      * apply Forall_firstn, grown_bytes, H.
      * apply Forall_skipn, grown_bytes, H.
    + pose proof (wf_ridx _ H). lia.
    + rewrite splice_length; lia.
    + rewrite splice_length; lia.
    + apply H.
  - reflexivity.
Qed.
Lemma write_bytes_full b bs : ~ fits b (length bs) -> write_bytes bs b = (Some IOOBE, b).
Proof. intros Hf. unfold write_bytes, fits in *. rewrite (proj2 (Z.leb_gt _ _)) by lia. reflexivity. Qed.
Lemma fits_dec b n : fits b n \/ ~ fits b n.
Proof. unfold fits. lia. Qed.

Lemma appended_nil b : appended b [] b.
Proof. constructor; auto. rewrite app_nil_r; reflexivity. Qed.
Lemma appended_trans b bs b1 cs b2 : appended b bs b1 -> appended b1 cs b2 -> appended b (bs ++ cs) b2.
Proof. intros [] []. constructor; try congruence. rewrite app_assoc. congruence. Qed.
Lemma appended_widx b bs b1 : wf b -> wf b1 -> appended b bs b1 -> widx b1 = (widx b + length bs)%nat.
Proof.
  intros H H1 A. pose proof (f_equal (@length Z) (app_content _ _ _ A)) as E.
  rewrite app_length, !content_length in E by (apply H || apply H1). exact E.
Qed.
Lemma appended_readable b bs b1 : wf b -> appended b bs b1 -> readable b1 = readable b ++ bs.
Proof.
  intros H A. unfold readable. rewrite (app_content _ _ _ A), (app_ridx _ _ _ A).
  rewrite skipn_app. replace (ridx b - length (content b))%nat with 0%nat; [reflexivity|].
  rewrite content_length by apply H. pose proof (wf_ridx _ H). lia.
Qed.

(* writing an integer *)
Lemma write_int_fit o n z b : wf b -> fits b n ->
  exists b1, write_int o n z b = (None, b1) /\ appended b (number o n z) b1 /\ wf b1 /\ widx b1 = (widx b + n)%nat.
Proof.
  intros H Hf. unfold write_int. rewrite put_int_number.
  destruct (write_bytes_fit b (number o n z) H (number_bytes o n z)) as (b1 & ? & ? & ? & ?).
  - rewrite number_length; exact Hf.
  - exists b1. rewrite number_length in *. auto.
Qed.
Lemma write_int_full o n z b : ~ fits b n -> write_int o n z b = (Some IOOBE, b).
Proof. intros. unfold write_int. rewrite put_int_number. apply write_bytes_full. rewrite number_length; auto. Qed.

(* patching inside what was written *)
Lemma set_int_patch o n z b pre mid post : wf b -> content b = pre ++ mid ++ post -> length mid = n ->
  exists b1, set_int o n (length pre) z b = (None, b1) /\ wf b1 /\ content b1 = pre ++ number o n z ++ post
             /\ ridx b1 = ridx b /\ widx b1 = widx b /\ maxcap b1 = maxcap b /\ cs_slack b1 = cs_slack b /\ policy b1 = policy b.
Proof.
  intros H Hc Hn. unfold set_int.
  assert (Hl : (length pre + n + length post = widx b)%nat).
  { rewrite <- (content_length b) by apply H. rewrite Hc, !app_length. lia. }
  pose proof (wf_widx _ H) as Hw.
  rewrite (proj2 (Nat.leb_le _ _)) by lia. eexists. split; [reflexivity|].
  rewrite put_int_number.
  assert (Harr : arr b = pre ++ mid ++ post ++ skipn (widx b) (arr b)).
  { rewrite <- (firstn_skipn (widx b) (arr b)) at 1. unfold content in Hc. rewrite Hc, <- !app_assoc. reflexivity. }
  assert (Hs : splice (arr b) (length pre) (number o n z) = pre ++ number o n z ++ post ++ skipn (widx b) (arr b)).
  { unfold splice. rewrite number_length. rewrite Harr at 1 2.
    rewrite firstn_app, Nat.sub_diag, firstn_all, firstn_O, app_nil_r.
    rewrite skipn_app, skipn_all2 by lia. simpl.
    replace (length pre + n - length pre)%nat with (length mid) by lia.
    rewrite skipn_app, skipn_all, Nat.sub_diag. reflexivity. }
  split; [|split].
  - constructor; simpl; rewrite ?splice_length by (rewrite number_length; lia); try apply H.
    unfold splice. apply Forall_app; split; [|apply Forall_app; split].
    + apply Forall_firstn, H.
    + apply number_bytes.
    + apply Forall_skipn, H.
  - unfold content; simpl. rewrite Hs. rewrite app_assoc, app_assoc, firstn_app.
    rewrite firstn_all2 by (rewrite !app_length, number_length; lia).
    replace (widx b - length ((pre ++ number o n z) ++ post))%nat with 0%nat
      by (rewrite !app_length, number_length; lia).
    simpl. rewrite app_nil_r, <- app_assoc. reflexivity.
  - simpl; auto.
Qed.

(* reading *)
Lemma readable_slice b n : wf b -> (n <= length (readable b))%nat -> slice (arr b) (ridx b) n = firstn n (readable b).
Proof.
  intros H Hn. rewrite readable_length in Hn by exact H. unfold slice, readable, content.
  rewrite skipn_firstn_comm, firstn_firstn. f_equal. lia.
Qed.
Lemma wf_advance b n : wf b -> (n <= length (readable b))%nat -> wf (set_ridx b (ridx b + n)).
Proof.
  intros H Hn. rewrite readable_length in Hn by exact H. destruct H. constructor; simpl; auto. lia.
Qed.
Lemma skipn_skipn' {A} n m (l : list A) : skipn n (skipn m l) = skipn (m + n) l.
Proof. revert l; induction m; intros l; simpl; auto. destruct l; simpl; auto. apply skipn_nil. Qed.
Lemma readable_advance b n : readable (set_ridx b (ridx b + n)) = skipn n (readable b).
Proof. unfold readable, content. simpl. rewrite skipn_skipn'. reflexivity. Qed.
Lemma read_bytes_ok b bs rest : wf b -> readable b = bs ++ rest ->
  read_bytes (length bs) b = (inr bs, set_ridx b (ridx b + length bs)).
Proof.
  intros H Hr. unfold read_bytes.
  assert (Hl : (length bs <= length (readable b))%nat) by (rewrite Hr, app_length; lia).
  rewrite (readable_slice b _ H Hl).
  rewrite readable_length in Hl by exact H. pose proof (wf_ridx _ H).
  rewrite (proj2 (Nat.leb_le _ _)) by lia.
  rewrite Hr, firstn_app, Nat.sub_diag, firstn_all, firstn_O, app_nil_r. reflexivity.
Qed.
Lemma cs_limit_bound b : wf b -> (widx b <= cs_limit b)%nat.
Proof. intros H. unfold cs_limit. destruct (cs_slack b); [apply H|lia]. Qed.
Lemma read_chars_ok b bs rest : wf b -> readable b = bs ++ rest ->
  read_chars (Z.of_nat (length bs)) b = (inr bs, set_ridx b (ridx b + length bs)).
Proof.
  intros H Hr. unfold read_chars.
  destruct (Z.eqb_spec (Z.of_nat (length bs)) 0) as [E|E].
  - destruct bs; simpl in E; [|lia]. simpl. rewrite Nat.add_0_r. destruct b; reflexivity.
  - assert (Hl : (length bs <= length (readable b))%nat) by (rewrite Hr, app_length; lia).
    pose proof (readable_slice b _ H Hl) as Hs.
    rewrite readable_length in Hl by exact H. pose proof (wf_ridx _ H). pose proof (cs_limit_bound b H).
    rewrite (proj2 (Z.ltb_ge _ _)) by lia. rewrite (proj2 (Z.ltb_ge _ _)) by lia. simpl.
    rewrite Nat2Z.id, Hs, Hr, firstn_app, Nat.sub_diag, firstn_all, firstn_O, app_nil_r. reflexivity.
Qed.
