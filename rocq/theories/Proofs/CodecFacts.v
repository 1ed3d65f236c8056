(* BinaryCodec's helpers. *)
From Coq Require Import ZArith List Bool Lia.
From Verif.Model Require Import JavaPrim ByteBuf Utf8 Codec.
From Verif.Spec Require Import Bytes Buffers Reading.
From Verif.Proofs Require Import BytesFacts BufFacts Utf8Facts Utf8More.
Import ListNotations.
Open Scope Z_scope.

(* outcome of an operation that appends [bs] if there is room *)
Definition wrote (b : bytebuf) (bs : list Z) (r : option exn * bytebuf) : Prop :=
  match r with
  | (None, b1) => appended b bs b1 /\ wf b1
  | (Some e, b1) => e = IOOBE /\ ~ fits b (length bs) /\ wf b1 /\ exists bs', appended b bs' b1
  end.
Lemma wrote_fits b bs b1 : wf b -> wrote b bs (None, b1) -> fits b (length bs).
Proof.
  intros H [A H1]. unfold fits. pose proof (appended_widx _ _ _ H H1 A). pose proof (wf_cap _ H1).
  pose proof (wf_widx _ H1). rewrite (app_maxcap _ _ _ A) in *. lia.
Qed.
Lemma fits_weaken b n m : (m <= n)%nat -> fits b n -> fits b m.
Proof. unfold fits. lia. Qed.
Lemma fits_after b bs b1 n : wf b -> wf b1 -> appended b bs b1 -> fits b1 n <-> fits b (length bs + n).
Proof.
  intros H H1 A. unfold fits. rewrite (appended_widx _ _ _ H H1 A), (app_maxcap _ _ _ A). lia.
Qed.
Lemma wrote_bytes b bs : wf b -> bytes_ok bs -> wrote b bs (write_bytes bs b).
Proof.
  intros H Hb. destruct (fits_dec b (length bs)) as [F|F].
  - destruct (write_bytes_fit b bs H Hb F) as (b1 & -> & A & W & _). simpl. split; auto.
  - rewrite write_bytes_full by exact F. simpl. split; [auto|split; [auto|split; [auto|]]]. exists (@nil Z). apply appended_nil.
Qed.
Lemma wrote_int o n z b : wf b -> wrote b (number o n z) (write_int o n z b).
Proof. intros. unfold write_int. rewrite put_int_number. apply wrote_bytes; auto. apply number_bytes. Qed.
Lemma wrote_nil b : wf b -> wrote b [] (None, b).
Proof. intros. simpl. split; auto. apply appended_nil. Qed.
Definition andthen (r : option exn * bytebuf) (k : bytebuf -> option exn * bytebuf) : option exn * bytebuf :=
  match r with (None, b1) => k b1 | x => x end.
Lemma wrote_seq b bs cs r k : wf b -> wrote b bs r -> (forall b1, wf b1 -> appended b bs b1 -> wrote b1 cs (k b1)) ->
  wrote b (bs ++ cs) (andthen r k).
Proof.
  intros H H1 H2. destruct r as [[e|] b1]; simpl in *.
  - destruct H1 as (-> & F & W & E). split; [auto|split; [|auto]]. intros F'. apply F.
    eapply fits_weaken; [|exact F']. rewrite app_length; lia.
  - destruct H1 as [A W]. specialize (H2 b1 W A). destruct (k b1) as [[e|] b2]; simpl in *.
    + destruct H2 as (-> & F & W2 & bs' & A2). split; [auto|split; [|split; [auto|]]].
      * intros F'. apply F. apply (fits_after b bs b1); auto. rewrite app_length in F'. exact F'.
      * exists (bs ++ bs'). eapply appended_trans; eauto.
    + destruct H2 as [A2 W2]. split; auto. eapply appended_trans; eauto.
Qed.

Lemma number1 o z : number o 1 z = [z mod 256].
Proof. destruct o; reflexivity. Qed.
Lemma pad_loop_wrote n ch b : wf b -> wrote b (repeat (ch mod 256) n) (pad_loop n ch b).
Proof.
  revert b; induction n; intros b H; cbn [pad_loop repeat]; [apply wrote_nil; auto|].
  change (ch mod 256 :: repeat (ch mod 256) n) with ([ch mod 256] ++ repeat (ch mod 256) n).
  pose proof (wrote_int BE 1 ch b H) as Hw. rewrite number1 in Hw.
  pose proof (wrote_seq b _ _ _ (pad_loop n ch) H Hw (fun b1 W _ => IHn b1 W)) as S.
  destruct (write_int BE 1 ch b) as [[e|] b1]; exact S.
Qed.


Theorem write_fixed_wrote v len ch lft b : wf b -> forallb is_unit (text_of v) = true -> 0 <= len ->
  wrote b (fixed (Z.to_nat len) ch lft (text_of v)) (write_fixed v len ch lft b).
Proof.
  intros H Hu Hlen. unfold write_fixed.
  assert (Hempty : text_of v = [] -> wrote b (fixed (Z.to_nat len) ch lft [])
            (if negb lft && (0 <? len) then pad_char (len - 0) ch b else (None, b))).
  { intros _. unfold fixed. cbn [utf8 scalars flat_map]. rewrite firstn_nil. cbn [length app].
    rewrite Nat.sub_0_r. destruct lft; cbn [negb andb]; [apply wrote_nil; auto|].
    destruct (Z.ltb_spec 0 len).
    - unfold pad_char. rewrite Z.sub_0_r. apply pad_loop_wrote; auto.
    - replace len with 0 by lia. apply wrote_nil; auto. }
  destruct v as [[|c s]|]; cbn [text_of] in *; try (apply Hempty; reflexivity).
  clear Hempty. set (bytes := utf8_encode (c :: s)).
  assert (Eb : bytes = utf8 (c :: s)) by (apply utf8_encode_spec; exact Hu).
  assert (Hbytes : bytes_ok bytes) by (rewrite Eb; apply utf8_bytes; exact Hu).
  unfold fixed. rewrite <- Eb. set (w := Z.min (Z.of_nat (length bytes)) len).
  assert (Ew : firstn (Z.to_nat w) bytes = firstn (Z.to_nat len) bytes).
  { destruct (Z.le_gt_cases (Z.of_nat (length bytes)) len).
    - rewrite !firstn_all2 by lia. reflexivity.
    - f_equal. lia. }
  assert (El : (Z.to_nat len - length (firstn (Z.to_nat len) bytes))%nat = Z.to_nat (len - w)).
  { rewrite firstn_length. lia. }
  rewrite El.
  assert (Hp : forall b1, wf b1 -> wrote b1 (firstn (Z.to_nat len) bytes) (write_prefix bytes w b1)).
  { intros b1 W. unfold write_prefix. rewrite (proj2 (Z.ltb_ge w 0)) by lia. rewrite Ew. apply wrote_bytes; auto.
    apply Forall_firstn; auto. }
  destruct lft; cbn [negb andb].
  - pose proof (wrote_seq b (repeat (ch mod 256) (Z.to_nat (len - w))) (firstn (Z.to_nat len) bytes)
      (if w <? len then pad_char (len - w) ch b else (None, b)) (write_prefix bytes w) H) as S.
    assert (W : wrote b (repeat (ch mod 256) (Z.to_nat (len - w))) (if w <? len then pad_char (len - w) ch b else (None, b))).
    { destruct (Z.ltb_spec w len); [apply pad_loop_wrote; auto|]. replace (len - w) with 0 by lia. apply wrote_nil; auto. }
    specialize (S W (fun b1 w1 _ => Hp b1 w1)). clear W.
    destruct (if w <? len then pad_char (len - w) ch b else (None, b)) as [[e0|] b0]; cbn [andthen] in S; [exact S|].
    destruct (write_prefix bytes w b0) as [[e1|] b1]; exact S.
  - pose proof (wrote_seq b _ (repeat (ch mod 256) (Z.to_nat (len - w))) (write_prefix bytes w b)
      (fun b1 => if w <? len then pad_char (len - w) ch b1 else (None, b1)) H (Hp b H)) as S.
    assert (W : forall b1, wf b1 -> appended b (firstn (Z.to_nat len) bytes) b1 ->
      wrote b1 (repeat (ch mod 256) (Z.to_nat (len - w))) (if w <? len then pad_char (len - w) ch b1 else (None, b1))).
    { intros b1 W1 _. destruct (Z.ltb_spec w len); [apply pad_loop_wrote; auto|]. replace (len - w) with 0 by lia. apply wrote_nil; auto. }
    specialize (S W). clear W.
    destruct (write_prefix bytes w b) as [[e1|] b1]; cbn [andthen] in S; exact S.
Qed.

Lemma fixed_length len ch lft s : (lft = false \/ s <> []) -> length (fixed len ch lft s) = len.
Proof.
  intros Hs. unfold fixed. set (t := firstn len (utf8 s)). assert ((length t <= len)%nat) by (unfold t; rewrite firstn_length; lia).
  destruct lft.
  - destruct s; [destruct Hs; congruence|]. rewrite app_length, repeat_length. lia.
  - rewrite app_length, repeat_length. lia.
Qed.
Lemma fixed_bytes len ch lft s : forallb is_unit s = true -> bytes_ok (fixed len ch lft s).
Proof.
  intros Hu. unfold fixed. set (t := firstn len (utf8 s)).
  assert (T : bytes_ok t) by (apply Forall_firstn, utf8_bytes; auto).
  assert (P : forall n, bytes_ok (repeat (ch mod 256) n)).
  { intros n. apply Forall_forall. intros x Hx. apply repeat_spec in Hx. subst. apply Z.mod_pos_bound; lia. }
  destruct lft; [destruct s; [constructor|]|]; apply Forall_app; auto.
Qed.

(* trimByChar *)
Lemma nth_skipn_hd (s : list Z) i c r : skipn i s = c :: r -> nth i s 0 = c /\ skipn (S i) s = r /\ (i < length s)%nat.
Proof.
  revert s; induction i; intros [|x s] H; simpl in *; try discriminate.
  - inversion H; subst. split; [reflexivity|]. split; [reflexivity|lia].
  - destruct (IHi s H) as (A & B & C). split; [exact A|]. split; [exact B|lia].
Qed.
Lemma start_loop_spec s ch fuel start : (length s <= start + fuel)%nat ->
  skipn (start_loop fuel s ch start) s = drop_run ch (skipn start s).
Proof.
  revert start; induction fuel; intros start H; cbn [start_loop].
  - rewrite skipn_all2 by lia. reflexivity.
  - destruct (skipn start s) as [|c r] eqn:E.
    + assert (L : (length s <= start)%nat).
      { destruct (Nat.le_gt_cases (length s) start) as [?|G]; auto. apply (f_equal (@length Z)) in E. rewrite skipn_length in E. simpl in E. lia. }
      rewrite (proj2 (Nat.ltb_ge _ _)) by exact L. cbn [andb]. rewrite E. reflexivity.
    + destruct (nth_skipn_hd _ _ _ _ E) as (N & S & L). rewrite (proj2 (Nat.ltb_lt _ _)) by exact L. rewrite N. cbn [andb drop_run].
      destruct (c =? ch).
      * rewrite IHfuel by lia. rewrite S. reflexivity.
      * exact E.
Qed.
Lemma end_loop_le s ch e : (end_loop s ch e <= e)%nat.
Proof. induction e; simpl; auto. destruct (_ =? _); lia. Qed.
Lemma firstn_snoc (s : list Z) k : (k < length s)%nat -> firstn (S k) s = firstn k s ++ [nth k s 0].
Proof. revert s; induction k; intros [|x s] H; simpl in *; try lia; auto. rewrite <- IHk by lia. reflexivity. Qed.
Lemma end_loop_spec s ch e : (e <= length s)%nat -> firstn (end_loop s ch e) s = rev (drop_run ch (rev (firstn e s))).
Proof.
  induction e; intros H; cbn [end_loop].
  - reflexivity.
  - rewrite firstn_snoc by lia. rewrite rev_unit. cbn [drop_run]. destruct (nth e s 0 =? ch).
    + apply IHe. lia.
    + cbn [rev]. rewrite rev_involutive. apply firstn_snoc. lia.
Qed.
Theorem trim_spec s ch lft : trim_by_char s ch lft = strip ch lft s.
Proof.
  unfold trim_by_char, strip, substring. destruct lft.
  - rewrite firstn_all2 by (rewrite skipn_length; lia). apply start_loop_spec. lia.
  - cbn [skipn]. rewrite Nat.sub_0_r, end_loop_spec by lia. rewrite firstn_all. reflexivity.
Qed.

Lemma drop_run_length ch s : (length (drop_run ch s) <= length s)%nat.
Proof. induction s; simpl; auto. destruct (_ =? _); simpl; lia. Qed.
Lemma strip_length ch lft s : (length (strip ch lft s) <= length s)%nat.
Proof.
  unfold strip. destruct lft; [apply drop_run_length|]. rewrite rev_length.
  pose proof (drop_run_length ch (rev s)). rewrite rev_length in *. lia.
Qed.
Lemma drop_run_repeat ch n s : drop_run ch (repeat ch n ++ s) = drop_run ch s.
Proof. induction n; simpl; auto. rewrite Z.eqb_refl. exact IHn. Qed.
Lemma drop_run_units ch s : forallb is_unit s = true -> forallb is_unit (drop_run ch s) = true.
Proof. induction s; simpl; auto. intros H. apply andb_true_iff in H as [? ?]. destruct (_ =? _); simpl; auto. rewrite H, H0; auto. Qed.
Lemma forallb_rev {A} (p : A -> bool) l : forallb p (rev l) = forallb p l.
Proof. induction l; simpl; auto. rewrite forallb_app, IHl. simpl. destruct (p a), (forallb p l); auto. Qed.
Lemma strip_units ch lft s : forallb is_unit s = true -> forallb is_unit (strip ch lft s) = true.
Proof.
  intros H. unfold strip. destruct lft; [apply drop_run_units; auto|]. rewrite forallb_rev. apply drop_run_units. rewrite forallb_rev. exact H.
Qed.

(* readFixedString *)
Theorem read_fixed_ok len ch lft b bs rest : wf b -> readable b = bs ++ rest -> Z.of_nat (length bs) = len ->
  read_fixed len ch lft b = (inr (strip ch lft (utf8_decode bs)), set_ridx b (ridx b + length bs)).
Proof.
  intros H Hr <-. unfold read_fixed. rewrite (read_chars_ok b bs rest H Hr).
  rewrite <- trim_spec. destruct lft; reflexivity.
Qed.

(* reading back what writeFixedString wrote *)
Lemma reread_fits len ch lft s : valid16 s = true -> 0 <= ch < 128 -> Z.of_nat (length (utf8 s)) <= len -> (lft = false \/ s <> []) ->
  reread len ch lft s = strip ch lft s.
Proof.
  intros Hv Hc Hl Hs. unfold reread, fixed. rewrite firstn_all2 by lia. set (n := (Z.to_nat len - length (utf8 s))%nat).
  rewrite Z.mod_small by lia.
  assert (Ha : ascii (repeat ch n) = true) by (apply ascii_repeat; lia).
  destruct lft.
  - destruct s as [|c s']; [destruct Hs; congruence|].
    rewrite ascii_decode_app, decode_utf8_valid by auto. unfold strip. apply drop_run_repeat.
  - rewrite decode_utf8_valid_app, ascii_decode by auto. unfold strip. rewrite rev_app_distr, rev_repeat, drop_run_repeat. reflexivity.
Qed.
Lemma reread_ascii len ch lft s : ascii s = true -> 0 <= ch < 128 -> (lft = false \/ s <> []) ->
  reread len ch lft s = strip ch lft (firstn (Z.to_nat len) s).
Proof.
  intros Ha Hc Hs. unfold reread, fixed. rewrite (ascii_utf8 s Ha).
  set (t := firstn (Z.to_nat len) s). assert (Ht : ascii t = true) by (apply ascii_firstn; auto).
  rewrite Z.mod_small by lia. set (n := (Z.to_nat len - length t)%nat).
  assert (Hp : ascii (repeat ch n) = true) by (apply ascii_repeat; lia).
  destruct lft.
  - destruct s as [|c s']; [destruct Hs; congruence|].
    rewrite ascii_decode by (rewrite ascii_app, Hp, Ht; auto). unfold strip. apply drop_run_repeat.
  - rewrite ascii_decode by (rewrite ascii_app, Hp, Ht; auto). unfold strip. rewrite rev_app_distr, rev_repeat, drop_run_repeat. reflexivity.
Qed.
Lemma strip_none (ch : Z) (lft : bool) (s : list Z) : match (if lft then s else rev s) with c :: _ => c =? ch | nil => false end = false -> strip ch lft s = s.
Proof.
  unfold strip. intros H. destruct lft.
  - destruct s; simpl in *; auto. rewrite H. reflexivity.
  - destruct (rev s) eqn:E; simpl.
    + apply (f_equal (@rev Z)) in E. rewrite rev_involutive in E. auto.
    + rewrite H. change (rev (z :: l) = s). rewrite <- E. apply rev_involutive.
Qed.
