(* Statements about BinaryCodec in the form the properties need. *)
From Coq Require Import ZArith List Bool Lia ZifyBool.
From Verif.Model Require Import JavaPrim ByteBuf Utf8 Codec.
From Verif.Spec Require Import Bytes Buffers Reading.
From Verif.Proofs Require Import BytesFacts BufFacts Utf8Facts Utf8More CodecFacts.
Import ListNotations.
Open Scope Z_scope.

Lemma write_fixed_room s len pad lft b : buf_wf b = true -> forallb is_unit (text_of s) = true -> 0 <= len ->
  fits b (Z.to_nat len) -> lft = false \/ text_of s <> [] ->
  exists b1 t p, write_fixed s len pad lft b = (None, b1) /\ buf_wf b1 = true
    /\ appended b (if lft then p ++ t else t ++ p) b1
    /\ t = firstn (Z.to_nat len) (utf8 (text_of s)) /\ p = repeat (pad mod 256) (Z.to_nat len - length t)
    /\ Z.of_nat (length t + length p) = len.
Proof.
  intros Hb Hu Hl Hf Hs. apply buf_wf_iff in Hb. pose proof (write_fixed_wrote s len pad lft b Hb Hu Hl) as W.
  destruct (write_fixed s len pad lft b) as [[e|] b1]; cbn [wrote] in W.
  - destruct W as (_ & N & _). exfalso. apply N. rewrite fixed_length; auto.
  - destruct W as [A W]. eexists b1, _, _. split; [reflexivity|]. split; [apply buf_wf_iff; auto|].
    split; [|split; [reflexivity|split; [reflexivity|]]].
    + unfold fixed in A. destruct lft; [|exact A]. destruct (text_of s); [destruct Hs; congruence|exact A].
    + rewrite repeat_length, firstn_length. lia.
Qed.
Lemma write_fixed_no_room s len pad lft b : buf_wf b = true -> forallb is_unit (text_of s) = true -> 0 <= len ->
  ~ fits b (Z.to_nat len) -> lft = false \/ text_of s <> [] ->
  exists b1 bs, write_fixed s len pad lft b = (Some IOOBE, b1) /\ buf_wf b1 = true /\ appended b bs b1.
Proof.
  intros Hb Hu Hl Hf Hs. apply buf_wf_iff in Hb. pose proof (write_fixed_wrote s len pad lft b Hb Hu Hl) as W.
  pose proof (fixed_length (Z.to_nat len) pad lft (text_of s) Hs) as FL.
  destruct (write_fixed s len pad lft b) as [[e|] b1].
  - destruct W as (-> & _ & W & bs & A). exists b1, bs. split; auto. split; auto. apply buf_wf_iff; auto.
  - apply wrote_fits in W; auto. rewrite FL in W. contradiction.
Qed.
Lemma write_fixed_left_empty s len pad b : text_of s = [] -> write_fixed s len pad true b = (None, b).
Proof. destruct s as [[|]|]; intros H; try discriminate; reflexivity. Qed.

Lemma read_back s len pad lft b b1 b2 bs rest : buf_wf b = true -> valid16 (text_of s) = true -> 0 <= len -> 0 <= pad < 128 ->
  lft = false \/ text_of s <> [] -> write_fixed s len pad lft b = (None, b1) -> appended b bs b1 ->
  buf_wf b2 = true -> readable b2 = bs ++ rest ->
  exists b3, read_fixed len pad lft b2 = (inr (reread len pad lft (text_of s)), b3) /\ advanced b2 (length bs) b3.
Proof.
  intros Hb Hv Hl Hp Hs Hw A Hb2 Hr. apply buf_wf_iff in Hb, Hb2.
  pose proof (write_fixed_wrote s len pad lft b Hb (valid16_unit _ Hv) Hl) as W. rewrite Hw in W. destruct W as [A' W].
  assert (bs = fixed (Z.to_nat len) pad lft (text_of s)) as ->.
  { pose proof (app_content _ _ _ A) as Q. rewrite (app_content _ _ _ A') in Q. apply app_inv_head in Q. auto. }
  eexists. split; [|reflexivity]. apply (read_fixed_ok len pad lft b2 _ rest); auto. rewrite fixed_length; auto. lia.
Qed.

Lemma read_fixed_total len pad lft b : 0 <= len ->
  match read_fixed len pad lft b with
  | (inr s, b1) => (len <= char_bytes b \/ len = 0) /\ Z.of_nat (length s) <= len /\ advanced b (Z.to_nat len) b1
  | (inl e, b1) => e = IOOBE /\ char_bytes b < len /\ b1 = b
  end.
Proof.
  intros Hl. unfold char_bytes, read_fixed, read_chars, cs_limit, capacity.
  destruct (Z.eqb_spec len 0) as [->|Hn].
  - split; [auto|]. split; [destruct lft; cbn; lia|]. unfold advanced. change (Z.to_nat 0) with 0%nat. rewrite Nat.add_0_r. destruct b; reflexivity.
  - destruct (Z.ltb_spec len 0); [lia|]. cbn [orb].
    destruct (Z.ltb_spec (Z.of_nat (if cs_slack b then length (arr b) else widx b)) (Z.of_nat (ridx b) + len)).
    + split; auto. split; auto. lia.
    + split; [left; lia|]. split; [|reflexivity].
      set (bs := slice (arr b) (ridx b) (Z.to_nat len)).
      assert (Hbs : (length bs <= Z.to_nat len)%nat) by (unfold bs, slice; rewrite firstn_length; lia).
      replace (if lft then trim_by_char (utf8_decode bs) pad true else trim_by_char (utf8_decode bs) pad false)
        with (strip pad lft (utf8_decode bs)) by (rewrite <- trim_spec; destruct lft; reflexivity).
      pose proof (strip_length pad lft (utf8_decode bs)). pose proof (decode_length bs). lia.
Qed.

(* trimming *)
Lemma drop_run_split ch s : exists n, s = repeat ch n ++ drop_run ch s /\ match drop_run ch s with c :: _ => c <> ch | [] => True end.
Proof.
  induction s as [|c s (n & E & H)].
  - exists O. split; [reflexivity|exact I].
  - cbn [drop_run]. destruct (Z.eqb_spec c ch) as [->|N].
    + exists (S n). cbn [repeat app]. split; auto. congruence.
    + exists O. split; auto.
Qed.
Lemma trim_left s ch : exists n, s = repeat ch n ++ trim_by_char s ch true
  /\ match trim_by_char s ch true with c :: _ => c <> ch | [] => True end.
Proof. rewrite trim_spec. apply drop_run_split. Qed.
Lemma trim_right s ch : exists n, s = trim_by_char s ch false ++ repeat ch n
  /\ match rev (trim_by_char s ch false) with c :: _ => c <> ch | [] => True end.
Proof.
  rewrite trim_spec. unfold strip. destruct (drop_run_split ch (rev s)) as (n & E & H). exists n.
  rewrite rev_involutive. split; auto. rewrite <- rev_repeat, <- rev_app_distr, <- E. symmetry. apply rev_involutive.
Qed.
Lemma drop_run_idem ch s : drop_run ch (drop_run ch s) = drop_run ch s.
Proof. destruct (drop_run_split ch s) as (n & _ & H). destruct (drop_run ch s); auto. cbn [drop_run]. destruct (Z.eqb_spec z ch); congruence. Qed.
Lemma trim_idem s ch lft : trim_by_char (trim_by_char s ch lft) ch lft = trim_by_char s ch lft.
Proof.
  rewrite !trim_spec. unfold strip. destruct lft; [apply drop_run_idem|]. rewrite rev_involutive, drop_run_idem. reflexivity.
Qed.

Lemma read_back_same s len pad (lft : bool) b b1 b2 bs rest :
  buf_wf b = true -> valid16 (text_of s) = true -> 0 <= len -> 0 <= pad < 128 ->
  Z.of_nat (length (utf8 (text_of s))) <= len ->
  (match (if lft then text_of s else rev (text_of s)) with c :: _ => c <> pad | [] => lft = false end) ->
  write_fixed s len pad lft b = (None, b1) -> appended b bs b1 ->
  buf_wf b2 = true -> readable b2 = bs ++ rest ->
  exists b3, read_fixed len pad lft b2 = (inr (text_of s), b3) /\ advanced b2 (Z.to_nat len) b3 /\ readable b3 = rest.
Proof.
  intros Hb Hv Hl Hp Hf Hc Hw A Hb2 Hr.
  assert (Hs : lft = false \/ text_of s <> []) by (destruct lft; auto; right; destruct (text_of s); [discriminate|congruence]).
  destruct (read_back s len pad lft b b1 b2 bs rest) as (b3 & R & Ad); auto.
  assert (Hlen : Z.of_nat (length bs) = len).
  { destruct (fits_dec b (Z.to_nat len)) as [F|F].
    - destruct (write_fixed_room s len pad lft b Hb (valid16_unit _ Hv) Hl F Hs) as (b1' & t & p & W & _ & A' & _ & _ & E).
      rewrite Hw in W. injection W as <-. pose proof (app_content _ _ _ A) as Q. rewrite (app_content _ _ _ A') in Q. apply app_inv_head in Q. subst bs.
      destruct lft; rewrite app_length in *; lia.
    - destruct (write_fixed_no_room s len pad lft b Hb (valid16_unit _ Hv) Hl F Hs) as (? & ? & W & _). congruence. }
  exists b3. replace (Z.to_nat len) with (length bs) by lia. split; [|split; auto].
  - rewrite R. do 2 f_equal. rewrite reread_fits by auto. apply strip_none. destruct (if lft then text_of s else rev (text_of s)); auto. apply Z.eqb_neq; auto.
  - unfold advanced in Ad. subst b3. rewrite readable_advance, Hr. rewrite skipn_app, skipn_all, Nat.sub_diag. reflexivity.
Qed.
Lemma strip_split pad (lft : bool) s : exists k, s = (if lft then repeat pad k ++ strip pad lft s else strip pad lft s ++ repeat pad k)
  /\ match (if lft then strip pad lft s else rev (strip pad lft s)) with c :: _ => c <> pad | [] => True end.
Proof. destruct lft; rewrite <- trim_spec; [apply trim_left|apply trim_right]. Qed.
Lemma read_back_fits s len pad (lft : bool) b b1 b2 bs rest :
  buf_wf b = true -> valid16 (text_of s) = true -> 0 <= len -> 0 <= pad < 128 ->
  Z.of_nat (length (utf8 (text_of s))) <= len -> lft = false \/ text_of s <> [] ->
  write_fixed s len pad lft b = (None, b1) -> appended b bs b1 -> buf_wf b2 = true -> readable b2 = bs ++ rest ->
  exists r k, fst (read_fixed len pad lft b2) = inr r
    /\ text_of s = (if lft then repeat pad k ++ r else r ++ repeat pad k)
    /\ match (if lft then r else rev r) with c :: _ => c <> pad | [] => True end.
Proof.
  intros Hb Hv Hl Hp Hf Hs Hw A Hb2 Hr. destruct (read_back s len pad lft b b1 b2 bs rest) as (b3 & R & _); auto.
  rewrite reread_fits in R by auto. destruct (strip_split pad lft (text_of s)) as (k & E & H).
  exists (strip pad lft (text_of s)), k. rewrite R. auto.
Qed.
Lemma read_back_ascii s len pad (lft : bool) b b1 b2 bs rest :
  buf_wf b = true -> ascii (text_of s) = true -> 0 <= len -> 0 <= pad < 128 -> lft = false \/ text_of s <> [] ->
  write_fixed s len pad lft b = (None, b1) -> appended b bs b1 -> buf_wf b2 = true -> readable b2 = bs ++ rest ->
  exists r k, fst (read_fixed len pad lft b2) = inr r
    /\ firstn (Z.to_nat len) (text_of s) = (if lft then repeat pad k ++ r else r ++ repeat pad k)
    /\ match (if lft then r else rev r) with c :: _ => c <> pad | [] => True end.
Proof.
  intros Hb Hv Hl Hp Hs Hw A Hb2 Hr. destruct (read_back s len pad lft b b1 b2 bs rest) as (b3 & R & _); auto; [apply ascii_valid; auto|].
  rewrite reread_ascii in R by auto. destruct (strip_split pad lft (firstn (Z.to_nat len) (text_of s))) as (k & E & H).
  eexists _, k. rewrite R. split; [reflexivity|]. auto.
Qed.
Lemma read_fixed_negative len pad lft b : len < 0 -> read_fixed len pad lft b = (inl IOOBE, b).
Proof.
  intros H. unfold read_fixed, read_chars. destruct (Z.eqb_spec len 0); [lia|]. destruct (Z.ltb_spec len 0); [reflexivity|lia].
Qed.
