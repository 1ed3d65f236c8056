(* C01-C05, C44, C47: strings in BinaryCodec and their UTF-8 form. *)
From Coq Require Import ZArith List Bool Lia.
From Verif.Model Require Import JavaPrim ByteBuf Utf8 Codec.
From Verif.Spec Require Import Bytes Buffers Reading Malformed.
From Verif.Proofs Require Import BytesFacts BufFacts Utf8Facts Utf8More MalformedFacts CodecFacts CodecMore.
Import ListNotations.
Open Scope Z_scope.

(* a buffer for the examples: 3 bytes written, 1 of them read, 5 spare bytes, may grow to 64 *)
Definition ex_buf : bytebuf :=
  {| arr := [1; 2; 3; 9; 9; 9; 9; 9]; ridx := 1; widx := 3; maxcap := 64; cs_slack := true;
     policy := {| extra := fun n => n; fill := fun _ => 7 |} |}.
Definition ex_text : list Z := [65; 233; 55357; 56832; 66].                (* A, e-acute, a surrogate pair, B *)

(* ---- C01 ---- *)
Theorem C01_write_fixed_string : forall s len pad (lft : bool) b,
  buf_wf b = true -> forallb is_unit (text_of s) = true -> 0 <= len -> fits b (Z.to_nat len) ->
  lft = false \/ text_of s <> [] ->
  exists b1 t p, write_fixed s len pad lft b = (None, b1) /\ buf_wf b1 = true
    /\ appended b (if lft then p ++ t else t ++ p) b1
    /\ t = firstn (Z.to_nat len) (utf8 (text_of s)) /\ p = repeat (pad mod 256) (Z.to_nat len - length t)
    /\ Z.of_nat (length t + length p) = len.
Proof. exact write_fixed_room. Qed.
Theorem C01_write_fixed_string_no_room : forall s len pad (lft : bool) b,
  buf_wf b = true -> forallb is_unit (text_of s) = true -> 0 <= len -> ~ fits b (Z.to_nat len) ->
  lft = false \/ text_of s <> [] ->
  exists b1 bs, write_fixed s len pad lft b = (Some IOOBE, b1) /\ buf_wf b1 = true /\ appended b bs b1.
Proof. exact write_fixed_no_room. Qed.
(* writeFixedString(buf, value, len) pads with blanks on the right *)
Theorem C01_default_form : forall s len b,
  buf_wf b = true -> forallb is_unit (text_of s) = true -> 0 <= len -> fits b (Z.to_nat len) ->
  exists b1 t n, write_fixed_default s len b = (None, b1) /\ buf_wf b1 = true /\ appended b (t ++ repeat 32 n) b1
    /\ t = firstn (Z.to_nat len) (utf8 (text_of s)) /\ Z.of_nat (length t + n) = len.
Proof.
  intros s len b W U Hl F. destruct (write_fixed_room s len 32 false b W U Hl F (or_introl eq_refl)) as (b1 & t & p & E & W1 & A & Et & Ep & Hn).
  exists b1, t, (Z.to_nat len - length t)%nat. rewrite Ep in A, Hn. rewrite repeat_length in Hn. auto 6.
Qed.
Example C01_meets : buf_wf ex_buf = true /\ forallb is_unit ex_text = true /\ fits ex_buf 10
  /\ write_fixed (Some ex_text) 10 32 true ex_buf
     = (None, set_widx (set_arr ex_buf (arr (snd (write_fixed (Some ex_text) 10 32 true ex_buf)))) 13)
  /\ content (snd (write_fixed (Some ex_text) 10 32 true ex_buf)) = [1; 2; 3; 32; 32; 65; 195; 169; 240; 159; 152; 128; 66]
  /\ content (snd (write_fixed (Some ex_text) 3 32 false ex_buf)) = [1; 2; 3; 65; 195; 169]
  /\ content (snd (write_fixed None 3 32 false ex_buf)) = [1; 2; 3; 32; 32; 32].
Proof. unfold fits. repeat split; vm_compute; try reflexivity; discriminate. Qed.
Example C01_no_room_meets : ~ fits ex_buf 62 /\ fst (write_fixed (Some ex_text) 62 32 false ex_buf) = Some IOOBE.
Proof. split; [unfold fits; cbn; lia|vm_compute; reflexivity]. Qed.

(* ---- C47: left padding and nothing to write ---- *)
Theorem C47_left_padded_empty_writes_nothing : forall s len pad b, text_of s = [] -> write_fixed s len pad true b = (None, b).
Proof. exact write_fixed_left_empty. Qed.
(* what users rely on: len bytes are written whatever the string *)
Theorem C47_always_len_bytes_refuted : exists s len pad b b1, buf_wf b = true /\ 0 < len /\ fits b (Z.to_nat len)
  /\ write_fixed s len pad true b = (None, b1) /\ widx b1 = widx b.
Proof. exists (Some []), 8, 48, ex_buf, ex_buf. unfold fits. repeat split; vm_compute; try reflexivity; discriminate. Qed.
(* so a reader of the field takes len bytes of whatever follows *)
Theorem C47_reader_takes_what_follows : forall len pad b bs rest, buf_wf b = true -> readable b = bs ++ rest ->
  Z.of_nat (length bs) = len -> fst (read_fixed len pad true b) = inr (strip pad true (utf8_decode bs)).
Proof. intros len pad b bs rest Hb Hr Hl. rewrite (read_fixed_ok len pad true b bs rest); auto. apply buf_wf_iff; auto. Qed.
Example C47_meets : text_of None = [] /\ write_fixed None 8 48 true ex_buf = (None, ex_buf)
  /\ fst (read_fixed 2 48 true ex_buf) = inr [2; 3].
Proof. repeat split. Qed.

(* ---- C02 ---- *)
Theorem C02_fixed_string_round_trip : forall s len pad (lft : bool) b b1 b2 bs rest,
  buf_wf b = true -> valid16 (text_of s) = true -> 0 <= len -> 0 <= pad < 128 ->
  Z.of_nat (length (utf8 (text_of s))) <= len ->
  (match (if lft then text_of s else rev (text_of s)) with c :: _ => c <> pad | [] => lft = false end) ->
  write_fixed s len pad lft b = (None, b1) -> appended b bs b1 ->
  buf_wf b2 = true -> readable b2 = bs ++ rest ->
  exists b3, read_fixed len pad lft b2 = (inr (text_of s), b3) /\ advanced b2 (Z.to_nat len) b3 /\ readable b3 = rest.
Proof. exact read_back_same. Qed.
Example C02_meets :
  let b1 := snd (write_fixed (Some ex_text) 10 32 true ex_buf) in
  valid16 ex_text = true /\ Z.of_nat (length (utf8 ex_text)) = 8 /\ hd 0 ex_text <> 32
  /\ appended ex_buf [32; 32; 65; 195; 169; 240; 159; 152; 128; 66] b1
  /\ fst (read_fixed 10 32 true (set_ridx b1 3)) = inr ex_text.
Proof. repeat split; vm_compute; try reflexivity; discriminate. Qed.
Example C02_null_meets : fst (read_fixed 3 32 false (set_ridx (snd (write_fixed None 3 32 false ex_buf)) 3)) = inr [].
Proof. vm_compute. reflexivity. Qed.

(* ---- C03 ---- *)
Theorem C03_fitting_string_loses_only_pads : forall s len pad (lft : bool) b b1 b2 bs rest,
  buf_wf b = true -> valid16 (text_of s) = true -> 0 <= len -> 0 <= pad < 128 ->
  Z.of_nat (length (utf8 (text_of s))) <= len -> lft = false \/ text_of s <> [] ->
  write_fixed s len pad lft b = (None, b1) -> appended b bs b1 -> buf_wf b2 = true -> readable b2 = bs ++ rest ->
  exists r k, fst (read_fixed len pad lft b2) = inr r
    /\ text_of s = (if lft then repeat pad k ++ r else r ++ repeat pad k)
    /\ match (if lft then r else rev r) with c :: _ => c <> pad | [] => True end.
Proof. exact read_back_fits. Qed.
Theorem C03_ascii_string_loses_tail_and_pads : forall s len pad (lft : bool) b b1 b2 bs rest,
  buf_wf b = true -> ascii (text_of s) = true -> 0 <= len -> 0 <= pad < 128 -> lft = false \/ text_of s <> [] ->
  write_fixed s len pad lft b = (None, b1) -> appended b bs b1 -> buf_wf b2 = true -> readable b2 = bs ++ rest ->
  exists r k, fst (read_fixed len pad lft b2) = inr r
    /\ firstn (Z.to_nat len) (text_of s) = (if lft then repeat pad k ++ r else r ++ repeat pad k)
    /\ match (if lft then r else rev r) with c :: _ => c <> pad | [] => True end.
Proof. exact read_back_ascii. Qed.
(* readFixedString(buf, len) takes the blanks off the right end, so the short forms belong together *)
Theorem C03_default_forms : forall s len b b1 b2 bs rest,
  buf_wf b = true -> valid16 (text_of s) = true -> 0 <= len -> Z.of_nat (length (utf8 (text_of s))) <= len ->
  write_fixed_default s len b = (None, b1) -> appended b bs b1 -> buf_wf b2 = true -> readable b2 = bs ++ rest ->
  exists r k, fst (read_fixed_default len b2) = inr r /\ text_of s = r ++ repeat 32 k
    /\ match rev r with c :: _ => c <> 32 | [] => True end.
Proof.
  intros s len b b1 b2 bs rest W V Hl Hf E A W2 R.
  exact (read_back_fits s len 32 false b b1 b2 bs rest W V Hl ltac:(lia) Hf (or_introl eq_refl) E A W2 R).
Qed.
Example C03_default_meets :
  let s := [32; 65; 233; 32; 66; 32] in let b1 := snd (write_fixed_default (Some s) 10 ex_buf) in
  valid16 s = true /\ fst (write_fixed_default (Some s) 10 ex_buf) = None /\ length (utf8 s) = 7%nat
  /\ appended ex_buf [32; 65; 195; 169; 32; 66; 32; 32; 32; 32] b1
  /\ fst (read_fixed_default 10 (set_ridx b1 3)) = inr [32; 65; 233; 32; 66].
Proof. repeat split. Qed.
Example C03_meets :
  let s := [65; 66; 32; 67; 32; 32; 68] in
  ascii s = true
  /\ fst (read_fixed 6 32 false (set_ridx (snd (write_fixed (Some s) 6 32 false ex_buf)) 3)) = inr [65; 66; 32; 67]
  /\ fst (read_fixed 9 65 true (set_ridx (snd (write_fixed (Some s) 9 65 true ex_buf)) 3)) = inr [66; 32; 67; 32; 32; 68].
Proof. repeat split. Qed.

(* ---- C04 ---- *)
Theorem C04_read_fixed_string : forall len pad lft b, 0 <= len ->
  match read_fixed len pad lft b with
  | (inr s, b1) => (len <= char_bytes b \/ len = 0) /\ Z.of_nat (length s) <= len /\ advanced b (Z.to_nat len) b1
  | (inl e, b1) => e = IOOBE /\ char_bytes b < len /\ b1 = b
  end.
Proof. exact read_fixed_total. Qed.
(* the value: what the len bytes at the reader index decode to (Spec/Malformed.v), without the pads *)
Theorem C04_value : forall len pad lft b s, buf_wf b = true -> 0 <= len -> fst (read_fixed len pad lft b) = inr s ->
  exists u, decodes (firstn (Z.to_nat len) (skipn (ridx b) (arr b))) u /\ s = strip pad lft u.
Proof.
  intros len pad lft b s W Hl E. unfold read_fixed, read_chars in E. destruct (Z.eqb_spec len 0) as [->|Hn].
  - exists []. split; [constructor|]. cbn [fst utf8_decode] in E. rewrite !trim_spec in E. destruct lft; congruence.
  - destruct ((len <? 0) || _); [discriminate E|]. cbn [fst] in E. exists (utf8_decode (slice (arr b) (ridx b) (Z.to_nat len))).
    rewrite !trim_spec in E. split; [|destruct lft; congruence]. apply decode_malformed. apply buf_wf_iff in W. apply Forall_firstn, Forall_skipn, wf_bytes. exact W.
Qed.
Theorem C04_default_value : forall len b s, buf_wf b = true -> 0 <= len -> fst (read_fixed_default len b) = inr s ->
  exists u, decodes (firstn (Z.to_nat len) (skipn (ridx b) (arr b))) u /\ s = strip 32 false u.
Proof. exact (fun len b s => C04_value len 32 false b s). Qed.
Theorem C04_negative_length_throws : forall len pad lft b, len < 0 -> read_fixed len pad lft b = (inl IOOBE, b).
Proof. exact read_fixed_negative. Qed.
Example C04_meets : char_bytes ex_buf = 7 /\ fst (read_fixed 7 32 false ex_buf) = inr [2; 3; 9; 9; 9; 9; 9]
  /\ fst (read_fixed 8 32 false ex_buf) = inl IOOBE
  /\ fst (read_fixed 4 32 false {| arr := [255; 65; 237; 160]; ridx := 0; widx := 4; maxcap := 9; cs_slack := false; policy := policy ex_buf |})
     = inr [65533; 65; 65533].
Proof. repeat split. Qed.

(* ---- C05 ---- *)
Theorem C05_trim_left : forall s ch, exists n, s = repeat ch n ++ trim_by_char s ch true
  /\ match trim_by_char s ch true with c :: _ => c <> ch | [] => True end.
Proof. exact trim_left. Qed.
Theorem C05_trim_right : forall s ch, exists n, s = trim_by_char s ch false ++ repeat ch n
  /\ match rev (trim_by_char s ch false) with c :: _ => c <> ch | [] => True end.
Proof. exact trim_right. Qed.
Theorem C05_trim_idempotent : forall s ch lft, trim_by_char (trim_by_char s ch lft) ch lft = trim_by_char s ch lft.
Proof. exact trim_idem. Qed.
Example C05_meets : trim_by_char [32; 32; 65; 32; 66; 32] 32 true = [65; 32; 66; 32]
  /\ trim_by_char [32; 32; 65; 32; 66; 32] 32 false = [32; 32; 65; 32; 66] /\ trim_by_char [32; 32] 32 false = [].
Proof. repeat split. Qed.

(* ---- C44 ---- *)
Theorem C44_encoding_is_utf8 : forall s, forallb is_unit s = true -> utf8_encode s = utf8 s.
Proof. exact utf8_encode_spec. Qed.
Theorem C44_valid_round_trip : forall s, valid16 s = true -> utf8_decode (utf8_encode s) = s.
Proof. intros s H. rewrite utf8_encode_spec by (apply valid16_unit; exact H). apply decode_utf8_valid. exact H. Qed.
Theorem C44_concatenation : forall s t, valid16 s = true -> utf8_decode (utf8 s ++ t) = s ++ utf8_decode t.
Proof. exact decode_utf8_valid_app. Qed.
Theorem C44_unpaired_surrogate : forall s, forallb is_unit s = true ->
  utf8_decode (utf8_encode s) = flat_map units (scalars s).
Proof.
  intros s H. rewrite utf8_encode_spec by exact H. pose proof (decode_utf8_app s [] H) as D. rewrite !app_nil_r in D. exact D.
Qed.
Theorem C44_decode_valid : forall bs, Forall (fun x => 0 <= x < 256) bs ->
  valid16 (utf8_decode bs) = true /\ (length (utf8_decode bs) <= length bs)%nat.
Proof. intros bs H. split; [apply decode_valid; exact H|apply decode_length]. Qed.
Theorem C44_ascii : forall s, ascii s = true -> utf8_encode s = s /\ utf8_decode s = s.
Proof. intros s H. split; [|apply ascii_decode; exact H]. rewrite utf8_encode_spec by (apply valid16_unit, ascii_valid; exact H). apply ascii_utf8. exact H. Qed.
(* bytes that are not UTF-8: one U+FFFD for every longest piece that could have begun a character; no other reading exists *)
Theorem C44_malformed : forall bs s, Forall (fun x => 0 <= x < 256) bs -> (decodes bs s <-> s = utf8_decode bs).
Proof.
  intros bs s H. split; [intros D; exact (decodes_unique bs s D _ (decode_malformed bs H))|]. intros ->. apply decode_malformed. exact H.
Qed.
Example C44_malformed_meets : utf8_decode [65; 237; 160; 128; 224; 159; 66; 240; 159; 152; 244; 144; 192; 245; 195; 67; 226; 130]
  = [65; 65533; 65533; 65533; 66; 65533; 65533; 65533; 65533; 65533; 65533; 67; 65533].
Proof. reflexivity. Qed.
Example C44_meets : valid16 ex_text = true /\ utf8_encode ex_text = [65; 195; 169; 240; 159; 152; 128; 66]
  /\ forallb is_unit [65; 55357; 66] = true /\ utf8_decode (utf8_encode [65; 55357; 66]) = [65; 63; 66]
  /\ flat_map units (scalars [65; 55357; 66]) = [65; 63; 66] /\ utf8_decode [240; 159; 152; 65] = [65533; 65].
Proof. repeat split. Qed.

Print Assumptions C01_write_fixed_string.
Print Assumptions C01_write_fixed_string_no_room.
Print Assumptions C01_default_form.
Print Assumptions C02_fixed_string_round_trip.
Print Assumptions C03_fitting_string_loses_only_pads.
Print Assumptions C03_ascii_string_loses_tail_and_pads.
Print Assumptions C04_read_fixed_string.
Print Assumptions C04_negative_length_throws.
Print Assumptions C05_trim_left.
Print Assumptions C05_trim_right.
Print Assumptions C05_trim_idempotent.
Print Assumptions C44_encoding_is_utf8.
Print Assumptions C44_valid_round_trip.
Print Assumptions C44_concatenation.
Print Assumptions C44_unpaired_surrogate.
Print Assumptions C44_decode_valid.
Print Assumptions C44_ascii.
Print Assumptions C44_malformed.
Print Assumptions C04_value.
Print Assumptions C47_left_padded_empty_writes_nothing.
Print Assumptions C47_always_len_bytes_refuted.
Print Assumptions C47_reader_takes_what_follows.
Print Assumptions C03_default_forms.
Print Assumptions C04_default_value.
