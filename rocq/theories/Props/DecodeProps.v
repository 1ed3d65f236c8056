(* C29, C30: decode of changed and of truncated bytes. *)
From Coq Require Import ZArith List Bool String Lia.
From Verif.Model Require Import JavaPrim ByteBuf Checksum Ast Interp Factory Library.
From Verif.Spec Require Import Bytes Buffers Wire Reading Layouts.
From Verif.Proofs Require Import BytesFacts BufFacts Conform TableFacts FillFacts DecodeFacts Messages Lockstep FrameFacts FrameDecode.
From Verif.Props Require Import Samples FrameProps.
Import ListNotations.
Open Scope Z_scope.

(* ---- C29 ---- *)
(* v.setF(x) *)
Definition with_field (f : string) (x : val) (v : val) : val := match v with VObj c fs => VObj c (set f x fs) | _ => v end.

(* Take the bytes of an encoded frame and replace length and checksum by any bytes: decode still returns, consumes the same number
   of bytes, and only these two getters differ (RcBinary has no checksum field; [tail] is then empty and with_field does nothing). *)
Definition length_and_checksum_ignored (c : string) (off : nat) (lf : string) (o : endian) (after : nat) : Prop :=
  forall E d d2 v b v1 b1, classes E = lib_classes ->
  object_of E c v = true -> buf_wf b = true -> encode E d v b = (None, v1, b1) ->
  parsable Y (factory E) v (WObj c) = true -> (nesting v <= d2)%nat ->
  exists head len body tail, appended b (head ++ len ++ body ++ tail) b1
    /\ List.length head = off /\ List.length len = 4%nat /\ List.length tail = after
    /\ forall old, object_of E c old = true -> exists w0, forall len' tail' b2 rest,
         List.length len' = 4%nat -> List.length tail' = after -> bytes_ok len' -> bytes_ok tail' ->
         buf_wf b2 = true -> readable b2 = (head ++ len' ++ body ++ tail') ++ rest ->
         exists b3, decode E d2 old b2 = (None, with_field lf (VInt (get_int o len')) (with_field "checksum" (VInt (get_int o tail')) w0), b3)
           /\ advanced b2 (List.length (head ++ len ++ body ++ tail)) b3.
Lemma ignored c off lf o after hdr bf k tl : find c Y = Some (hdr ++ (lf, WLen 4 o) :: (bf, WBody k) :: tl) ->
  forallb int_field hdr = true -> widths hdr = off -> (4 * List.length tl)%nat = after ->
  (tl = [] /\ existsb (fun fw => String.eqb "checksum" (fst fw)) (hdr ++ [(lf, WLen 4 o); (bf, WBody k)]) = false \/ exists alg, tl = [("checksum"%string, WSum 4 o alg)]) ->
  length_and_checksum_ignored c off lf o after.
Proof.
  intros HL Hh <- <- Hs E d d2 v b v1 b1 HE Hv Hb He Hp Hn.
  destruct (encoded_facts lib_classes Y library_conforms E HE d c v b v1 b1 Hv Hb He) as (Hv1 & _ & Hn1 & _ & A & _ & E1).
  destruct (frame_ignores lib_classes Y library_conforms E HE d2 c hdr lf o bf k tl "checksum" v1 HL Hh Hs Hv1) as (head & len & body & tail & Es & L1 & L2 & L3 & D).
  - rewrite E1, fill_parsable. exact Hp.
  - lia.
  - exists head, len, body, tail. rewrite Es in A. split; [exact A|]. split; [exact L1|]. split; [exact L2|]. split; [exact L3|].
    intros old Ho. destruct (D old Ho) as [w0 D0]. exists w0. intros len' tail' b2 rest M1 M2 B1 B2 Hb2 Hr.
    eexists. split; [apply (D0 len' tail' b2 rest M1); auto; rewrite L3; auto|]. rewrite Es. reflexivity.
Qed.
Theorem C29_length_and_checksum_ignored : forall c off lf o bf after, In (c, off, lf, o, bf, after) frames -> length_and_checksum_ignored c off lf o after.
Proof.
  intros c off lf o bf after H. unfold frames in H. cbn [In] in H.
  destruct H as [H|[H|[H|[H|[]]]]]; injection H as <- <- <- <- <- <-.
  - apply (ignored _ _ _ _ _ [("msgType", WInt 2 LE)]%string "payload" "msgType" [("checksum", WSum 4 LE "CRC32")]%string); try (vm_compute; reflexivity). right. eexists. reflexivity.
  - apply (ignored _ _ _ _ _ [("msgType", WInt 4 BE); ("msgSeqNum", WInt 8 BE)]%string "body" "msgType" [("checksum", WSum 4 BE "SSE_BIN")]%string); try (vm_compute; reflexivity). right. eexists. reflexivity.
  - apply (ignored _ _ _ _ _ [("msgType", WInt 4 BE)]%string "body" "msgType" [("checksum", WSum 4 BE "SZSE_BIN")]%string); try (vm_compute; reflexivity). right. eexists. reflexivity.
  - apply (ignored _ _ _ _ _ [("msgType", WInt 4 BE); ("version", WInt 4 BE)]%string "body" "msgType" []%string); try (vm_compute; reflexivity). left. split; reflexivity.
Qed.
(* so "a frame whose checksum does not match is rejected" is false *)
Theorem C29_corrupted_frame_rejected_refuted : exists v b, object_of lib_env "sample.RootPacket" v = true /\ buf_wf b = true
  /\ (exists v1 b1 front z, encode lib_env 9 v empty_buf = (None, v1, b1) /\ content b1 = front ++ number LE 4 z
      /\ content b = front ++ number LE 4 (z + 1) /\ readable b = content b)
  /\ exists w b3, decode lib_env 9 (new_obj lib_env "sample.RootPacket") b = (None, w, b3).
Proof.
  pose (r := encode lib_env 9 s_root_nested empty_buf). pose (bs := content (snd r)). pose (front := firstn (List.length bs - 4) bs).
  pose (z := match field "checksum" (snd (fst r)) with VInt z => z | _ => 0 end).
  pose (b := wrap_bytes (front ++ number LE 4 (z + 1))).
  exists s_root_nested, b. split; [vm_compute; reflexivity|]. split; [vm_compute; reflexivity|]. split.
  - exists (snd (fst r)), (snd r), front, z. split.
    { assert (H : fst (fst r) = None) by (vm_compute; reflexivity). fold r. destruct r as [[e v1] b1]. cbn in H |- *. subst e. reflexivity. }
    split; [vm_compute; reflexivity|]. split; vm_compute; reflexivity.
  - pose (q := decode lib_env 9 (new_obj lib_env "sample.RootPacket") b). exists (snd (fst q)), (snd q).
    assert (H : fst (fst q) = None) by (vm_compute; reflexivity). fold q. destruct q as [[e v1] b1]. cbn in H |- *. subst e. reflexivity.
Qed.
Example C29_meets : parsable Y (factory lib_env) s_root (WObj "sample.RootPacket") = true /\ (nesting s_root <= 9)%nat
  /\ (let '(e, v1, b1) := encode lib_env 9 s_root empty_buf in e = None).
Proof. vm_compute. repeat split. repeat constructor. Qed.

(* ---- C30 ---- *)
(* no spare capacity behind the writer index, or a netty whose readCharSequence respects it *)
Definition no_spare (b : bytebuf) : Prop := cs_slack b = false \/ widx b = capacity b.

Theorem C30_truncated_message_rejected : forall E d d2 c v b v1 b1 bs, classes E = lib_classes ->
  object_of E c v = true -> buf_wf b = true -> encode E d v b = (None, v1, b1) -> appended b bs b1 ->
  parsable Y (factory E) v (WObj c) = true -> (nesting v <= d2)%nat ->
  forall old b2 k, object_of E c old = true -> buf_wf b2 = true -> no_spare b2 ->
  (k < List.length bs)%nat -> readable b2 = firstn k bs ->
  exists v2 b3, decode E d2 old b2 = (Some IOOBE, v2, b3).
Proof.
  intros E d d2 c v b v1 b1 bs HE Hv Hb He A Hp Hn old b2 k Ho Hb2 Hs Hk Hr.
  destruct (encoded_facts lib_classes Y library_conforms E HE d c v b v1 b1 Hv Hb He) as (Hv1 & _ & Hn1 & _ & A1 & W & E1).
  assert (bs = ser Y v1 (WObj c)) as -> by (pose proof (app_content _ _ _ A) as Q; rewrite (app_content _ _ _ A1) in Q; apply app_inv_head in Q; auto).
  set (bs := ser Y v1 (WObj c)) in *. apply buf_wf_iff in W. apply buf_wf_iff in Hb2.
  pose proof (appended_bytes _ _ _ W A) as Bb. pose proof (appended_small _ _ _ W A) as Bs.
  destruct (buffer_of bs Bb Bs) as (b0 & W0 & R0).
  assert (X0 : exists b0, buf_wf b0 = true /\ readable b0 = bs /\ cs_slack b0 = false /\ ridx b0 = O /\ arr b0 = bs /\ widx b0 = List.length bs).
  { exists (wrapped bs). split; [|split; [|repeat split]].
    - apply buf_wf_iff. constructor; simpl; auto; lia.
    - unfold readable, content. simpl. rewrite firstn_all. reflexivity. }
  clear b0 W0 R0. destruct X0 as (b0 & W0 & R0 & S0 & I0 & A0 & X0).
  destruct (decode_bytes lib_classes Y library_conforms E HE d2 c v1 old b0 [] Hv1 Ho) as (b3 & D & Ad).
  - rewrite E1, fill_parsable. exact Hp.
  - lia.
  - exact W0.
  - rewrite app_nil_r. exact R0.
  - fold bs in Ad.
    assert (Lr : (widx b2 - ridx b2)%nat = k).
    { rewrite <- readable_length by exact Hb2. rewrite Hr, firstn_length. lia. }
    assert (Rc : reach b2 = Z.of_nat k /\ avail b2 = Z.of_nat k).
    { unfold reach, avail, cs_limit. pose proof (wf_ridx _ Hb2). destruct Hs as [Hs|Hs].
      - rewrite Hs. lia.
      - unfold capacity in Hs. destruct (cs_slack b2); lia. }
    destruct Rc as [Rc Av].
    assert (Cu : cut b0 b2).
    { constructor.
      - rewrite Av. unfold avail. lia.
      - rewrite Rc. unfold reach, cs_limit. rewrite S0. lia.
      - lia.
      - intros j Hj. rewrite I0, A0. unfold slice. cbn [skipn].
        assert (firstn j (skipn (ridx b2) (arr b2)) = firstn j (readable b2)) as ->.
        { unfold readable, content. rewrite skipn_firstn_comm, firstn_firstn. f_equal. lia. }
        rewrite Hr, firstn_firstn. f_equal. lia. }
    destruct (lockstep E d2 old b0 b2 Cu) as [H|(H1 & H2 & n & H3 & H4 & H5)].
    + destruct (decode E d2 old b2) as [[e v2] b4]. cbn in H. subst e. eauto.
    + exfalso. rewrite D in H3. cbn [re snd fst] in H3. unfold advanced in Ad. rewrite Ad in H3. apply (f_equal ridx) in H3. cbn in H3.
      specialize (H5 ltac:(lia)). lia.
Qed.
(* with spare capacity behind the writer index the same claim fails (netty 4.1.100: readCharSequence checks the capacity) *)
Theorem C30_spare_capacity_refuted : exists v v1 b1 bs b2, object_of lib_env "bjse.Extend050" v = true
  /\ encode lib_env 3 v empty_buf = (None, v1, b1) /\ appended empty_buf bs b1
  /\ parsable Y (factory lib_env) v (WObj "bjse.Extend050") = true /\ buf_wf b2 = true
  /\ (exists k, (k < List.length bs)%nat /\ readable b2 = firstn k bs)
  /\ exists v2 b3, decode lib_env 3 (new_obj lib_env "bjse.Extend050") b2 = (None, v2, b3) /\ (widx b3 < ridx b3)%nat.
Proof.
  exists (build "bjse.Extend050" [("expirationDays", VInt 7); ("expirationType", VInt 1); ("shareProperty", str "AB")]%string).
  eexists _, _, [7; 0; 1; 65; 66],
    {| arr := [7; 0; 1; 65; 88; 88; 88; 88]; ridx := 0; widx := 4; maxcap := 64; cs_slack := true; policy := {| extra := fun _ => O; fill := fun _ => 0 |} |}.
  split; [vm_compute; reflexivity|]. split; [vm_compute; reflexivity|]. split; [constructor; vm_compute; reflexivity|].
  split; [vm_compute; reflexivity|]. split; [reflexivity|]. split; [exists 4%nat; split; [cbn; lia|reflexivity]|].
  eexists _, _. split; [vm_compute; reflexivity|]. cbn. lia.
Qed.
Example C30_meets : no_spare (wrap_bytes [1; 2; 3]) /\ buf_wf (wrap_bytes [1; 2; 3]) = true
  /\ (let '(e, v1, b1) := encode lib_env 9 s_root empty_buf in e = None /\
      forallb (fun k => match decode lib_env 9 (new_obj lib_env "sample.RootPacket") (wrap_bytes (firstn k (content b1))) with
                        | (Some IOOBE, _, _) => true | _ => false end) [0; 1; 2; 5; 20; 60; 86; 90]%nat = true).
Proof. split; [right; reflexivity|]. vm_compute. repeat split. Qed.

Print Assumptions C29_length_and_checksum_ignored.
Print Assumptions C29_corrupted_frame_rejected_refuted.
Print Assumptions C30_truncated_message_rejected.
Print Assumptions C30_spare_capacity_refuted.
