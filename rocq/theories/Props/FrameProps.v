(* C16 (second half), C26-C28: the length and checksum fields of frames. *)
From Coq Require Import ZArith List Bool String Lia.
From Verif.Model Require Import JavaPrim ByteBuf Checksum Ast Interp Factory Library.
From Verif.Spec Require Import Bytes Buffers Wire Reading Layouts Crc.
From Verif.Proofs Require Import BytesFacts BufFacts Conform TableFacts Messages CrcFacts RegistryFacts FrameFacts.
From Verif.Props Require Import Samples.
Import ListNotations.
Open Scope Z_scope.

Notation Y := lib_layouts.

(* ---- C26 ---- *)
(* class, offset of the length field, its getter, its byte order, body getter, bytes after the body *)
Definition frames : list (string * nat * string * endian * string * nat) :=
  [ ("sample.RootPacket", 2%nat, "payloadLen", LE, "payload", 4%nat);
    ("sse.SseBinary", 12%nat, "msgBodyLen", BE, "body", 4%nat);
    ("szse.SzseBinary", 4%nat, "bodyLength", BE, "body", 4%nat);
    ("risk.RcBinary", 8%nat, "msgBodyLen", BE, "body", 0%nat) ]%string.

Definition length_measures_body (c : string) (off : nat) (lf : string) (o : endian) (bf : string) (after : nat) : Prop :=
  forall E d v b v1 b1, classes E = lib_classes ->
  object_of E c v = true -> buf_wf b = true -> encode E d v b = (None, v1, b1) ->
  exists head body tail,
    appended b (head ++ number o 4 (Z.of_nat (List.length body)) ++ body ++ tail) b1
    /\ List.length head = off /\ List.length tail = after
    /\ field lf v1 = VInt (Z.of_nat (List.length body))
    /\ match field bf v1 with
       | VObj c' fs' => body = ser Y (VObj c' fs') (WObj c')      (* the wire form of the body *)
       | _ => field bf v = VNull /\ body = []
       end.

Lemma measures c off lf o bf after hdr k tl : find c Y = Some (hdr ++ (lf, WLen 4 o) :: (bf, WBody k) :: tl) ->
  forallb int_field hdr = true -> trailer_ok tl = true -> widths hdr = off -> (4 * List.length tl)%nat = after ->
  length_measures_body c off lf o bf after.
Proof.
  intros HL Hh Ht Ho Ha E d v b v1 b1 HE Hv Hb He.
  destruct (frame_encoded lib_classes Y library_conforms E HE d c v b v1 b1 hdr lf o bf k tl HL Hh Ht Hv Hb He)
    as (head & body & tail & A & L1 & L2 & G & B & N & _).
  exists head, body, tail. split; [exact A|]. split; [congruence|]. split; [congruence|]. split; [exact G|].
  change (field_of bf v1) with (field bf v1) in *. change (field_of bf v) with (field bf v) in *.
  destruct (encoded_facts lib_classes Y library_conforms E HE d c v b v1 b1 Hv Hb He) as (Hv1 & _).
  destruct (object_shape lib_classes E HE c v1 Hv1) as (fs & -> & Hty). pose proof (typed_obj lib_classes Y c fs _ _ library_conforms HL Hty) as Hf.
  destruct (fields_ok_split lib_classes _ _ _ Hf) as (hfs & r & -> & Hf1 & Hf2).
  destruct r as [|[g x] r]; [discriminate|]. apply fields_ok_cons in Hf2 as (-> & Hx & Hf2).
  destruct r as [|[g y] r]; [discriminate|]. apply fields_ok_cons in Hf2 as (-> & Hy & Hf3).
  assert (Ty : typed lib_classes (field bf (VObj c (hfs ++ (lf, x) :: (bf, y) :: r))) TCodec = true).
  { pose proof (conforms_ok lib_classes Y c _ library_conforms HL) as Hok.
    cbn [field]. change ((lf, x) :: (bf, y) :: r) with ([(lf, x)] ++ (bf, y) :: r). rewrite app_assoc, get_mid; [exact Hy|].
    rewrite (existsb_names bf _ (hdr ++ [(lf, WLen 4 o)])) by (rewrite !map_app, (fields_ok_names lib_classes hfs hdr Hf1); reflexivity).
    apply (name_new Y (hdr ++ [(lf, WLen 4 o)]) bf (WBody k) tl []). rewrite <- app_assoc. exact Hok. }
  destruct (typed_codec lib_classes _ Ty) as [Q|(c' & fs' & Q)]; rewrite Q in *.
  - split; [apply N; reflexivity|exact B].
  - exact B.
Qed.
Theorem C26_length_field_measures_body : forall c off lf o bf after, In (c, off, lf, o, bf, after) frames -> length_measures_body c off lf o bf after.
Proof.
  intros c off lf o bf after H. unfold frames in H. cbn [In] in H.
  destruct H as [H|[H|[H|[H|[]]]]]; injection H as <- <- <- <- <- <-.
  - apply (measures _ _ _ _ _ _ [("msgType", WInt 2 LE)]%string "msgType" [("checksum", WSum 4 LE "CRC32")]%string); vm_compute; reflexivity.
  - apply (measures _ _ _ _ _ _ [("msgType", WInt 4 BE); ("msgSeqNum", WInt 8 BE)]%string "msgType" [("checksum", WSum 4 BE "SSE_BIN")]%string); vm_compute; reflexivity.
  - apply (measures _ _ _ _ _ _ [("msgType", WInt 4 BE)]%string "msgType" [("checksum", WSum 4 BE "SZSE_BIN")]%string); vm_compute; reflexivity.
  - apply (measures _ _ _ _ _ _ [("msgType", WInt 4 BE); ("version", WInt 4 BE)]%string "msgType" []%string); vm_compute; reflexivity.
Qed.
(* BjseBinary: length and checksum are written as stored *)
Theorem C26_bjse_writes_stored_values : forall E d v b v1 b1, classes E = lib_classes ->
  object_of E "bjse.BjseBinary" v = true -> buf_wf b = true -> encode E d v b = (None, v1, b1) ->
  exists t n s body, field "msgType" v = VInt t /\ field "bodyLength" v = VInt n /\ field "checksum" v = VInt s
    /\ field "msgType" v1 = VInt t /\ field "bodyLength" v1 = VInt n /\ field "checksum" v1 = VInt s
    /\ body = ser Y (field "body" v1) (WBody "msgType")
    /\ appended b (number LE 4 t ++ number LE 4 n ++ body ++ number LE 4 s) b1.
Proof.
  intros E d v b v1 b1 HE Hv Hb He.
  destruct (encoded_facts lib_classes Y library_conforms E HE d _ v b v1 b1 Hv Hb He) as (_ & _ & _ & _ & A & _ & E1).
  destruct (object_shape lib_classes E HE _ v Hv) as (fs & -> & Hty).
  assert (HL : find "bjse.BjseBinary"%string Y = Some [("msgType", WInt 4 LE); ("bodyLength", WInt 4 LE); ("body", WBody "msgType"); ("checksum", WInt 4 LE)]%string) by (vm_compute; reflexivity).
  pose proof (typed_obj lib_classes Y _ fs _ _ library_conforms HL Hty) as Hf.
  destruct fs as [|[g x1] fs]; [discriminate|]. apply fields_ok_cons in Hf as (-> & H1 & Hf).
  destruct fs as [|[g x2] fs]; [discriminate|]. apply fields_ok_cons in Hf as (-> & H2 & Hf).
  destruct fs as [|[g x3] fs]; [discriminate|]. apply fields_ok_cons in Hf as (-> & H3 & Hf).
  destruct fs as [|[g x4] fs]; [discriminate|]. apply fields_ok_cons in Hf as (-> & H4 & Hf).
  destruct fs; [|discriminate].
  destruct (typed_int _ x1 4 LE eq_refl H1) as (t & -> & _). destruct (typed_int _ x2 4 LE eq_refl H2) as (n & -> & _). destruct (typed_int _ x4 4 LE eq_refl H4) as (s & -> & _).
  rewrite (EncodeFacts.fill_obj_eq Y E _ _ _ _ _ HL) in E1. cbn [EncodeFacts.fill_fields fill_in] in E1. cbv zeta in E1.
  set (y := fill_in Y _ _ x3 _) in E1. subst v1.
  exists t, n, s, (ser Y y (WBody "msgType")). repeat (split; [reflexivity|]).
  rewrite (EncodeFacts.ser_obj_eq Y _ _ (WObj _) _ eq_refl HL) in A. unfold EncodeFacts.ser_fields in A. cbn [concat2 snd] in A. change (ser Y (VInt ?z) (WInt 4 LE)) with (number LE 4 z) in A. rewrite app_nil_r in A. exact A.
Qed.
Theorem C26_bjse_refuted : exists v b v1 b1, object_of lib_env "bjse.BjseBinary" v = true /\ buf_wf b = true /\ encode lib_env 3 v b = (None, v1, b1)
  /\ ~ (exists head body tail, appended b (head ++ number LE 4 (Z.of_nat (List.length body)) ++ body ++ tail) b1 /\ List.length head = 4%nat /\ List.length tail = 4%nat
        /\ field "bodyLength" v1 = VInt (Z.of_nat (List.length body))).
Proof.
  exists s_bjse, empty_buf. eexists _, _. split; [vm_compute; reflexivity|]. split; [vm_compute; reflexivity|]. split; [vm_compute; reflexivity|].
  intros (head & body & tail & A & L1 & L2 & G). apply app_content in A. apply (f_equal (@List.length Z)) in A.
  rewrite !app_length, number_length, L1, L2 in A. cbn in A. destruct body; [discriminate G|]. cbn in A. lia.
Qed.
Example C26_meets :
  (let '(e, v1, b1) := encode lib_env 9 s_root used_buf in
   e = None /\ field "payloadLen" v1 = VInt 81 /\ field "payloadLen" s_root = VInt 777 /\ List.length (content b1) = (3 + 2 + 4 + 81 + 4)%nat)
  /\ (let '(e, v1, b1) := encode lib_env 9 s_sse empty_buf in e = None /\ field "msgBodyLen" s_sse = VInt (-1) /\ field "msgBodyLen" v1 = VInt 82)
  /\ (let '(e, v1, b1) := encode lib_env 9 s_risk empty_buf in e = None /\ field "msgBodyLen" v1 = VInt 14).
Proof. vm_compute. repeat split. Qed.

(* ---- C27 ---- *)
(* class, checksum getter, byte order, algorithm name *)
Definition summed : list (string * string * endian * string) :=
  [ ("sample.RootPacket", "checksum", LE, "CRC32"); ("sse.SseBinary", "checksum", BE, "SSE_BIN"); ("szse.SzseBinary", "checksum", BE, "SZSE_BIN") ]%string.

Definition checksum_written (c sf : string) (o : endian) (alg : string) : Prop :=
  forall E d v b v1 b1, classes E = lib_classes ->
  object_of E c v = true -> buf_wf b = true -> encode E d v b = (None, v1, b1) ->
  exists front z, appended b (front ++ number o 4 z) b1 /\ field sf v1 = VInt z
    /\ match checksum E alg with
       | Some f => z = wrap 32 (f (readable b ++ front))     (* calc returns an int, so wrap 32 is the identity on it *)
       | None => field sf v = VInt z
       end.
Lemma sum_written c sf o alg hdr lf lo bf k : find c Y = Some (hdr ++ (lf, WLen 4 lo) :: (bf, WBody k) :: [(sf, WSum 4 o alg)]) ->
  forallb int_field hdr = true -> checksum_written c sf o alg.
Proof.
  intros HL Hh E d v b v1 b1 HE Hv Hb He.
  destruct (frame_encoded lib_classes Y library_conforms E HE d c v b v1 b1 hdr lf lo bf k _ HL Hh eq_refl Hv Hb He)
    as (head & body & tail & A & _ & _ & _ & _ & _ & S).
  destruct (S sf o alg eq_refl) as (z & -> & G & Z). exists (head ++ number lo 4 (Z.of_nat (List.length body)) ++ body), z.
  split; [rewrite <- !app_assoc; exact A|]. split; auto.
Qed.
Theorem C27_checksum_covers_unread_bytes : forall c sf o alg, In (c, sf, o, alg) summed -> checksum_written c sf o alg.
Proof.
  intros c sf o alg H. unfold summed in H. cbn [In] in H. destruct H as [H|[H|[H|[]]]]; injection H as <- <- <- <-.
  - apply (sum_written _ _ _ _ [("msgType", WInt 2 LE)]%string "payloadLen" LE "payload" "msgType"); vm_compute; reflexivity.
  - apply (sum_written _ _ _ _ [("msgType", WInt 4 BE); ("msgSeqNum", WInt 8 BE)]%string "msgBodyLen" BE "body" "msgType"); vm_compute; reflexivity.
  - apply (sum_written _ _ _ _ [("msgType", WInt 4 BE)]%string "bodyLength" BE "body" "msgType"); vm_compute; reflexivity.
Qed.
(* with nothing unread before, that is the checksum of the frame's own bytes *)
Theorem C27_own_checksum_if_nothing_unread : forall c sf o alg f, In (c, sf, o, alg) summed ->
  forall E d v b v1 b1, classes E = lib_classes -> checksum E alg = Some f ->
  object_of E c v = true -> buf_wf b = true -> encode E d v b = (None, v1, b1) -> readable b = [] ->
  exists front z, appended b (front ++ number o 4 z) b1 /\ field sf v1 = VInt z /\ z = wrap 32 (f front).
Proof.
  intros c sf o alg f H E d v b v1 b1 HE Hf Hv Hb He Hr.
  destruct (C27_checksum_covers_unread_bytes c sf o alg H E d v b v1 b1 HE Hv Hb He) as (front & z & A & G & Z). rewrite Hf, Hr in Z.
  exists front, z. auto.
Qed.
(* in general it is not: the second of two frames in one buffer *)
Theorem C27_own_checksum_refuted : exists v b v1 b1 f, object_of lib_env "sample.RootPacket" v = true /\ buf_wf b = true
  /\ encode lib_env 9 v b = (None, v1, b1) /\ checksum lib_env "CRC32" = Some f
  /\ (exists w b0, buf_wf b0 = true /\ readable b0 = [] /\ object_of lib_env "sample.RootPacket" w = true /\ exists w1, encode lib_env 9 w b0 = (None, w1, b))
  /\ ~ (exists front z, appended b (front ++ number LE 4 z) b1 /\ field "checksum" v1 = VInt z /\ z = wrap 32 (f front)).
Proof.
  pose (r := encode lib_env 9 s_root_nested empty_buf). pose (b := snd r). pose (r1 := encode lib_env 9 s_root b).
  exists s_root, b, (snd (fst r1)), (snd r1). eexists. split; [vm_compute; reflexivity|]. split; [vm_compute; reflexivity|]. split.
  { assert (H : fst (fst r1) = None) by (vm_compute; reflexivity). fold r1. destruct r1 as [[e v1] b1]. cbn in H |- *. subst e. reflexivity. }
  split; [reflexivity|]. split.
  { exists s_root_nested, empty_buf. split; [reflexivity|]. split; [reflexivity|]. split; [vm_compute; reflexivity|].
    exists (snd (fst r)). assert (H : fst (fst r) = None) by (vm_compute; reflexivity). fold r. unfold b. destruct r as [[e v1] b1]. cbn in H |- *. subst e. reflexivity. }
  intros (front & z & A & G & Z).
  assert (C1 : content (snd r1) = content b ++ firstn (List.length (content (snd r1)) - List.length (content b)) (skipn (List.length (content b)) (content (snd r1)))) by (vm_compute; reflexivity).
  set (bs := firstn _ _) in C1.
  assert (B : front ++ number LE 4 z = bs) by (apply app_content in A; rewrite C1 in A; apply app_inv_head in A; auto).
  assert (F : front = firstn (List.length bs - 4) bs).
  { rewrite <- B, app_length, number_length, Nat.add_sub, firstn_app, firstn_all, Nat.sub_diag. cbn. rewrite app_nil_r. reflexivity. }
  rewrite F in Z. assert (G' : field "checksum" (snd (fst r1)) = VInt (wrap 32 (calc crc32_service (firstn (List.length bs - 4) bs)))) by (rewrite G, Z; reflexivity).
  vm_compute in G'. discriminate.
Qed.
Example C27_meets : (let '(e, v1, b1) := encode lib_env 9 s_root empty_buf in
    e = None /\ field "checksum" v1 = VInt (crc32_calc (wrapped (firstn 87 (content b1)))) /\ List.length (content b1) = 91%nat)
  /\ readable empty_buf = [] /\ checksum lib_env "CRC32" = Some (calc crc32_service).
Proof. split; [vm_compute; repeat split|split; reflexivity]. Qed.

(* ---- C28 ---- *)
Theorem C28_no_exchange_service_initially : get_service initial_cache SSE_BIN = None /\ get_service initial_cache SZSE_BIN = None.
Proof. split; reflexivity. Qed.
Definition exchange : list (string * endian * service) := [("sse.SseBinary", BE, sse_service); ("szse.SzseBinary", BE, szse_service)]%string.
(* as long as no service is registered under the name, the stored checksum is written *)
Theorem C28_stored_checksum_without_service : forall c o s, In (c, o, s) exchange ->
  forall W R d v b v1 b1, let E := env_of lib_classes W R in get_service R (algorithm s) = None ->
  object_of E c v = true -> buf_wf b = true -> encode E d v b = (None, v1, b1) ->
  exists front z, field "checksum" v = VInt z /\ field "checksum" v1 = VInt z /\ appended b (front ++ number o 4 z) b1.
Proof.
  intros c o s H W R d v b v1 b1 E Hs Hv Hb He.
  destruct H as [H|[H|[]]]; injection H as <- <- <-.
  - destruct (C27_checksum_covers_unread_bytes "sse.SseBinary" "checksum" BE "SSE_BIN" ltac:(right; left; reflexivity) E d v b v1 b1 eq_refl Hv Hb He) as (front & z & A & G & Z).
    unfold E in Z. cbn [checksum env_of] in Z. change "SSE_BIN"%string with (algorithm sse_service) in Z. rewrite Hs in Z. cbn [option_map] in Z. eauto.
  - destruct (C27_checksum_covers_unread_bytes "szse.SzseBinary" "checksum" BE "SZSE_BIN" ltac:(right; right; left; reflexivity) E d v b v1 b1 eq_refl Hv Hb He) as (front & z & A & G & Z).
    unfold E in Z. cbn [checksum env_of] in Z. change "SZSE_BIN"%string with (algorithm szse_service) in Z. rewrite Hs in Z. cbn [option_map] in Z. eauto.
Qed.
(* once the exchange's service is registered, the sum of all unread bytes modulo 256 *)
Theorem C28_byte_sum_with_service : forall c o s, In (c, o, s) exchange ->
  forall W R R' d v b v1 b1, registry R s = (true, R') -> let E := env_of lib_classes W R' in
  object_of E c v = true -> buf_wf b = true -> encode E d v b = (None, v1, b1) ->
  exists front z, appended b (front ++ number o 4 z) b1 /\ field "checksum" v1 = VInt z /\ z = sum_bytes (readable b ++ front) mod 256.
Proof.
  intros c o s H W R R' d v b v1 b1 Hr E Hv Hb He.
  assert (Hg : get_service R' (algorithm s) = Some s).
  { unfold registry in Hr. destruct (cache_get R (algorithm s)); [discriminate|]. injection Hr as <-. cbn [get_service cache_put cache_get]. unfold get_service, cache_put. cbn [cache_get]. rewrite String.eqb_refl. reflexivity. }
  assert (K : forall alg, alg = algorithm s -> In (c, "checksum"%string, o, alg) summed ->
    exists front z, appended b (front ++ number o 4 z) b1 /\ field "checksum" v1 = VInt z /\ z = wrap 32 (calc s (readable b ++ front))).
  { intros alg -> Hin. destruct (C27_checksum_covers_unread_bytes _ _ _ _ Hin E d v b v1 b1 eq_refl Hv Hb He) as (front & z & A & G & Z).
    unfold E in Z. cbn [checksum env_of] in Z. rewrite Hg in Z. cbn [option_map] in Z. eauto. }
  assert (Wf : forall front z, appended b (front ++ number o 4 z) b1 -> wf (wrapped (readable b ++ front)) /\ readable (wrapped (readable b ++ front)) = readable b ++ front).
  { intros front z A. split; [|apply wrapped_readable].
    destruct (encoded_facts lib_classes Y library_conforms E eq_refl d _ v b v1 b1 Hv Hb He) as (_ & _ & _ & _ & _ & W1 & _). apply buf_wf_iff in W1. apply buf_wf_iff in Hb.
    pose proof (app_content _ _ _ A) as Q. pose proof (content_bytes _ W1) as B1. rewrite Q in B1. rewrite !Forall_app in B1. destruct B1 as (_ & B1 & _).
    apply wrapped_wf.
    - apply Forall_app. split; auto. apply readable_bytes; auto.
    - apply (f_equal (@List.length Z)) in Q. rewrite !app_length, !content_length in Q by (apply Hb || apply W1). rewrite app_length, readable_length by exact Hb.
      pose proof (wf_cap _ W1). pose proof (wf_widx _ W1). pose proof (wf_max _ W1). lia. }
  assert (Wr : forall z, wrap 32 (z mod 256) = z mod 256).
  { intros z. apply wrap_id; [lia|]. apply in_signed_spec. pose proof (Z.mod_pos_bound z 256). change (2 ^ (32 - 1)) with 2147483648. lia. }
  destruct H as [H|[H|[]]]; injection H as <- <- <-.
  - destruct (K "SSE_BIN"%string eq_refl ltac:(right; left; reflexivity)) as (front & z & A & G & Z). exists front, z. split; auto. split; auto.
    destruct (Wf _ _ A) as [W1 W2]. cbn [calc sse_service] in Z. rewrite sse_calc_spec, W2, Wr in Z by exact W1. exact Z.
  - destruct (K "SZSE_BIN"%string eq_refl ltac:(right; right; left; reflexivity)) as (front & z & A & G & Z). exists front, z. split; auto. split; auto.
    destruct (Wf _ _ A) as [W1 W2]. cbn [calc szse_service] in Z. rewrite szse_calc_spec, W2, Wr in Z by exact W1. exact Z.
Qed.
Example C28_meets : registry initial_cache sse_service = (true, snd (registry initial_cache sse_service))
  /\ (let '(e, v1, b1) := encode lib_env 3 s_sse empty_buf in e = None /\ field "checksum" v1 = VInt 99)
  /\ (let '(e, v1, b1) := encode (env_of lib_classes lib_factories (snd (registry initial_cache sse_service))) 3 s_sse empty_buf in
      e = None /\ field "checksum" v1 = VInt (sum_bytes (firstn 98 (content b1)) mod 256) /\ List.length (content b1) = 102%nat).
Proof. split; [reflexivity|]. vm_compute. repeat split. Qed.

(* ---- C16, second half ---- *)
(* a RootPacket encoded into a buffer without unread bytes: the CRC32 of what a receiver finds is 0x2144DF1C *)
Theorem C16_root_packet_frame_residue : forall E d v b v1 b1, classes E = lib_classes -> checksum E "CRC32" = Some (calc crc32_service) ->
  object_of E "sample.RootPacket" v = true -> buf_wf b = true -> readable b = [] -> encode E d v b = (None, v1, b1) ->
  crc32_calc b1 = 558161692 /\ exists bs, appended b bs b1 /\ readable b1 = bs /\ crc32_spec bs = 558161692.
Proof.
  intros E d v b v1 b1 HE Hs Hv Hb Hr He.
  destruct (C27_own_checksum_if_nothing_unread _ _ _ _ _ (or_introl eq_refl) E d v b v1 b1 HE Hs Hv Hb He Hr) as (front & z & A & G & Hz).
  destruct (encoded_facts lib_classes Y library_conforms E HE d _ v b v1 b1 Hv Hb He) as (_ & _ & _ & _ & _ & W1 & _). apply buf_wf_iff in W1. apply buf_wf_iff in Hb.
  pose proof (app_content _ _ _ A) as Q. pose proof (content_bytes _ W1) as B1. rewrite Q in B1. rewrite !Forall_app in B1. destruct B1 as (_ & B1 & _).
  assert (Wf : wf (wrapped front)).
  { apply wrapped_wf; auto. apply (f_equal (@List.length Z)) in Q. rewrite !app_length, !content_length in Q by (apply Hb || apply W1).
    pose proof (wf_cap _ W1). pose proof (wf_widx _ W1). pose proof (wf_max _ W1). lia. }
  assert (R1 : readable b1 = front ++ number LE 4 z).
  { unfold readable in *. rewrite Q, (app_ridx _ _ _ A). rewrite skipn_app, Hr. replace (ridx b - List.length (content b))%nat with O; [reflexivity|].
    rewrite content_length by apply Hb. pose proof (wf_ridx _ Hb). lia. }
  assert (S : crc32_spec (front ++ number LE 4 z) = 558161692).
  { apply residue32. cbn [calc crc32_service] in Hz. rewrite crc32_calc_wrap, wrapped_readable in Hz by exact Wf. rewrite Hz, !wrap_mod by lia.
    apply Z.mod_small. exact (crc32_range front). }
  split; [|exists (front ++ number LE 4 z); auto].
  rewrite crc32_calc_wrap, R1, S by exact W1. reflexivity.
Qed.
Example C16_frame_meets : readable empty_buf = [] /\ checksum lib_env "CRC32" = Some (calc crc32_service)
  /\ (let '(e, v1, b1) := encode lib_env 9 s_root empty_buf in e = None /\ crc32_calc b1 = 558161692).
Proof. split; [reflexivity|]. split; [reflexivity|]. vm_compute. repeat split. Qed.

Print Assumptions C26_length_field_measures_body.
Print Assumptions C26_bjse_writes_stored_values.
Print Assumptions C26_bjse_refuted.
Print Assumptions C27_checksum_covers_unread_bytes.
Print Assumptions C27_own_checksum_if_nothing_unread.
Print Assumptions C27_own_checksum_refuted.
Print Assumptions C28_no_exchange_service_initially.
Print Assumptions C28_stored_checksum_without_service.
Print Assumptions C28_byte_sum_with_service.
Print Assumptions C16_root_packet_frame_residue.
