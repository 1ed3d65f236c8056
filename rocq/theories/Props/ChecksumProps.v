(* C12-C15, C17, C49 and the first half of C16: the checksum services.
   calc only reads (getUnsignedByte at absolute indices), so in the model it returns no buffer: that the buffer is
   unchanged is part of the modelling, not of the theorems. *)
From Coq Require Import ZArith List Bool Lia ZifyBool String.
From Verif.Model Require Import JavaPrim ByteBuf Checksum.
From Verif.Spec Require Import Bytes Buffers Crc.
From Verif.Proofs Require Import BytesFacts BufFacts BitMapFacts CrcFacts CrcOrder.
Import ListNotations.
Open Scope Z_scope.
Ltac Zify.zify_post_hook ::= Z.div_mod_to_equations.

(* "123456789" behind one byte already read, garbage in the spare capacity *)
Definition check_bytes : list Z := [49; 50; 51; 52; 53; 54; 55; 56; 57].
Definition check_buf : bytebuf :=
  {| arr := 7 :: check_bytes ++ [9; 9]; ridx := 1; widx := 10; maxcap := 100; cs_slack := true; policy := {| extra := fun n => n; fill := fun _ => 7 |} |}.

(* ---- C12 ---- *)
Theorem C12_sum_modulo_256 : forall b, buf_wf b = true ->
  sse_calc b = sum_bytes (readable b) mod 256 /\ szse_calc b = sum_bytes (readable b) mod 256
  /\ sse_calc b = szse_calc b /\ 0 <= sse_calc b < 256.
Proof.
  intros b Hb. apply buf_wf_iff in Hb. rewrite sse_calc_spec, szse_calc_spec by exact Hb. repeat split; apply Z.mod_pos_bound; lia.
Qed.
Theorem C12_equals_c_code : forall sgn b, buf_wf b = true -> sse_calc b = c_sum sgn (readable b) 0 /\ szse_calc b = c_sum sgn (readable b) 0.
Proof. intros sgn b Hb. apply buf_wf_iff in Hb. rewrite c_sum_spec, Z.add_0_l, sse_calc_spec, szse_calc_spec by exact Hb. auto. Qed.
Example C12_meets : buf_wf check_buf = true /\ readable check_buf = check_bytes /\ sse_calc check_buf = 221 /\ szse_calc check_buf = 221 /\ sum_bytes check_bytes = 477.
Proof. vm_compute. repeat split. Qed.

(* ---- C13 ---- *)
Theorem C13_crc16_is_modbus : forall b, buf_wf b = true -> crc16_calc b = crc16_spec (readable b) /\ 0 <= crc16_calc b < 65536.
Proof. intros b Hb. apply buf_wf_iff in Hb. rewrite crc16_calc_spec by exact Hb. split; [reflexivity|]. exact (crc16_range (readable b)). Qed.
Example C13_meets : buf_wf check_buf = true /\ crc16_calc check_buf = 19255 /\ crc16_spec [] = 65535 /\ crc16_spec [0] = 16575.
Proof. vm_compute. repeat split. Qed.   (* 0x4B37, the check value of CRC-16/MODBUS *)

(* ---- C14 ---- *)
Theorem C14_crc32_is_iso_hdlc : forall b, buf_wf b = true ->
  crc32_calc b mod 2 ^ 32 = crc32_spec (readable b) /\ - 2 ^ 31 <= crc32_calc b < 2 ^ 31.
Proof. intros b Hb. apply buf_wf_iff in Hb. destruct (crc32_calc_spec b Hb) as [E R]. split; [exact E|]. apply in_signed_spec in R. exact R. Qed.
Example C14_meets : crc32_calc check_buf = -873187034 /\ crc32_spec check_bytes = 3421780262 /\ crc32_spec [] = 0.
Proof. vm_compute. repeat split. Qed.   (* 0xCBF43926, the check value of CRC-32/ISO-HDLC *)

(* the services of the registry see exactly the readable bytes *)
Theorem C14_services_are_functions_of_readable_bytes : forall b, buf_wf b = true ->
  calc crc16_service (readable b) = crc16_calc b /\ calc crc32_service (readable b) = crc32_calc b
  /\ calc sse_service (readable b) = sse_calc b /\ calc szse_service (readable b) = szse_calc b.
Proof.
  intros b Hb. apply buf_wf_iff in Hb.
  assert (W : wf (wrapped (readable b))).
  { apply wrapped_wf; [apply readable_bytes; auto|]. rewrite readable_length by exact Hb. pose proof (wf_cap _ Hb). pose proof (wf_widx _ Hb). pose proof (wf_max _ Hb). lia. }
  cbn [calc crc16_service crc32_service sse_service szse_service].
  rewrite !crc16_calc_spec, !crc32_calc_wrap, !sse_calc_spec, !szse_calc_spec, !wrapped_readable by auto. repeat split.
Qed.

(* ---- C15 ---- *)
(* bs and bs' differ, but only inside at most n consecutive bits *)
Definition burst (n : nat) (bs bs' : list Z) : Prop :=
  exists x w w' y, bits_of bs = x ++ w ++ y /\ bits_of bs' = x ++ w' ++ y /\ w <> w' /\ List.length w = List.length w' /\ (List.length w <= n)%nat.
Lemma burst16 bs bs' : burst 16 bs bs' -> crc16_spec bs <> crc16_spec bs'.
Proof.
  intros (x & w & w' & y & E & E' & N & L & B) C. unfold crc16_spec in C. rewrite E, E', !(crc_reg_app _ _ x) in C. apply N.
  apply (window_inj 16 poly16 (crc_reg poly16 65535 x) y); auto; [lia|vm_compute; split; congruence|apply crc_reg_range; vm_compute; auto; split; congruence|lia].
Qed.
Lemma burst32 bs bs' : burst 32 bs bs' -> crc32_spec bs <> crc32_spec bs'.
Proof.
  intros (x & w & w' & y & E & E' & N & L & B) C. unfold crc32_spec in C. rewrite !(Z.lxor_comm _ 4294967295) in C. apply lxor_inj in C. rewrite E, E', !(crc_reg_app _ _ x) in C. apply N.
  apply (window_inj 32 poly32 (crc_reg poly32 4294967295 x) y); auto; [lia|vm_compute; split; congruence|apply crc_reg_range; vm_compute; auto; split; congruence|lia].
Qed.
Theorem C15_crc16_detects_bursts : forall b b', buf_wf b = true -> buf_wf b' = true -> burst 16 (readable b) (readable b') -> crc16_calc b <> crc16_calc b'.
Proof. intros b b' Hb Hb' B. apply buf_wf_iff in Hb, Hb'. rewrite !crc16_calc_spec by assumption. apply burst16; auto. Qed.
Theorem C15_crc32_detects_bursts : forall b b', buf_wf b = true -> buf_wf b' = true -> burst 32 (readable b) (readable b') -> crc32_calc b <> crc32_calc b'.
Proof.
  intros b b' Hb Hb' B E. apply buf_wf_iff in Hb, Hb'. apply (burst32 _ _ B). rewrite <- !(fun b H => proj1 (crc32_calc_spec b H)) by assumption. rewrite E. reflexivity.
Qed.
(* in particular: any change inside 2 (4) consecutive bytes *)
Theorem C15_byte_window : forall x w w' y n, bytes_ok (x ++ w ++ y) -> bytes_ok (x ++ w' ++ y) -> List.length w = List.length w' -> (List.length w <= n)%nat -> w <> w' ->
  burst (8 * n) (x ++ w ++ y) (x ++ w' ++ y).
Proof.
  intros x w w' y n H H' L B N. exists (bits_of x), (bits_of w), (bits_of w'), (bits_of y). rewrite !bits_of_app. repeat split.
  - intros E. apply N. apply bits_of_inj in E; auto; [apply Forall_app in H|apply Forall_app in H']; [destruct H as [_ H]; apply Forall_app in H; apply H|destruct H' as [_ H']; apply Forall_app in H'; apply H'].
  - rewrite !bits_of_length, L. reflexivity.
  - rewrite bits_of_length. lia.
Qed.
Theorem C15_sums_detect_one_byte : forall b b' x y c d, buf_wf b = true -> buf_wf b' = true -> readable b = x ++ c :: y -> readable b' = x ++ d :: y -> c <> d ->
  sse_calc b <> sse_calc b' /\ szse_calc b <> szse_calc b'.
Proof.
  intros b b' x y c d Hb Hb' E E' N. apply buf_wf_iff in Hb, Hb'. rewrite !sse_calc_spec, !szse_calc_spec by assumption.
  assert (Hc : 0 <= c < 256). { pose proof (readable_bytes _ Hb) as H. rewrite E in H. apply Forall_app in H. destruct H as [_ H]. inversion H; auto. }
  assert (Hd : 0 <= d < 256). { pose proof (readable_bytes _ Hb') as H. rewrite E' in H. apply Forall_app in H. destruct H as [_ H]. inversion H; auto. }
  assert (Q : sum_bytes (readable b) mod 256 <> sum_bytes (readable b') mod 256); [|auto].
  rewrite E, E', !sum_bytes_app, !sum_bytes_cons. lia.
Qed.
(* reordering bytes goes unnoticed by the sums *)
Theorem C15_sums_miss_swaps : forall b b' x y z c d, buf_wf b = true -> buf_wf b' = true ->
  readable b = x ++ c :: y ++ d :: z -> readable b' = x ++ d :: y ++ c :: z -> sse_calc b = sse_calc b' /\ szse_calc b = szse_calc b'.
Proof.
  intros b b' x y z c d Hb Hb' E E'. apply buf_wf_iff in Hb, Hb'. rewrite !sse_calc_spec, !szse_calc_spec by assumption.
  assert (Q : sum_bytes (readable b) = sum_bytes (readable b')); [|rewrite Q; auto].
  rewrite E, E', !sum_bytes_app, !sum_bytes_cons, !sum_bytes_app, !sum_bytes_cons. lia.
Qed.
Example C15_meets : exists b b', buf_wf b = true /\ buf_wf b' = true /\ burst 16 (readable b) (readable b')
  /\ crc16_calc b = 19255 /\ crc16_calc b' <> 19255 /\ sse_calc b = sse_calc b'.
Proof.
  exists (wrapped check_bytes), (wrapped [49; 50; 51; 53; 52; 54; 55; 56; 57]). split; [reflexivity|]. split; [reflexivity|]. split.
  - exact (C15_byte_window [49; 50; 51] [52; 53] [53; 52] [54; 55; 56; 57] 2 ltac:(repeat constructor; lia) ltac:(repeat constructor; lia) eq_refl ltac:(cbn; lia) ltac:(discriminate)).
  - vm_compute. repeat split; discriminate.
Qed.

(* ---- C16: see also Props/FrameProps.v ---- *)
(* appending the CRC, low byte first, gives the constant; nothing else does *)
Theorem C16_crc16_residue : forall bs c, crc16_spec (bs ++ number LE 2 c) = 0 <-> c mod 2 ^ 16 = crc16_spec bs.
Proof. exact residue16. Qed.
Theorem C16_crc32_residue : forall bs c, crc32_spec (bs ++ number LE 4 c) = 558161692 <-> c mod 2 ^ 32 = crc32_spec bs.
Proof. exact residue32. Qed.   (* 0x2144DF1C *)
(* as buffers: a receiver that runs calc over message and trailer *)
Theorem C16_receiver_check : forall b b' , buf_wf b = true -> buf_wf b' = true ->
  (readable b' = readable b ++ number LE 4 (crc32_calc b) -> crc32_calc b' = 558161692)
  /\ (readable b' = readable b ++ number LE 2 (crc16_calc b) -> crc16_calc b' = 0).
Proof.
  intros b b' Hb Hb'. apply buf_wf_iff in Hb, Hb'. split; intros E.
  - rewrite crc32_calc_wrap, E by assumption. rewrite (proj2 (residue32 (readable b) (crc32_calc b))); [reflexivity|]. apply crc32_calc_spec; auto.
  - rewrite crc16_calc_spec, E by assumption. apply residue16. rewrite crc16_calc_spec by assumption. apply Z.mod_small. exact (crc16_range (readable b)).
Qed.
Example C16_meets : crc32_calc (wrapped (check_bytes ++ [38; 57; 244; 203])) = 558161692 /\ number LE 4 (crc32_calc check_buf) = [38; 57; 244; 203]
  /\ crc16_calc (wrapped (check_bytes ++ [55; 75])) = 0 /\ number LE 2 (crc16_calc check_buf) = [55; 75].
Proof. vm_compute. repeat split. Qed.

(* ---- C17 ---- *)
Theorem C17_verify_iff : forall (f : bytebuf -> Z) b x, verify f b x = true <-> x = Some (f b).
Proof. intros f b [x|]; cbn; [rewrite Z.eqb_eq; split; [intros ->; reflexivity|intros H; inversion H; reflexivity]|split; discriminate]. Qed.
(* for the library's services: verify accepts exactly the specified value *)
Theorem C17_verify_library : forall b x, buf_wf b = true ->
  (verify crc16_calc b (Some x) = true <-> x = crc16_spec (readable b))
  /\ (verify crc32_calc b (Some x) = true <-> - 2 ^ 31 <= x < 2 ^ 31 /\ x mod 2 ^ 32 = crc32_spec (readable b))
  /\ (verify sse_calc b (Some x) = true <-> x = sum_bytes (readable b) mod 256)
  /\ (verify szse_calc b (Some x) = true <-> x = sum_bytes (readable b) mod 256).
Proof.
  intros b x Hb. apply buf_wf_iff in Hb. cbn [verify]. rewrite !Z.eqb_eq, crc16_calc_spec, sse_calc_spec, szse_calc_spec by assumption.
  destruct (crc32_calc_spec b Hb) as [E R]. apply in_signed_spec in R. change (2 ^ (32 - 1)) with (2 ^ 31) in R. split; [split; auto|]. split; [|split; split; auto].
  split; [intros <-; auto|]. intros [R' E']. rewrite <- E in E'. change (2 ^ 31) with 2147483648 in *. change (2 ^ 32) with 4294967296 in *. lia.
Qed.
Example C17_meets : verify crc32_calc check_buf (Some (-873187034)) = true /\ verify crc32_calc check_buf (Some 3421780262) = false
  /\ verify crc16_calc check_buf (Some 19255) = true /\ verify sse_calc check_buf None = false.
Proof. vm_compute. repeat split. Qed.

(* ---- C49 ---- *)
(* any odd number of flipped bits changes the CRC16: its parity is that of the message *)
Theorem C49_crc16_parity : forall b, buf_wf b = true -> parity (low_bits 16 (crc16_calc b)) = parity (bits_of (readable b)).
Proof. intros b Hb. apply buf_wf_iff in Hb. rewrite crc16_calc_spec by exact Hb. apply crc16_parity. Qed.
Theorem C49_crc16_detects_odd : forall b b', buf_wf b = true -> buf_wf b' = true -> parity (bits_of (readable b)) <> parity (bits_of (readable b')) -> crc16_calc b <> crc16_calc b'.
Proof. intros b b' Hb Hb' N E. apply N. rewrite <- !C49_crc16_parity by assumption. rewrite E. reflexivity. Qed.
(* bs and bs' differ in exactly two bits, d apart *)
Definition two_bits (d : Z) (bs bs' : list Z) : Prop :=
  exists x a m c y, bits_of bs = x ++ a :: m ++ c :: y /\ bits_of bs' = x ++ negb a :: m ++ negb c :: y /\ d = Z.of_nat (List.length m) + 1.
Theorem C49_crc16_detects_two_bits : forall b b' d, buf_wf b = true -> buf_wf b' = true -> d < 32767 -> two_bits d (readable b) (readable b') -> crc16_calc b <> crc16_calc b'.
Proof.
  intros b b' d Hb Hb' Hd (x & a & m & c & y & E & E' & D). apply buf_wf_iff in Hb, Hb'. rewrite !crc16_calc_spec by assumption. unfold crc16_spec. rewrite E, E'.
  apply (two_flips 16); [lia|vm_compute; split; congruence|vm_compute; split; congruence|]. apply period16; lia.
Qed.
Theorem C49_crc32_detects_two_bits : forall b b' d, buf_wf b = true -> buf_wf b' = true -> d < 2 ^ 32 - 1 -> two_bits d (readable b) (readable b') -> crc32_calc b <> crc32_calc b'.
Proof.
  intros b b' d Hb Hb' Hd (x & a & m & c & y & E & E' & D) C. apply buf_wf_iff in Hb, Hb'.
  assert (S : crc32_spec (readable b) = crc32_spec (readable b')) by (rewrite <- !(fun b H => proj1 (crc32_calc_spec b H)) by assumption; rewrite C; reflexivity).
  unfold crc32_spec in S. rewrite !(Z.lxor_comm _ 4294967295) in S. apply lxor_inj in S. rewrite E, E' in S. revert S.
  apply (two_flips 32); [lia|vm_compute; split; congruence|vm_compute; split; congruence|]. apply period32; change (2 ^ 32 - 1) with 4294967295 in Hd; lia.
Qed.
(* the distance is sharp for CRC16: 32767 bits apart two flips cancel *)
Lemma zero_bits n : bits_of (repeat 0 n) = repeat false (8 * n).
Proof.
  induction n; [reflexivity|]. cbn [repeat]. rewrite bits_of_cons, IHn. replace (8 * S n)%nat with (8 + 8 * n)%nat by lia. rewrite repeat_app. reflexivity.
Qed.
Lemma outer_bits (u v : bool) n : bits_of ((if u then 1 else 0) :: repeat 0 n ++ [if v then 128 else 0]) = u :: repeat false (14 + 8 * n) ++ [v].
Proof.
  rewrite bits_of_cons, bits_of_app, zero_bits. replace (14 + 8 * n)%nat with (7 + (8 * n + 7))%nat by lia. rewrite !repeat_app.
  destruct u, v; rewrite <- !app_assoc; reflexivity.
Qed.
Theorem C49_crc16_misses_at_32767 : exists bs bs', two_bits 32767 bs bs' /\ bytes_ok bs /\ bytes_ok bs' /\ crc16_spec bs = crc16_spec bs'.
Proof.
  set (n := Z.to_nat 4094). assert (Hn : (14 + 8 * n)%nat = Z.to_nat 32766) by (subst n; lia).
  exists (0 :: repeat 0 n ++ [0]), (1 :: repeat 0 n ++ [128]). split; [|split; [|split]].
  - exists [], false, (repeat false (14 + 8 * n)), false, []. split; [exact (outer_bits false false n)|]. split; [exact (outer_bits true true n)|].
    rewrite repeat_length. subst n. lia.
  - constructor; [lia|]. apply Forall_app. split; [apply Forall_forall; intros x Hx; apply repeat_spec in Hx; lia|repeat constructor; lia].
  - constructor; [lia|]. apply Forall_app. split; [apply Forall_forall; intros x Hx; apply repeat_spec in Hx; lia|repeat constructor; lia].
  - apply Z.eqb_eq. vm_compute. reflexivity.
Qed.
Example C49_meets : two_bits 9 [1; 2; 3] [0; 0; 3] /\ crc16_spec [1; 2; 3] = 24929 /\ crc16_spec [0; 0; 3] = 49457 /\ parity (bits_of [1; 2; 4]) = true
  /\ crc32_spec [1; 2; 3] <> crc32_spec [0; 0; 3].
Proof.
  split; [|vm_compute; repeat split; discriminate].
  exists [], true, (repeat false 8), true, (repeat false 6 ++ byte_bits 3). vm_compute. repeat split.
Qed.

Print Assumptions C12_sum_modulo_256.
Print Assumptions C12_equals_c_code.
Print Assumptions C13_crc16_is_modbus.
Print Assumptions C14_crc32_is_iso_hdlc.
Print Assumptions C14_services_are_functions_of_readable_bytes.
Print Assumptions C15_crc16_detects_bursts.
Print Assumptions C15_crc32_detects_bursts.
Print Assumptions C15_byte_window.
Print Assumptions C15_sums_detect_one_byte.
Print Assumptions C15_sums_miss_swaps.
Print Assumptions C16_crc16_residue.
Print Assumptions C16_crc32_residue.
Print Assumptions C16_receiver_check.
Print Assumptions C17_verify_iff.
Print Assumptions C17_verify_library.
Print Assumptions C49_crc16_parity.
Print Assumptions C49_crc16_detects_odd.
Print Assumptions C49_crc16_detects_two_bits.
Print Assumptions C49_crc32_detects_two_bits.
Print Assumptions C49_crc16_misses_at_32767.
