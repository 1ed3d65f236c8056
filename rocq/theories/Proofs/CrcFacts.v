(* The checksum services against their specifications. *)
From Coq Require Import ZArith List Bool Lia ZifyBool.
From Verif.Model Require Import JavaPrim ByteBuf Checksum.
From Verif.Spec Require Import Bytes Crc.
From Verif.Proofs Require Import BytesFacts BufFacts BitMapFacts.
Import ListNotations.
Open Scope Z_scope.
Ltac Zify.zify_post_hook ::= Z.div_mod_to_equations.

(* ---- the loop over the readable bytes ---- *)
Lemma fold_left_map {A B C} (f : A -> B -> A) (g : C -> B) l a : fold_left f (map g l) a = fold_left (fun x c => f x (g c)) l a.
Proof. revert a; induction l; simpl; auto. Qed.
Lemma map_nth_seq (l : list Z) : map (fun i => nth i l 0) (seq 0 (length l)) = l.
Proof. induction l as [|x l IH]; [reflexivity|]. cbn [length seq map nth]. f_equal. rewrite <- seq_shift, map_map. exact IH. Qed.
Lemma nth_firstn_lt (l : list Z) n i d : (i < n)%nat -> nth i (firstn n l) d = nth i l d.
Proof. revert n i; induction l; intros n i H; destruct n; try lia; destruct i; simpl; auto. apply IHl. lia. Qed.
Lemma nth_skipn_add (l : list Z) n i d : nth i (skipn n l) d = nth (n + i) l d.
Proof. revert n; induction l; intros n; destruct n; simpl; auto. destruct i; reflexivity. Qed.
Lemma readable_nth b i : wf b -> (i < length (readable b))%nat -> nth (ridx b + i) (arr b) 0 = nth i (readable b) 0.
Proof.
  intros Hb Hi. rewrite readable_length in Hi by exact Hb. unfold readable, content. rewrite nth_skipn_add, nth_firstn_lt by lia. reflexivity.
Qed.
Theorem over_readable_fold {A} (f : A -> Z -> A) init b : wf b -> over_readable f init b = fold_left f (readable b) init.
Proof.
  intros Hb. unfold over_readable. rewrite <- (map_nth_seq (readable b)) at 2. rewrite fold_left_map.
  assert (H : forall l a, (forall i, In i l -> (i < length (readable b))%nat) ->
    fold_left (fun acc i => f acc (nth (ridx b + i) (arr b) 0)) l a = fold_left (fun x c => f x (nth c (readable b) 0)) l a).
  { induction l as [|i l IH]; intros a Hl; simpl; auto. rewrite readable_nth; auto; [|apply Hl; left; reflexivity]. apply IH. intros; apply Hl; right; auto. }
  apply H. intros i Hi. apply in_seq in Hi. lia.
Qed.
Lemma readable_bytes b : wf b -> bytes_ok (readable b).
Proof. intros Hb. apply Forall_skipn. apply content_bytes; auto. Qed.
Lemma wrapped_wf bs : bytes_ok bs -> Z.of_nat (length bs) < 2 ^ 31 -> wf (wrapped bs).
Proof. intros H L. apply buf_wf_iff. unfold buf_wf, wrapped; simpl. 
  rewrite !andb_true_iff. repeat split; try (apply Nat.leb_le; lia); try lia.
  apply forallb_forall. intros x Hx. rewrite Forall_forall in H. specialize (H x Hx). unfold is_byte. lia.
Qed.
Lemma wrapped_readable bs : readable (wrapped bs) = bs.
Proof. unfold readable, content, wrapped; simpl. apply firstn_all. Qed.

(* ---- sums ---- *)
Lemma fold_sum_mod bs c : fold_left (fun c x => Z.land (wrap 32 (c + x)) 255) bs c mod 256 = (c + sum_bytes bs) mod 256.
Proof.
  revert c; induction bs as [|x r IH]; intros c; cbn [fold_left sum_bytes fold_right]; [f_equal; lia|].
  rewrite IH. change 255 with (Z.ones 8). rewrite Z.land_ones by lia. pose proof (wrap_mod 32 (c + x) ltac:(lia)) as W.
  change (2 ^ 8) with 256. change (2 ^ 32) with 4294967296 in W. fold (sum_bytes r). lia.
Qed.
Lemma fold_sum_range bs c : bs <> [] \/ 0 <= c < 256 -> 0 <= fold_left (fun c x => Z.land (wrap 32 (c + x)) 255) bs c < 256.
Proof.
  revert c; induction bs as [|x r IH]; intros c H; cbn [fold_left]; [destruct H; [congruence|lia]|]. apply IH. right.
  change 255 with (Z.ones 8). rewrite Z.land_ones by lia. apply Z.mod_pos_bound. lia.
Qed.
Theorem sse_calc_spec b : wf b -> sse_calc b = sum_bytes (readable b) mod 256.
Proof.
  intros Hb. unfold sse_calc. rewrite over_readable_fold by exact Hb. pose proof (fold_sum_mod (readable b) 0). pose proof (fold_sum_range (readable b) 0 ltac:(lia)).
  rewrite Z.mod_small in H by lia. exact H.
Qed.
Lemma sum_bytes_bound bs : bytes_ok bs -> 0 <= sum_bytes bs <= 255 * Z.of_nat (length bs).
Proof. induction 1; cbn [sum_bytes fold_right length]; [lia|]. fold (sum_bytes l). lia. Qed.
Lemma fold_long_sum bs s : bytes_ok bs -> 0 <= s -> s + sum_bytes bs < 2 ^ 63 -> fold_left (fun s x => wrap 64 (s + x)) bs s = s + sum_bytes bs.
Proof.
  intros H. revert s; induction H as [|x r Hx Hr IH]; intros s Hs Hb; cbn [fold_left sum_bytes fold_right] in *; [lia|]. fold (sum_bytes r) in *.
  pose proof (sum_bytes_bound r Hr). rewrite (wrap_id 64 (s + x)); [rewrite IH; lia|lia|apply in_signed_spec; change (2 ^ (64 - 1)) with (2 ^ 63); lia].
Qed.
Theorem szse_calc_spec b : wf b -> szse_calc b = sum_bytes (readable b) mod 256.
Proof.
  intros Hb. unfold szse_calc. rewrite over_readable_fold by exact Hb. pose proof (sum_bytes_bound _ (readable_bytes _ Hb)) as S.
  assert (L : Z.of_nat (length (readable b)) < 2 ^ 31).
  { rewrite readable_length by exact Hb. pose proof (wf_cap _ Hb). pose proof (wf_widx _ Hb). pose proof (wf_max _ Hb). lia. }
  rewrite fold_long_sum; [|apply readable_bytes; auto|lia|change (2 ^ 63) with (2 ^ 31 * 2 ^ 32); lia]. rewrite Z.add_0_l.
  rewrite Z.rem_mod_nonneg by lia. apply wrap_id; [lia|]. apply in_signed_spec. change (2 ^ (32 - 1)) with 2147483648. lia.
Qed.
Theorem c_sum_spec sgn bs c : c_sum sgn bs c = (c + sum_bytes bs) mod 256.
Proof.
  revert c; induction bs as [|x r IH]; intros c; cbn [c_sum sum_bytes fold_right]; [f_equal; lia|]. rewrite IH. fold (sum_bytes r). unfold c_char.
  assert (M : forall z, (z mod 2 ^ 32) mod 256 = z mod 256) by (intros z; change (2 ^ 32) with (256 * 16777216); symmetry; apply Znumtheory.Zmod_div_mod; try lia; exists 16777216; lia).
  rewrite <- Z.add_mod_idemp_l, M, Z.add_mod_idemp_l by lia. rewrite <- Z.add_assoc, (Z.add_comm (_ mod _)), Z.add_assoc, <- Z.add_mod_idemp_r, M, Z.add_mod_idemp_r by lia.
  destruct (sgn && (128 <=? x)); [|f_equal; lia]. replace (c + sum_bytes r + (x - 256)) with (c + (x + sum_bytes r) + (-1) * 256) by lia. apply Z.mod_add. lia.
Qed.
Lemma sum_bytes_cons x r : sum_bytes (x :: r) = x + sum_bytes r.
Proof. reflexivity. Qed.
Lemma sum_bytes_app a b : sum_bytes (a ++ b) = sum_bytes a + sum_bytes b.
Proof. unfold sum_bytes. induction a as [|x a IH]; cbn [fold_right app]; [lia|]. rewrite IH. lia. Qed.

(* ---- CRC: one register step, linear over xor ---- *)
Definition h (p r : Z) : Z := Z.lxor (Z.shiftr r 1) (if Z.odd r then p else 0).
Fixpoint iter (p : Z) (n : nat) (r : Z) : Z := match n with O => r | S k => iter p k (h p r) end.
Lemma odd_lxor a b : Z.odd (Z.lxor a b) = xorb (Z.odd a) (Z.odd b).
Proof. rewrite <- !Z.bit0_odd. apply Z.lxor_spec. Qed.
Lemma h_lxor p a b : h p (Z.lxor a b) = Z.lxor (h p a) (h p b).
Proof.
  unfold h. rewrite odd_lxor, Z.shiftr_lxor. destruct (Z.odd a), (Z.odd b); cbn [xorb]; apply Z.bits_inj'; intros i Hi;
    rewrite ?Z.lxor_spec, ?Z.testbit_0_l; repeat (match goal with |- context [Z.testbit ?x ?y] => destruct (Z.testbit x y) end); reflexivity.
Qed.
Lemma iter_lxor p n a b : iter p n (Z.lxor a b) = Z.lxor (iter p n a) (iter p n b).
Proof. revert a b; induction n; intros; cbn [iter]; auto. rewrite h_lxor. apply IHn. Qed.
Lemma h_double p v : h p (2 * v) = v.
Proof. unfold h. rewrite Z.odd_mul. cbn [Z.odd andb]. rewrite Z.lxor_0_r, Z.shiftr_div_pow2 by lia. change (2 ^ 1) with 2. lia. Qed.
Lemma iter_shiftl p n v : iter p n (Z.shiftl v (Z.of_nat n)) = v.
Proof.
  rewrite Z.shiftl_mul_pow2 by lia. revert v; induction n; intros v; cbn [iter]; [cbn; lia|].
  rewrite Nat2Z.inj_succ, Z.pow_succ_r by lia. replace (v * (2 * 2 ^ Z.of_nat n)) with (2 * (v * 2 ^ Z.of_nat n)) by ring. rewrite h_double. apply IHn.
Qed.
Lemma iter_add p n m r : iter p (n + m) r = iter p m (iter p n r).
Proof. revert r; induction n; intros; cbn [iter Nat.add]; auto. Qed.
(* value of a bit list, first bit least significant *)
Fixpoint val (l : list bool) : Z := match l with [] => 0 | b :: r => Z.b2z b + 2 * val r end.
Lemma crc_bit_h p r (b : bool) : crc_bit p r b = h p (Z.lxor r (Z.b2z b)).
Proof.
  unfold crc_bit, h. rewrite odd_lxor, Z.shiftr_lxor. replace (Z.odd (Z.b2z b)) with b by (destruct b; reflexivity).
  replace (Z.shiftr (Z.b2z b) 1) with 0 by (destruct b; reflexivity). rewrite Z.lxor_0_r, Z.shiftr_div_pow2 by lia. change (2 ^ 1) with 2.
  destruct (xorb (Z.odd r) b); [reflexivity|symmetry; apply Z.lxor_0_r].
Qed.
Lemma b2z_lxor b v : Z.b2z b + 2 * v = Z.lxor (Z.b2z b) (2 * v).
Proof.
  rewrite <- Z.add_nocarry_lxor; [reflexivity|]. apply Z.bits_inj'. intros i Hi. rewrite Z.land_spec, Z.testbit_0_l.
  destruct (Z.eq_dec i 0) as [->|N]; [rewrite Z.testbit_even_0; apply andb_false_r|]. destruct b; cbn [Z.b2z]; [|rewrite Z.testbit_0_l; reflexivity].
  change 1 with (2 ^ 0). rewrite Z.pow2_bits_false by lia. reflexivity.
Qed.
Theorem crc_reg_iter p l r : crc_reg p r l = iter p (length l) (Z.lxor r (val l)).
Proof.
  unfold crc_reg. revert r; induction l as [|b l IH]; intros r; cbn [fold_left val length iter]; [rewrite Z.lxor_0_r; reflexivity|].
  rewrite IH, crc_bit_h, b2z_lxor, <- Z.lxor_assoc, (h_lxor p (Z.lxor r (Z.b2z b))), h_double. reflexivity.
Qed.
Lemma crc_reg_app p r a b : crc_reg p r (a ++ b) = crc_reg p (crc_reg p r a) b.
Proof. apply fold_left_app. Qed.
Lemma testbit_half z i : Z.testbit z (Z.of_nat (S i)) = Z.testbit (z / 2) (Z.of_nat i).
Proof. rewrite Z.div2_bits, Nat2Z.inj_succ by lia. reflexivity. Qed.
Lemma val_low_bits n z : val (low_bits n z) = z mod 2 ^ Z.of_nat n.
Proof.
  revert z; induction n; intros z; [cbn; rewrite Z.mod_1_r; reflexivity|].
  unfold low_bits. cbn [seq map val]. rewrite <- seq_shift, map_map.
  assert (E : map (fun x => Z.testbit z (Z.of_nat (S x))) (seq 0 n) = low_bits n (z / 2)).
  { apply map_ext. intros i. apply testbit_half. }
  rewrite E, IHn, Nat2Z.inj_succ, Z.pow_succ_r by lia. cbn [Z.of_nat]. rewrite Z.bit0_mod. 
  rewrite Z.rem_mul_r by (try lia; apply Z.pow_pos_nonneg; lia). reflexivity.
Qed.
Lemma byte_bits_val x : 0 <= x < 256 -> val (byte_bits x) = x.
Proof. intros H. change (byte_bits x) with (low_bits 8 x). rewrite val_low_bits. apply Z.mod_small. exact H. Qed.
Lemma byte_split r : r = Z.lxor (Z.land r 255) (Z.shiftl (Z.shiftr r 8) 8).
Proof.
  apply Z.bits_inj'. intros i Hi. change 255 with (Z.ones 8). rewrite Z.lxor_spec, Z.land_ones by lia. destruct (Z.lt_ge_cases i 8).
  - rewrite Z.mod_pow2_bits_low, Z.shiftl_spec_low by lia. rewrite xorb_false_r. reflexivity.
  - rewrite Z.mod_pow2_bits_high, Z.shiftl_spec, Z.shiftr_spec by lia. rewrite xorb_false_l. f_equal. lia.
Qed.
Lemma shiftr8_byte x : 0 <= x < 256 -> Z.shiftr x 8 = 0.
Proof. intros. rewrite Z.shiftr_div_pow2 by lia. change (2 ^ 8) with 256. lia. Qed.
(* eight steps at once *)
Theorem crc_byte p r x : 0 <= x < 256 ->
  crc_reg p r (byte_bits x) = Z.lxor (iter p 8 (Z.land (Z.lxor r x) 255)) (Z.shiftr r 8).
Proof.
  intros Hx. rewrite crc_reg_iter, byte_bits_val by exact Hx. change (length (byte_bits x)) with 8%nat.
  rewrite (byte_split (Z.lxor r x)) at 1. rewrite iter_lxor. f_equal. change 8 with (Z.of_nat 8) at 2. rewrite iter_shiftl, Z.shiftr_lxor, (shiftr8_byte x) by exact Hx.
  apply Z.lxor_0_r.
Qed.

(* ---- tables ---- *)
Lemma table16 i : 0 <= i < 256 -> nth (Z.to_nat i) crc16_table 0 = iter poly16 8 i.
Proof.
  intros Hi. assert (A : forallb (fun k => nth k crc16_table 0 =? iter poly16 8 (Z.of_nat k)) (seq 0 256) = true) by (vm_compute; reflexivity).
  rewrite forallb_forall in A. specialize (A (Z.to_nat i) ltac:(apply in_seq; lia)). rewrite Z2Nat.id in A by lia. lia.
Qed.
Lemma table32 i : 0 <= i < 256 -> nth (Z.to_nat i) crc32_table 0 mod 2 ^ 32 = iter poly32 8 i.
Proof.
  intros Hi. assert (A : forallb (fun k => nth k crc32_table 0 mod 2 ^ 32 =? iter poly32 8 (Z.of_nat k)) (seq 0 256) = true) by (vm_compute; reflexivity).
  rewrite forallb_forall in A. specialize (A (Z.to_nat i) ltac:(apply in_seq; lia)). rewrite Z2Nat.id in A by lia. lia.
Qed.
Lemma table32_signed i : 0 <= i < 256 -> in_signed 32 (nth (Z.to_nat i) crc32_table 0) = true.
Proof.
  intros Hi. assert (A : forallb (fun k => in_signed 32 (nth k crc32_table 0)) (seq 0 256) = true) by (vm_compute; reflexivity).
  rewrite forallb_forall in A. apply A. apply in_seq. lia.
Qed.

(* ---- range of the register ---- *)
Lemma lxor_range n a b : 0 <= n -> 0 <= a < 2 ^ n -> 0 <= b < 2 ^ n -> 0 <= Z.lxor a b < 2 ^ n.
Proof.
  intros Hn Ha Hb. assert (Z.lxor a b mod 2 ^ n = Z.lxor a b) as <-; [|apply Z.mod_pos_bound; apply Z.pow_pos_nonneg; lia].
  apply Z.bits_inj'. intros i Hi. destruct (Z.lt_ge_cases i n); [apply Z.mod_pow2_bits_low; lia|]. rewrite Z.mod_pow2_bits_high by lia.
  rewrite Z.lxor_spec, (nonneg_high a n), (nonneg_high b n); auto.
Qed.
Lemma h_range n p r : 0 <= n -> 0 <= p < 2 ^ n -> 0 <= r < 2 ^ n -> 0 <= h p r < 2 ^ n.
Proof.
  intros Hn Hp Hr. unfold h. apply lxor_range; auto.
  - rewrite Z.shiftr_div_pow2 by lia. change (2 ^ 1) with 2. lia.
  - destruct (Z.odd r); lia.
Qed.
Lemma iter_range n p k r : 0 <= n -> 0 <= p < 2 ^ n -> 0 <= r < 2 ^ n -> 0 <= iter p k r < 2 ^ n.
Proof. intros Hn Hp. revert r; induction k; intros r Hr; cbn [iter]; auto. apply IHk. apply h_range; auto. Qed.
Lemma crc_bit_range n p r b : 0 < n -> 0 <= p < 2 ^ n -> 0 <= r < 2 ^ n -> 0 <= crc_bit p r b < 2 ^ n.
Proof.
  intros Hn Hp Hr. rewrite crc_bit_h. apply h_range; auto; [lia|]. apply lxor_range; auto; [lia|].
  assert (2 ^ 1 <= 2 ^ n) by (apply Z.pow_le_mono_r; lia). change (2 ^ 1) with 2 in *. destruct b; cbn [Z.b2z]; lia.
Qed.
Lemma crc_reg_range n p l r : 0 < n -> 0 <= p < 2 ^ n -> 0 <= r < 2 ^ n -> 0 <= crc_reg p r l < 2 ^ n.
Proof. intros Hn Hp. unfold crc_reg. revert r; induction l; intros r Hr; cbn [fold_left]; auto. apply IHl. apply crc_bit_range; auto. Qed.

(* ---- CRC16 ---- *)
Lemma bits_of_cons x r : bits_of (x :: r) = byte_bits x ++ bits_of r.
Proof. reflexivity. Qed.
Lemma bits_of_app a b : bits_of (a ++ b) = bits_of a ++ bits_of b.
Proof. apply flat_map_app. Qed.
Lemma iushr_small crc : 0 <= crc < 2 ^ 16 -> iushr crc 8 = Z.shiftr crc 8.
Proof.
  intros H. unfold iushr. change (Z.land 8 31) with 8. rewrite Z.mod_small by (change (2 ^ 16) with 65536 in H; change (2 ^ 32) with 4294967296; lia).
  apply wrap_id; [lia|]. apply in_signed_spec. rewrite Z.shiftr_div_pow2 by lia. change (2 ^ 8) with 256. change (2 ^ (32 - 1)) with 2147483648. change (2 ^ 16) with 65536 in H. lia.
Qed.
Lemma crc16_step_spec r x : 0 <= r < 2 ^ 16 -> 0 <= x < 256 -> crc16_step r x = crc_reg poly16 r (byte_bits x).
Proof.
  intros Hr Hx. rewrite crc_byte by exact Hx. unfold crc16_step. rewrite iushr_small by exact Hr. rewrite Z.lxor_comm. f_equal. apply table16.
  change 255 with (Z.ones 8). rewrite Z.land_ones by lia. apply Z.mod_pos_bound. lia.
Qed.
Lemma fold16 bs r : bytes_ok bs -> 0 <= r < 2 ^ 16 -> fold_left crc16_step bs r = crc_reg poly16 r (bits_of bs).
Proof.
  intros H. revert r; induction H as [|x l Hx Hl IH]; intros r Hr; [reflexivity|]. cbn [fold_left]. rewrite bits_of_cons, crc_reg_app, crc16_step_spec by auto.
  apply IH. apply crc_reg_range; auto; [lia|]. unfold poly16. change (2 ^ 16) with 65536. lia.
Qed.
Theorem crc16_calc_spec b : wf b -> crc16_calc b = crc16_spec (readable b).
Proof.
  intros Hb. unfold crc16_calc, crc16_spec. rewrite over_readable_fold by exact Hb. change (hex32 65535) with 65535.
  rewrite fold16; [|apply readable_bytes; auto|change (2 ^ 16) with 65536; lia]. change 65535 with (Z.ones 16) at 2. rewrite Z.land_ones by lia. apply Z.mod_small.
  apply crc_reg_range; [lia| |]; unfold poly16; change (2 ^ 16) with 65536; lia.
Qed.
Lemma crc16_range bs : 0 <= crc16_spec bs < 2 ^ 16.
Proof. apply crc_reg_range; [lia| |]; unfold poly16; change (2 ^ 16) with 65536; lia. Qed.

(* ---- CRC32: the int register, read unsigned, is the register of the specification ---- *)
Lemma lxor_mod n a b : 0 <= n -> Z.lxor a b mod 2 ^ n = Z.lxor (a mod 2 ^ n) (b mod 2 ^ n).
Proof.
  intros Hn. apply Z.bits_inj'. intros i Hi. destruct (Z.lt_ge_cases i n).
  - rewrite Z.lxor_spec, !Z.mod_pow2_bits_low, Z.lxor_spec by lia. reflexivity.
  - rewrite Z.lxor_spec, !Z.mod_pow2_bits_high by lia. reflexivity.
Qed.
Lemma iushr8 c : iushr c 8 = Z.shiftr (c mod 2 ^ 32) 8.
Proof.
  unfold iushr. change (Z.land 8 31) with 8. apply wrap_id; [lia|]. apply in_signed_spec. rewrite Z.shiftr_div_pow2 by lia. change (2 ^ 8) with 256.
  change (2 ^ (32 - 1)) with 2147483648. change (2 ^ 32) with 4294967296. lia.
Qed.
Lemma land255_mod c : Z.land c 255 = c mod 256.
Proof. change 255 with (Z.ones 8). rewrite Z.land_ones by lia. reflexivity. Qed.
Lemma crc32_step_spec c x : 0 <= x < 256 -> crc32_step c x mod 2 ^ 32 = crc_reg poly32 (c mod 2 ^ 32) (byte_bits x).
Proof.
  intros Hx. rewrite crc_byte by exact Hx. unfold crc32_step. rewrite lxor_mod, iushr8 by lia.
  assert (I : Z.land (Z.lxor c x) 255 = Z.land (Z.lxor (c mod 2 ^ 32) x) 255).
  { apply Z.bits_inj'. intros i Hi. rewrite !Z.land_spec, !Z.lxor_spec. destruct (Z.lt_ge_cases i 32).
    - rewrite Z.mod_pow2_bits_low by lia. reflexivity.
    - rewrite (nonneg_high 255 8 i) by lia. rewrite !andb_false_r. reflexivity. }
  rewrite I. rewrite table32 by (rewrite land255_mod; apply Z.mod_pos_bound; lia). f_equal. apply Z.mod_small.
  rewrite Z.shiftr_div_pow2 by lia. change (2 ^ 8) with 256. change (2 ^ 32) with 4294967296. lia.
Qed.
Lemma fold32 bs c : bytes_ok bs -> fold_left crc32_step bs c mod 2 ^ 32 = crc_reg poly32 (c mod 2 ^ 32) (bits_of bs).
Proof.
  intros H. revert c; induction H as [|x l Hx Hl IH]; intros c; [reflexivity|]. cbn [fold_left]. rewrite bits_of_cons, crc_reg_app, <- crc32_step_spec by auto. apply IH.
Qed.
Lemma lxor_signed n a b : 0 < n -> in_signed n a = true -> in_signed n b = true -> in_signed n (Z.lxor a b) = true.
Proof.
  intros Hn Ha Hb. assert (wrap n (Z.lxor a b) = Z.lxor a b) as <-; [|apply wrap_in_signed; lia].
  apply Z.bits_inj'. intros i Hi. destruct (Z.lt_ge_cases i n); [apply wrap_testbit; lia|].
  rewrite (signed_high n) by (auto using wrap_in_signed; lia). rewrite <- (signed_high n _ (n - 1)) by (auto using wrap_in_signed; lia).
  rewrite wrap_testbit, !Z.lxor_spec, !(signed_high n a), !(signed_high n b) by (auto; lia). reflexivity.
Qed.
Lemma step32_signed c x : in_signed 32 (crc32_step c x) = true.
Proof.
  unfold crc32_step. apply lxor_signed; [lia| |apply wrap_in_signed; lia]. apply table32_signed. rewrite land255_mod. apply Z.mod_pos_bound. lia.
Qed.
Lemma fold32_signed bs c : in_signed 32 c = true -> in_signed 32 (fold_left crc32_step bs c) = true.
Proof. revert c; induction bs; intros c H; cbn [fold_left]; auto using step32_signed. Qed.
Lemma crc32_reg_range bs : 0 <= crc_reg poly32 4294967295 (bits_of bs) < 2 ^ 32.
Proof. apply crc_reg_range; [lia| |]; unfold poly32; change (2 ^ 32) with 4294967296; lia. Qed.
Lemma crc32_range bs : 0 <= crc32_spec bs < 2 ^ 32.
Proof. apply lxor_range; [lia|apply crc32_reg_range|change (2 ^ 32) with 4294967296; lia]. Qed.
Theorem crc32_calc_spec b : wf b -> crc32_calc b mod 2 ^ 32 = crc32_spec (readable b) /\ in_signed 32 (crc32_calc b) = true.
Proof.
  intros Hb. unfold crc32_calc, crc32_spec. rewrite over_readable_fold by exact Hb. change (hex32 4294967295) with (-1). split.
  - rewrite lxor_mod, fold32 by (try apply readable_bytes; auto; lia). reflexivity.
  - apply lxor_signed; [lia| |reflexivity]. apply fold32_signed. reflexivity.
Qed.
Corollary crc32_calc_wrap b : wf b -> crc32_calc b = wrap 32 (crc32_spec (readable b)).
Proof.
  intros Hb. destruct (crc32_calc_spec b Hb) as [E R]. rewrite <- E. rewrite <- (wrap_id 32 (crc32_calc b)) at 1 by (auto; lia).
  symmetry. apply wrap_mod_eq. lia.
Qed.

(* ---- injectivity ---- *)
Lemma h_inj n p a b : 0 < n -> 2 ^ (n - 1) <= p < 2 ^ n -> 0 <= a < 2 ^ n -> 0 <= b < 2 ^ n -> h p a = h p b -> a = b.
Proof.
  intros Hn Hp Ha Hb E.
  assert (P2 : 2 ^ n = 2 * 2 ^ (n - 1)) by (rewrite <- Z.pow_succ_r by lia; f_equal; lia).
  assert (Tp : Z.testbit p (n - 1) = true).
  { rewrite Z.testbit_true by lia. assert (p / 2 ^ (n - 1) = 1) as ->; [|reflexivity]. symmetry; apply Z.div_unique with (r := p - 2 ^ (n - 1)); lia. }
  assert (Top : forall r, 0 <= r < 2 ^ n -> Z.testbit (h p r) (n - 1) = Z.odd r).
  { intros r Hr. unfold h. rewrite Z.lxor_spec. rewrite (nonneg_high (Z.shiftr r 1) (n - 1)) by (try lia; rewrite Z.shiftr_div_pow2 by lia; change (2 ^ 1) with 2; lia).
    destruct (Z.odd r); rewrite ?Tp, ?Z.testbit_0_l; reflexivity. }
  assert (O : Z.odd a = Z.odd b) by (rewrite <- !Top by assumption; rewrite E; reflexivity).
  unfold h in E. rewrite O in E. apply (f_equal (fun z => Z.lxor z (if Z.odd b then p else 0))) in E.
  rewrite !Z.lxor_assoc, Z.lxor_nilpotent, !Z.lxor_0_r in E. rewrite !Z.shiftr_div_pow2 in E by lia. change (2 ^ 1) with 2 in E.
  rewrite (Z.div_mod a 2), (Z.div_mod b 2) by lia. rewrite E, !Zmod_odd, O. reflexivity.
Qed.
Lemma iter_inj n p k a b : 0 < n -> 2 ^ (n - 1) <= p < 2 ^ n -> 0 <= a < 2 ^ n -> 0 <= b < 2 ^ n -> iter p k a = iter p k b -> a = b.
Proof.
  intros Hn Hp. assert (0 < 2 ^ (n - 1)) by (apply Z.pow_pos_nonneg; lia). revert a b; induction k; intros a b Ha Hb E; cbn [iter] in E; auto.
  apply (h_inj n p); auto. apply IHk; auto; apply h_range; auto; lia.
Qed.
Lemma val_range l : 0 <= val l < 2 ^ Z.of_nat (length l).
Proof.
  induction l as [|b l IH]; cbn [val length]; [cbn; lia|]. rewrite Nat2Z.inj_succ, Z.pow_succ_r by lia. destruct b; cbn [Z.b2z]; lia.
Qed.
Lemma val_inj a b : length a = length b -> val a = val b -> a = b.
Proof.
  revert b; induction a as [|x a IH]; intros [|y b] L E; try discriminate; auto. cbn [val] in E. cbn in L.
  assert (x = y) by (destruct x, y; cbn [Z.b2z] in E; auto; lia). subst y. f_equal. apply IH; lia.
Qed.
Lemma lxor_inj r a b : Z.lxor r a = Z.lxor r b -> a = b.
Proof. intros E. apply (f_equal (Z.lxor r)) in E. rewrite <- !Z.lxor_assoc, Z.lxor_nilpotent, !Z.lxor_0_l in E. exact E. Qed.
(* up to n consecutive bits are recoverable from the register *)
Theorem window_inj n p r s w w' : 0 < n -> 2 ^ (n - 1) <= p < 2 ^ n -> 0 <= r < 2 ^ n -> length w = length w' -> Z.of_nat (length w) <= n ->
  crc_reg p r (w ++ s) = crc_reg p r (w' ++ s) -> w = w'.
Proof.
  intros Hn Hp Hr L Lw E. assert (0 < 2 ^ (n - 1)) by (apply Z.pow_pos_nonneg; lia). rewrite !crc_reg_app in E. rewrite (crc_reg_iter p s), (crc_reg_iter p s) in E.
  assert (Hs : iter p (length s) (crc_reg p r w) = iter p (length s) (crc_reg p r w')).
  { rewrite !iter_lxor in E. rewrite (Z.lxor_comm _ (iter p (length s) (val s))), (Z.lxor_comm _ (iter p (length s) (val s))) in E. apply lxor_inj in E. exact E. }
  apply (iter_inj n) in Hs; auto; try (apply crc_reg_range; auto; lia). rewrite !crc_reg_iter, L in Hs.
  assert (V : forall u, length u = length w' -> 0 <= Z.lxor r (val u) < 2 ^ n).
  { intros u Lu. apply lxor_range; auto; [lia|]. pose proof (val_range u) as R. rewrite Lu, <- L in R.
    assert (2 ^ Z.of_nat (length w) <= 2 ^ n) by (apply Z.pow_le_mono_r; lia). lia. }
  apply (iter_inj n) in Hs; auto. apply lxor_inj in Hs. apply val_inj; auto.
Qed.
Lemma byte_bits_inj x y : 0 <= x < 256 -> 0 <= y < 256 -> byte_bits x = byte_bits y -> x = y.
Proof. intros Hx Hy E. rewrite <- (byte_bits_val x), <- (byte_bits_val y), E; auto. Qed.
Lemma bits_of_length bs : length (bits_of bs) = (8 * length bs)%nat.
Proof. induction bs; [reflexivity|]. rewrite bits_of_cons, app_length, IHbs. cbn [length]. change (length (byte_bits a)) with 8%nat. lia. Qed.
Lemma bits_of_inj a b : bytes_ok a -> bytes_ok b -> bits_of a = bits_of b -> a = b.
Proof.
  intros Ha. revert b; induction Ha as [|x a Hx Ha IH]; intros b Hb E.
  - destruct b; [reflexivity|discriminate].
  - destruct Hb as [|y b Hy Hb]; [discriminate|]. rewrite !bits_of_cons in E.
    assert (E1 : byte_bits x = byte_bits y /\ bits_of a = bits_of b).
    { apply (f_equal (firstn 8)) in E as E1. apply (f_equal (skipn 8)) in E as E2. cbn in E1, E2. split; [|exact E2]. unfold byte_bits. cbn [seq map]. exact E1. }
    destruct E1 as [E1 E2]. f_equal; [apply byte_bits_inj; auto|apply IH; auto].
Qed.

(* ---- residues ---- *)
Lemma val_app a b : val (a ++ b) = val a + 2 ^ Z.of_nat (length a) * val b.
Proof.
  induction a as [|x a IH]; cbn [app val length]; [change (2 ^ Z.of_nat 0) with 1; lia|]. rewrite IH, Nat2Z.inj_succ, Z.pow_succ_r by lia. ring.
Qed.
Lemma val_number n z : val (bits_of (number LE n z)) = z mod 2 ^ (8 * Z.of_nat n).
Proof.
  cbn [number]. revert z; induction n; intros z; cbn [digits]; [cbn; rewrite Z.mod_1_r; reflexivity|].
  rewrite bits_of_cons, val_app, IHn, byte_bits_val by (apply Z.mod_pos_bound; lia). change (length (byte_bits (z mod 256))) with 8%nat. change (2 ^ Z.of_nat 8) with 256.
  replace (8 * Z.of_nat (S n)) with (8 + 8 * Z.of_nat n) by lia. rewrite Z.pow_add_r by lia. change (2 ^ 8) with 256.
  rewrite Z.rem_mul_r by (try lia; apply Z.pow_pos_nonneg; lia). reflexivity.
Qed.
Lemma after_number p r n z : crc_reg p r (bits_of (number LE n z)) = iter p (8 * n) (Z.lxor r (z mod 2 ^ (8 * Z.of_nat n))).
Proof. rewrite crc_reg_iter, bits_of_length, number_length, val_number. reflexivity. Qed.
Lemma iter_zero p n : iter p n 0 = 0.
Proof. induction n; auto. Qed.
Theorem residue16 bs c : crc16_spec (bs ++ number LE 2 c) = 0 <-> c mod 2 ^ 16 = crc16_spec bs.
Proof.
  unfold crc16_spec at 1. rewrite bits_of_app, crc_reg_app, after_number. fold (crc16_spec bs). change (8 * Z.of_nat 2) with 16. split.
  - intros E. rewrite <- (iter_zero poly16 (8 * 2)) in E. pose proof (crc16_range bs). assert (M : 0 <= c mod 2 ^ 16 < 2 ^ 16) by (apply Z.mod_pos_bound; lia).
    apply (iter_inj 16) in E; [|lia|unfold poly16; cbn; lia|apply lxor_range; auto; lia|cbn; lia].
    apply (lxor_inj (crc16_spec bs)). rewrite E, Z.lxor_nilpotent. reflexivity.
  - intros ->. rewrite Z.lxor_nilpotent. apply iter_zero.
Qed.
Theorem residue32 bs c : crc32_spec (bs ++ number LE 4 c) = 558161692 <-> c mod 2 ^ 32 = crc32_spec bs.
Proof.
  unfold crc32_spec at 1. rewrite bits_of_app, crc_reg_app, after_number. change (8 * Z.of_nat 4) with 32.
  pose proof (crc32_reg_range bs) as R. assert (M : 0 <= c mod 2 ^ 32 < 2 ^ 32) by (apply Z.mod_pos_bound; lia).
  assert (K : 558161692 = Z.lxor (iter poly32 (8 * 4) 4294967295) 4294967295) by (vm_compute; reflexivity). split.
  - intros E. rewrite K, (Z.lxor_comm (iter poly32 _ (Z.lxor _ _))), (Z.lxor_comm (iter poly32 _ 4294967295)) in E. apply lxor_inj in E.
    apply (iter_inj 32) in E; [|lia|unfold poly32; cbn; lia|apply lxor_range; auto; lia|cbn; lia].
    apply (lxor_inj (crc_reg poly32 4294967295 (bits_of bs))). rewrite E. unfold crc32_spec. rewrite <- Z.lxor_assoc, Z.lxor_nilpotent, Z.lxor_0_l. reflexivity.
  - intros ->. unfold crc32_spec. rewrite <- Z.lxor_assoc, Z.lxor_nilpotent, Z.lxor_0_l. symmetry. exact K.
Qed.

(* ---- parity: the CRC16 polynomial has x+1 as a factor ---- *)
Fixpoint odd_weight (n : nat) (z : Z) : bool := match n with O => false | S k => xorb (Z.odd z) (odd_weight k (z / 2)) end.
Lemma odd_weight_lxor n a b : odd_weight n (Z.lxor a b) = xorb (odd_weight n a) (odd_weight n b).
Proof.
  revert a b; induction n; intros a b; cbn [odd_weight]; auto. rewrite odd_lxor. replace (Z.lxor a b / 2) with (Z.lxor (a / 2) (b / 2)).
  - rewrite IHn. destruct (Z.odd a), (Z.odd b), (odd_weight n (a / 2)), (odd_weight n (b / 2)); reflexivity.
  - change 2 with (2 ^ 1). rewrite <- !Z.shiftr_div_pow2 by lia. rewrite Z.shiftr_lxor. reflexivity.
Qed.
Lemma odd_weight_zero n : odd_weight n 0 = false.
Proof. induction n; cbn [odd_weight]; auto. change (0 / 2) with 0. rewrite IHn. reflexivity. Qed.
Lemma odd_weight_S n z : 0 <= z < 2 ^ Z.of_nat n -> odd_weight (S n) z = odd_weight n z.
Proof.
  revert z; induction n; intros z H; [cbn in *; replace z with 0 by lia; reflexivity|]. rewrite Nat2Z.inj_succ, Z.pow_succ_r in H by lia.
  change (odd_weight (S (S n)) z) with (xorb (Z.odd z) (odd_weight (S n) (z / 2))). rewrite IHn by lia. reflexivity.
Qed.
Lemma odd_weight_h r : 0 <= r < 2 ^ 16 -> odd_weight 16 (h poly16 r) = odd_weight 16 r.
Proof.
  intros Hr. unfold h. rewrite odd_weight_lxor. rewrite Z.shiftr_div_pow2 by lia. change (2 ^ 1) with 2.
  assert (W : odd_weight 16 (r / 2) = odd_weight 15 (r / 2)) by (apply odd_weight_S; change (2 ^ Z.of_nat 15) with 32768; change (2 ^ 16) with 65536 in Hr; lia).
  rewrite W. change (odd_weight 16 r) with (xorb (Z.odd r) (odd_weight 15 (r / 2))). destruct (Z.odd r); [change (odd_weight 16 poly16) with true|rewrite odd_weight_zero];
    destruct (odd_weight 15 (r / 2)); reflexivity.
Qed.
Lemma parity_acc l c : fold_left xorb l c = xorb c (parity l).
Proof.
  unfold parity. revert c; induction l as [|b l IH]; intros c; cbn [fold_left]; [symmetry; apply xorb_false_r|]. rewrite IH, (IH (xorb false b)), xorb_false_l, <- xorb_assoc. reflexivity.
Qed.
Lemma parity_reg l r : 0 <= r < 2 ^ 16 -> odd_weight 16 (crc_reg poly16 r l) = xorb (odd_weight 16 r) (parity l).
Proof.
  revert r; induction l as [|b l IH]; intros r Hr; [symmetry; apply xorb_false_r|].
  assert (R : 0 <= Z.lxor r (Z.b2z b) < 2 ^ 16) by (apply lxor_range; auto; [lia|destruct b; cbn; lia]).
  change (crc_reg poly16 r (b :: l)) with (crc_reg poly16 (crc_bit poly16 r b) l).
  assert (E : parity (b :: l) = xorb b (parity l)) by (unfold parity at 1; cbn [fold_left]; rewrite parity_acc, xorb_false_l; reflexivity).
  rewrite crc_bit_h, IH by (apply h_range; auto; unfold poly16; cbn; lia). rewrite odd_weight_h by exact R. rewrite odd_weight_lxor, E.
  replace (odd_weight 16 (Z.b2z b)) with b by (destruct b; reflexivity). apply xorb_assoc.
Qed.
Lemma odd_weight_bits n z : odd_weight n z = parity (low_bits n z).
Proof.
  revert z; induction n; intros z; [reflexivity|]. cbn [odd_weight]. unfold low_bits. cbn [seq map]. rewrite <- seq_shift, map_map.
  unfold parity. cbn [fold_left]. rewrite parity_acc, xorb_false_l. cbn [Z.of_nat]. rewrite Z.bit0_odd. f_equal. rewrite IHn. f_equal.
  apply map_ext. intros i. symmetry; apply testbit_half.
Qed.
Theorem crc16_parity bs : parity (low_bits 16 (crc16_spec bs)) = parity (bits_of bs).
Proof.
  rewrite <- odd_weight_bits. unfold crc16_spec. rewrite parity_reg by (cbn; lia). replace (odd_weight 16 65535) with false by (vm_compute; reflexivity). apply xorb_false_l.
Qed.

(* ---- two flipped bits, CRC16 ---- *)
(* no register value recurs within k steps *)
Fixpoint no_return (p target : Z) (k : nat) (r : Z) : bool :=
  match k with O => true | S j => let r' := h p r in negb (r' =? target) && no_return p target j r' end.
Lemma no_return_ok p t k r : no_return p t k r = true -> forall d, (0 < d <= k)%nat -> iter p d r <> t.
Proof.
  revert r; induction k; intros r H d Hd; [lia|]. cbn [no_return] in H. apply andb_true_iff in H. destruct H as [H1 H2].
  destruct d as [|d]; [lia|]. cbn [iter]. destruct d as [|d]; [cbn [iter]; lia|]. apply IHk; auto. lia.
Qed.
(* flipping the bits at two places, d apart, changes the register by h^d(h 1) xor h 1, shifted through what follows *)
Lemma crc_reg_lxor p l r e : crc_reg p (Z.lxor r e) l = Z.lxor (crc_reg p r l) (iter p (length l) e).
Proof. rewrite !crc_reg_iter, !iter_lxor. rewrite !Z.lxor_assoc. f_equal. apply Z.lxor_comm. Qed.
Lemma crc_bit_flip p r b : crc_bit p r (negb b) = Z.lxor (crc_bit p r b) (h p 1).
Proof.
  rewrite !crc_bit_h. replace (Z.b2z (negb b)) with (Z.lxor (Z.b2z b) 1) by (destruct b; reflexivity). rewrite <- Z.lxor_assoc. apply h_lxor.
Qed.
Theorem two_flips n p r x a m b s : 0 < n -> 2 ^ (n - 1) <= p < 2 ^ n -> 0 <= r < 2 ^ n -> iter p (S (length m)) (h p 1) <> h p 1 ->
  crc_reg p r (x ++ a :: m ++ b :: s) <> crc_reg p r (x ++ negb a :: m ++ negb b :: s).
Proof.
  intros Hn Hp Hr Hd E. assert (0 < 2 ^ (n - 1)) by (apply Z.pow_pos_nonneg; lia). rewrite !(crc_reg_app p r) in E. set (r1 := crc_reg p r x) in *.
  assert (R1 : 0 <= r1 < 2 ^ n) by (apply crc_reg_range; auto; lia).
  change (crc_reg p r1 (a :: m ++ b :: s)) with (crc_reg p (crc_bit p r1 a) (m ++ b :: s)) in E.
  change (crc_reg p r1 (negb a :: m ++ negb b :: s)) with (crc_reg p (crc_bit p r1 (negb a)) (m ++ negb b :: s)) in E.
  rewrite crc_bit_flip, !crc_reg_app in E. rewrite crc_reg_lxor in E. set (r2 := crc_reg p (crc_bit p r1 a) m) in *.
  set (e := iter p (length m) (h p 1)) in *.
  change (crc_reg p r2 (b :: s)) with (crc_reg p (crc_bit p r2 b) s) in E.
  change (crc_reg p (Z.lxor r2 e) (negb b :: s)) with (crc_reg p (crc_bit p (Z.lxor r2 e) (negb b)) s) in E.
  assert (F : crc_bit p (Z.lxor r2 e) (negb b) = Z.lxor (crc_bit p r2 b) (Z.lxor (h p e) (h p 1))).
  { rewrite crc_bit_flip, <- Z.lxor_assoc. f_equal. rewrite !crc_bit_h, <- h_lxor. f_equal. rewrite !Z.lxor_assoc. f_equal. apply Z.lxor_comm. }
  rewrite F, crc_reg_lxor in E. apply Hd. rewrite <- (Z.lxor_0_r (crc_reg p (crc_bit p r2 b) s)) in E at 1. apply lxor_inj in E.
  rewrite <- (iter_zero p (length s)) in E. assert (O1 : 0 <= 1 < 2 ^ n) by (assert (2 ^ 1 <= 2 ^ n) by (apply Z.pow_le_mono_r; lia); change (2 ^ 1) with 2 in *; lia).
  assert (R2 : 0 <= h p e < 2 ^ n) by (apply h_range; [lia|lia|]; apply iter_range; [lia|lia|]; apply h_range; lia).
  assert (R3 : 0 <= h p 1 < 2 ^ n) by (apply h_range; lia).
  apply (iter_inj n) in E; [|lia|lia|lia|apply lxor_range; lia].
  assert (G : iter p (S (length m)) (h p 1) = h p e).
  { replace (S (length m)) with (length m + 1)%nat by lia. rewrite iter_add. reflexivity. }
  rewrite G. apply (lxor_inj (h p 1)). rewrite Z.lxor_nilpotent, Z.lxor_comm. symmetry. exact E.
Qed.
