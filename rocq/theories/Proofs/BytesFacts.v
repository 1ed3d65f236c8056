(* Integers and their byte forms. *)
From Coq Require Import ZArith List Bool Lia Zify.
From Verif.Model Require Import JavaPrim.
From Verif.Spec Require Import Bytes.
Import ListNotations.
Open Scope Z_scope.
Local Arguments Z.shiftl : simpl never. Local Arguments Z.lor : simpl never. Local Arguments Z.pow : simpl never.
Local Arguments Z.mul : simpl never. Local Arguments Z.modulo : simpl never. Local Arguments Z.div : simpl never.

Lemma pow2_pos n : 0 <= n -> 0 < 2 ^ n. Proof. intros; apply Z.pow_pos_nonneg; lia. Qed.

Lemma wrap_mod n z : 0 < n -> wrap n z mod 2 ^ n = z mod 2 ^ n.
Proof.
  intros Hn. unfold wrap. pose proof (pow2_pos n). rewrite Zminus_mod_idemp_l.
  f_equal. lia.
Qed.
Lemma wrap_range n z : 0 < n -> - 2 ^ (n - 1) <= wrap n z < 2 ^ (n - 1).
Proof.
  intros Hn. unfold wrap. pose proof (Z.mod_pos_bound (z + 2 ^ (n - 1)) (2 ^ n) (pow2_pos n ltac:(lia))).
  replace (2 ^ n) with (2 * 2 ^ (n - 1)) in *; [lia|].
  rewrite <- Z.pow_succ_r by lia. f_equal; lia.
Qed.
Lemma in_signed_spec n z : in_signed n z = true <-> - 2 ^ (n - 1) <= z < 2 ^ (n - 1).
Proof. unfold in_signed. rewrite andb_true_iff, Z.leb_le, Z.ltb_lt. reflexivity. Qed.
Lemma wrap_id n z : 0 < n -> in_signed n z = true -> wrap n z = z.
Proof.
  intros Hn H. apply in_signed_spec in H. unfold wrap. rewrite Z.mod_small; [lia|].
  replace (2 ^ n) with (2 * 2 ^ (n - 1)); [lia|]. rewrite <- Z.pow_succ_r by lia. f_equal; lia.
Qed.
Lemma wrap_in_signed n z : 0 < n -> in_signed n (wrap n z) = true.
Proof. intros. apply in_signed_spec. apply wrap_range; assumption. Qed.
Lemma wrap_eq_mod n a b : a mod 2 ^ n = b mod 2 ^ n -> wrap n a = wrap n b.
Proof.
  intros H. unfold wrap. f_equal.
  destruct (Z.eq_dec (2 ^ n) 0) as [E|E]. { rewrite E. rewrite !Zmod_0_r. rewrite E, !Zmod_0_r in H. congruence. }
  rewrite <- (Zplus_mod_idemp_l a), <- (Zplus_mod_idemp_l b), H. reflexivity.
Qed.
Lemma wrap_mod_eq n z : 0 < n -> wrap n (z mod 2 ^ n) = wrap n z.
Proof. intros. apply wrap_eq_mod. apply Z.mod_mod. pose proof (pow2_pos n); lia. Qed.

(* digits *)
Lemma digits_length n z : length (digits n z) = n.
Proof. revert z; induction n; intros; simpl; auto. Qed.
Lemma number_length o n z : length (number o n z) = n.
Proof. destruct o; simpl; rewrite ?rev_length; apply digits_length. Qed.
Lemma digits_bytes n z : Forall (fun b => 0 <= b < 256) (digits n z).
Proof. revert z; induction n; intros; simpl; constructor; auto. apply Z.mod_pos_bound; lia. Qed.
Lemma number_bytes o n z : Forall (fun b => 0 <= b < 256) (number o n z).
Proof. destruct o; simpl; [apply Forall_rev|]; apply digits_bytes. Qed.
Lemma digits_zero n : digits n 0 = repeat 0 n.
Proof. induction n; simpl; auto. rewrite Zmod_0_l. f_equal. exact IHn. Qed.
Lemma rev_repeat {A} (x : A) n : rev (repeat x n) = repeat x n.
Proof.
  induction n; simpl; auto. rewrite IHn. clear IHn.
  induction n; simpl; auto. rewrite IHn; reflexivity.
Qed.
Lemma number_zero o n : number o n 0 = repeat 0 n.
Proof. destruct o; unfold number; rewrite digits_zero, ?rev_repeat; reflexivity. Qed.

Lemma byte_at_digit z k : byte_at z k = (z / 256 ^ Z.of_nat k) mod 256.
Proof.
  unfold byte_at. change 255 with (Z.ones 8). rewrite Z.land_ones by lia.
  rewrite Z.shiftr_div_pow2 by lia. change (2 ^ 8) with 256. f_equal. f_equal.
  rewrite Z.pow_mul_r by lia. reflexivity.
Qed.
Lemma map_byte_at_digits n z k :
  map (byte_at z) (seq k n) = digits n (z / 256 ^ Z.of_nat k).
Proof.
  revert k; induction n; intros; simpl; auto. rewrite byte_at_digit. f_equal.
  rewrite IHn. f_equal. rewrite Z.div_div by (try apply Z.pow_nonzero; lia).
  f_equal. rewrite Nat2Z.inj_succ, Z.pow_succ_r by lia. lia.
Qed.
Theorem put_int_number o n z : put_int o n z = number o n z.
Proof.
  assert (H : map (byte_at z) (seq 0 n) = digits n z).
  { rewrite map_byte_at_digits. simpl. rewrite Z.div_1_r. reflexivity. }
  destruct o; simpl; [rewrite map_rev|]; rewrite H; reflexivity.
Qed.

(* reading back *)
Lemma or_bytes_nonneg bs : Forall (fun b => 0 <= b < 256) bs -> 0 <= or_bytes bs.
Proof.
  induction 1; simpl; [lia|]. apply Z.lor_nonneg. split; [lia|]. apply Z.shiftl_nonneg; auto.
Qed.
Lemma lor_add a b : 0 <= a < 256 -> 0 <= b -> Z.lor a (Z.shiftl b 8) = a + 256 * b.
Proof.
  intros Ha Hb. rewrite Z.shiftl_mul_pow2 by lia. change (2 ^ 8) with 256.
  rewrite (Z.mul_comm 256 b).
  assert (E : Z.land a (b * 256) = 0).
  { apply Z.bits_inj'. intros i Hi. rewrite Z.land_spec, Z.bits_0.
    destruct (Z.ltb_spec i 8).
    - change 256 with (2 ^ 8). rewrite Z.mul_pow2_bits_low by lia. apply andb_false_r.
    - replace a with (a mod 2 ^ 8) by (apply Z.mod_small; change (2^8) with 256; lia).
      rewrite Z.mod_pow2_bits_high by lia. reflexivity. }
  rewrite Z.add_nocarry_lxor, Z.lxor_lor by exact E. reflexivity.
Qed.
Lemma or_bytes_digits n z : or_bytes (digits n z) = z mod 256 ^ Z.of_nat n.
Proof.
  revert z; induction n; intros; simpl.
  - rewrite Z.mod_1_r. reflexivity.
  - rewrite IHn. rewrite lor_add.
    + rewrite Zpos_P_of_succ_nat, Z.pow_succ_r by lia.
      rewrite Z.rem_mul_r; lia.
    + apply Z.mod_pos_bound; lia.
    + apply Z.mod_pos_bound. apply Z.pow_pos_nonneg; lia.
Qed.
Lemma pow256 n : 256 ^ Z.of_nat n = 2 ^ (8 * Z.of_nat n).
Proof. rewrite Z.pow_mul_r by lia. reflexivity. Qed.
Theorem get_int_number o n z : (0 < n)%nat -> get_int o (number o n z) = wrap (8 * Z.of_nat n) z.
Proof.
  intros Hn. unfold get_int. rewrite number_length.
  assert (H : or_bytes (digits n z) = z mod 2 ^ (8 * Z.of_nat n)) by (rewrite or_bytes_digits, pow256; reflexivity).
  destruct o; simpl; rewrite ?rev_involutive, H; apply wrap_mod_eq; lia.
Qed.
Theorem get_bits_number o n z : 0 <= z < 2 ^ (8 * Z.of_nat n) -> get_bits o (number o n z) = z.
Proof.
  intros Hz. unfold get_bits.
  assert (H : or_bytes (digits n z) = z) by (rewrite or_bytes_digits, pow256; apply Z.mod_small; lia).
  destruct o; simpl; rewrite ?rev_involutive; exact H.
Qed.
Corollary get_int_number_id o n z : (0 < n)%nat -> in_signed (8 * Z.of_nat n) z = true -> get_int o (number o n z) = z.
Proof. intros. rewrite get_int_number by assumption. apply wrap_id; [lia|assumption]. Qed.

(* any n bytes are the n-byte number they denote *)
Lemma or_bytes_bound bs : Forall (fun b => 0 <= b < 256) bs -> or_bytes bs < 256 ^ Z.of_nat (length bs).
Proof.
  induction 1; simpl; [lia|]. rewrite lor_add; auto; [|apply or_bytes_nonneg; auto].
  rewrite Zpos_P_of_succ_nat, Z.pow_succ_r by lia. lia.
Qed.
Lemma digits_or_bytes bs : Forall (fun b => 0 <= b < 256) bs -> digits (length bs) (or_bytes bs) = bs.
Proof.
  induction 1; simpl; auto. rewrite lor_add; auto; [|apply or_bytes_nonneg; auto].
  f_equal.
  - rewrite Z.mul_comm, Z.mod_add by lia. apply Z.mod_small; lia.
  - rewrite Z.mul_comm, Z.div_add by lia. rewrite Z.div_small, Z.add_0_l by lia. exact IHForall.
Qed.
Lemma digits_mod n a b : a mod 2 ^ (8 * Z.of_nat n) = b mod 2 ^ (8 * Z.of_nat n) -> digits n a = digits n b.
Proof.
  intros H.
  assert (E : or_bytes (digits n a) = or_bytes (digits n b)) by (rewrite !or_bytes_digits, pow256; exact H).
  pose proof (digits_or_bytes _ (digits_bytes n a)) as Ha.
  pose proof (digits_or_bytes _ (digits_bytes n b)) as Hb.
  rewrite digits_length in Ha, Hb. congruence.
Qed.
Lemma number_wrap o n z : (0 < n)%nat -> number o n (wrap (8 * Z.of_nat n) z) = number o n z.
Proof.
  intros. assert (E : digits n (wrap (8 * Z.of_nat n) z) = digits n z) by (apply digits_mod, wrap_mod; lia).
  destruct o; simpl; rewrite E; reflexivity.
Qed.
Lemma number_get_int o bs : Forall (fun b => 0 <= b < 256) bs -> bs <> [] ->
  number o (length bs) (get_int o bs) = bs.
Proof.
  intros H Hne. assert (0 < length bs)%nat by (destruct bs; simpl; [congruence|lia]).
  unfold get_int. rewrite number_wrap by assumption. destruct o; simpl.
  - rewrite <- (rev_length bs), digits_or_bytes by (apply Forall_rev; auto). apply rev_involutive.
  - apply digits_or_bytes; auto.
Qed.
Lemma get_int_range o bs : bs <> [] -> in_signed (8 * Z.of_nat (length bs)) (get_int o bs) = true.
Proof.
  intros. unfold get_int. apply wrap_in_signed. destruct bs; simpl; [congruence|lia].
Qed.
Lemma get_bits_range o bs : Forall (fun b => 0 <= b < 256) bs ->
  0 <= get_bits o bs < 2 ^ (8 * Z.of_nat (length bs)).
Proof.
  intros H. unfold get_bits. rewrite <- pow256. destruct o; simpl.
  - pose proof (Forall_rev H). split; [apply or_bytes_nonneg; auto|].
    rewrite <- (rev_length bs). apply or_bytes_bound; auto.
  - split; [apply or_bytes_nonneg; auto|apply or_bytes_bound; auto].
Qed.
Lemma is_byte_spec b : is_byte b = true <-> 0 <= b < 256.
Proof. unfold is_byte. rewrite andb_true_iff, Z.leb_le, Z.ltb_lt. reflexivity. Qed.
Lemma forallb_bytes l : forallb is_byte l = true <-> Forall (fun b => 0 <= b < 256) l.
Proof.
  rewrite forallb_forall, Forall_forall. split; intros H x Hx; apply is_byte_spec; auto.
Qed.
