(* The four bit maps. *)
From Coq Require Import ZArith List Bool Lia ZifyBool.
From Verif.Model Require Import JavaPrim ByteBuf BitMap.
From Verif.Spec Require Import Bytes Buffers Maps.
From Verif.Proofs Require Import BytesFacts BufFacts CodecFacts.
Import ListNotations.
Open Scope Z_scope.
Ltac Zify.zify_post_hook ::= Z.div_mod_to_equations.

(* bits of a wrapped number *)
Lemma wrap_testbit n z i : 0 <= i < n -> Z.testbit (wrap n z) i = Z.testbit z i.
Proof.
  intros H. rewrite <- (Z.mod_pow2_bits_low z n i), <- (Z.mod_pow2_bits_low (wrap n z) n i) by lia. rewrite wrap_mod by lia. reflexivity.
Qed.
Lemma nonneg_high x n i : 0 <= n -> 0 <= x < 2 ^ n -> n <= i -> Z.testbit x i = false.
Proof. intros Hn Hx Hi. rewrite <- (Z.mod_small x (2 ^ n)) by lia. apply Z.mod_pow2_bits_high. lia. Qed.
Lemma signed_high n x i : 0 < n -> in_signed n x = true -> n - 1 <= i -> Z.testbit x i = (x <? 0).
Proof.
  intros Hn Hx Hi. apply in_signed_spec in Hx. destruct (Z.ltb_spec x 0).
  - rewrite <- (Z.lnot_involutive x), Z.lnot_spec by lia. rewrite (nonneg_high (Z.lnot x) (n - 1)); auto; unfold Z.lnot; lia.
  - apply (nonneg_high x (n - 1)); lia.
Qed.
Lemma signed_ext n x y : 0 < n -> in_signed n x = true -> in_signed n y = true ->
  (forall i, 0 <= i < n -> Z.testbit x i = Z.testbit y i) -> x = y.
Proof.
  intros Hn Hx Hy H. apply Z.bits_inj'. intros i Hi. destruct (Z.lt_ge_cases i n); [apply H; lia|].
  rewrite (signed_high n x i), (signed_high n y i) by (auto; lia).
  rewrite <- (signed_high n x (n - 1)), <- (signed_high n y (n - 1)) by (auto; lia). apply H; lia.
Qed.

(* 1 << k, with the shift distance as Java takes it *)
Lemma ishl_bit k i : 0 <= i < 32 -> Z.testbit (ishl 1 k) i = (i =? k mod 32).
Proof.
  intros Hi. unfold ishl. rewrite wrap_testbit by lia. change 31 with (Z.ones 5). rewrite Z.land_ones by lia. change (2 ^ 5) with 32.
  rewrite Z.shiftl_1_l, Z.pow2_bits_eqb by lia. apply Z.eqb_sym.
Qed.
Lemma lshl_bit k i : 0 <= i < 64 -> Z.testbit (lshl 1 k) i = (i =? k mod 64).
Proof.
  intros Hi. unfold lshl. rewrite wrap_testbit by lia. change 63 with (Z.ones 6). rewrite Z.land_ones by lia. change (2 ^ 6) with 64.
  rewrite Z.shiftl_1_l, Z.pow2_bits_eqb by lia. apply Z.eqb_sym.
Qed.
Lemma in_signed_weaken n m x : 0 < n <= m -> in_signed n x = true -> in_signed m x = true.
Proof.
  intros H Hx. apply in_signed_spec in Hx. apply in_signed_spec.
  assert (2 ^ (n - 1) <= 2 ^ (m - 1)) by (apply Z.pow_le_mono_r; lia). lia.
Qed.
Lemma land_signed n x y : 0 < n -> in_signed n x = true -> in_signed n y = true -> in_signed n (Z.land x y) = true.
Proof.
  intros Hn Hx Hy. assert (wrap n (Z.land x y) = Z.land x y) as <-; [|apply wrap_in_signed; lia].
  apply Z.bits_inj'. intros i Hi. destruct (Z.lt_ge_cases i n); [apply wrap_testbit; lia|].
  rewrite (signed_high n) by (auto using wrap_in_signed; lia). rewrite <- (signed_high n _ (n - 1)) by (auto using wrap_in_signed; lia).
  rewrite wrap_testbit, !Z.land_spec, !(signed_high n x), !(signed_high n y) by (auto; lia). reflexivity.
Qed.
(* (bits & (1 << k)) != 0 *)
Lemma test_mask m x y k : 0 < m -> in_signed m x = true -> in_signed m y = true -> 0 <= k < m ->
  (forall i, 0 <= i < m -> Z.testbit y i = (i =? k)) -> negb (Z.land x y =? 0) = Z.testbit x k.
Proof.
  intros Hm Hx Hy Hk Hb. destruct (Z.eqb_spec (Z.land x y) 0) as [E|E]; simpl.
  - assert (Z.testbit (Z.land x y) k = false) as F by (rewrite E; apply Z.testbit_0_l).
    rewrite Z.land_spec, Hb, Z.eqb_refl, andb_true_r in F by lia. auto.
  - destruct (Z.testbit x k) eqn:T; auto. exfalso. apply E. apply (signed_ext m); auto using land_signed; [apply in_signed_spec; assert (0 < 2 ^ (m - 1)) by (apply Z.pow_pos_nonneg; lia); lia|].
    intros i Hi. rewrite Z.land_spec, Hb, Z.testbit_0_l by lia. destruct (Z.eqb_spec i k); [subst; rewrite T|rewrite andb_false_r]; reflexivity.
Qed.
Lemma ishl_signed k : in_signed 32 (ishl 1 k) = true.
Proof. apply wrap_in_signed; lia. Qed.
Lemma lshl_signed k : in_signed 64 (lshl 1 k) = true.
Proof. apply wrap_in_signed; lia. Qed.

(* get, for any position: bit number (n-1-pos) modulo the width of the shift, the sign bit being repeated above *)
Lemma byte_get_bit bits p : in_signed 8 bits = true -> byte_get bits p = Z.testbit bits ((7 - p) mod 32).
Proof.
  intros H. apply (test_mask 32); auto using ishl_signed; try lia; [eapply in_signed_weaken; eauto; lia|]. intros. apply ishl_bit; auto.
Qed.
Lemma short_get_bit bits p : in_signed 16 bits = true -> short_get bits p = Z.testbit bits ((15 - p) mod 32).
Proof.
  intros H. apply (test_mask 32); auto using ishl_signed; try lia; [eapply in_signed_weaken; eauto; lia|]. intros. apply ishl_bit; auto.
Qed.
Lemma int_get_bit bits p : in_signed 32 bits = true -> int_get bits p = Z.testbit bits ((31 - p) mod 32).
Proof. intros H. apply (test_mask 32); auto using ishl_signed; try lia. intros. apply ishl_bit; auto. Qed.
Lemma long_get_bit bits p : in_signed 64 bits = true -> long_get bits p = Z.testbit bits ((63 - p) mod 64).
Proof. intros H. apply (test_mask 64); auto using lshl_signed; try lia. intros. apply lshl_bit; auto. Qed.

(* set and clear, bit by bit *)
Lemma byte_set_bit bits p i : 0 <= i < 8 -> Z.testbit (byte_set bits p) i = Z.testbit bits i || (i =? (7 - p) mod 32).
Proof. intros. unfold byte_set. rewrite wrap_testbit, Z.lor_spec, ishl_bit by lia. reflexivity. Qed.
Lemma byte_clear_bit bits p i : 0 <= i < 8 -> Z.testbit (byte_clear bits p) i = Z.testbit bits i && negb (i =? (7 - p) mod 32).
Proof. intros. unfold byte_clear. rewrite wrap_testbit, Z.land_spec, Z.lnot_spec, ishl_bit by lia. reflexivity. Qed.
Lemma short_set_bit bits p i : 0 <= i < 16 -> Z.testbit (short_set bits p) i = Z.testbit bits i || (i =? (15 - p) mod 32).
Proof. intros. unfold short_set. rewrite wrap_testbit, Z.lor_spec, ishl_bit by lia. reflexivity. Qed.
Lemma short_clear_bit bits p i : 0 <= i < 16 -> Z.testbit (short_clear bits p) i = Z.testbit bits i && negb (i =? (15 - p) mod 32).
Proof. intros. unfold short_clear. rewrite wrap_testbit, Z.land_spec, Z.lnot_spec, ishl_bit by lia. reflexivity. Qed.
Lemma int_set_bit bits p i : 0 <= i < 32 -> Z.testbit (int_set bits p) i = Z.testbit bits i || (i =? (31 - p) mod 32).
Proof. intros. unfold int_set. rewrite wrap_testbit, Z.lor_spec, ishl_bit by lia. reflexivity. Qed.
Lemma int_clear_bit bits p i : 0 <= i < 32 -> Z.testbit (int_clear bits p) i = Z.testbit bits i || (i =? (31 - p) mod 32).
Proof. exact (int_set_bit bits p i). Qed.
Lemma long_set_bit bits p i : 0 <= i < 64 -> Z.testbit (long_set bits p) i = Z.testbit bits i || (i =? (63 - p) mod 64).
Proof. intros. unfold long_set. rewrite wrap_testbit, Z.lor_spec, lshl_bit by lia. reflexivity. Qed.
Lemma long_clear_bit bits p i : 0 <= i < 64 -> Z.testbit (long_clear bits p) i = Z.testbit bits i || (i =? (63 - p) mod 64).
Proof. exact (long_set_bit bits p i). Qed.

Section Histories.
  Variables (n : Z) (set clear : Z -> Z -> Z) (get : Z -> Z -> bool).
  Hypothesis Hset : forall bits p, in_signed n (set bits p) = true.
  Hypothesis Hclear : forall bits p, in_signed n (clear bits p) = true.
  Lemma run_signed ops bits : in_signed n bits = true -> in_signed n (run set clear ops bits) = true.
  Proof. unfold run. revert bits; induction ops as [|[p|p] r IH]; intros bits H; cbn [fold_left]; auto. Qed.

  Hypothesis Sset : forall bits p q, in_signed n bits = true -> 0 <= p < n -> 0 <= q < n -> get (set bits p) q = (p =? q) || get bits q.
  Hypothesis Sclear : forall bits p q, in_signed n bits = true -> 0 <= p < n -> 0 <= q < n -> get (clear bits p) q = negb (p =? q) && get bits q.
  Lemma run_spec ops bits q : in_signed n bits = true -> in_range n ops -> 0 <= q < n ->
    get (run set clear ops bits) q = match last_call q ops with Some x => x | None => get bits q end.
  Proof.
    intros Hb Hr Hq. revert bits Hb. unfold run. induction Hr as [|o r Ho Hr IH]; intros bits Hb; auto.
    cbn [fold_left last_call]. rewrite IH by (destruct o; auto). destruct (last_call q r); auto.
    destruct o as [p|p]; cbn [op_pos] in *; [rewrite Sset by auto|rewrite Sclear by auto]; destruct (p =? q); reflexivity.
  Qed.
End Histories.
Section Sticky.
  Variables (n : Z) (set clear : Z -> Z -> Z) (get : Z -> Z -> bool).
  Hypothesis Hset : forall bits p, in_signed n (set bits p) = true.
  Hypothesis Hclear : forall bits p, in_signed n (clear bits p) = true.
  Hypothesis Sset : forall bits p q, in_signed n bits = true -> 0 <= p < n -> 0 <= q < n -> get (set bits p) q = (p =? q) || get bits q.
  Hypothesis Sclear : forall bits p q, in_signed n bits = true -> 0 <= p < n -> 0 <= q < n -> get (clear bits p) q = (p =? q) || get bits q.
  Lemma run_sticky ops bits q : in_signed n bits = true -> in_range n ops -> 0 <= q < n ->
    get (run set clear ops bits) q = existsb (fun o => op_pos o =? q) ops || get bits q.
  Proof.
    intros Hb Hr Hq. revert bits Hb. unfold run. induction Hr as [|o r Ho Hr IH]; intros bits Hb; auto.
    cbn [fold_left existsb]. rewrite IH by (destruct o; auto). destruct o as [p|p]; cbn [op_pos] in *; [rewrite Sset by auto|rewrite Sclear by auto];
      destruct (p =? q), (existsb (fun o => op_pos o =? q) r); reflexivity.
  Qed.
End Sticky.

Lemma byte_signed_set bits p : in_signed 8 (byte_set bits p) = true. Proof. apply wrap_in_signed; lia. Qed.
Lemma byte_signed_clear bits p : in_signed 8 (byte_clear bits p) = true. Proof. apply wrap_in_signed; lia. Qed.
Lemma short_signed_set bits p : in_signed 16 (short_set bits p) = true. Proof. apply wrap_in_signed; lia. Qed.
Lemma short_signed_clear bits p : in_signed 16 (short_clear bits p) = true. Proof. apply wrap_in_signed; lia. Qed.
Lemma int_signed_set bits p : in_signed 32 (int_set bits p) = true. Proof. apply wrap_in_signed; lia. Qed.
Lemma int_signed_clear bits p : in_signed 32 (int_clear bits p) = true. Proof. apply wrap_in_signed; lia. Qed.
Lemma long_signed_set bits p : in_signed 64 (long_set bits p) = true. Proof. apply wrap_in_signed; lia. Qed.
Lemma long_signed_clear bits p : in_signed 64 (long_clear bits p) = true. Proof. apply wrap_in_signed; lia. Qed.

Theorem byte_history ops bits q : in_signed 8 bits = true -> in_range 8 ops -> 0 <= q < 8 ->
  byte_get (run byte_set byte_clear ops bits) q = match last_call q ops with Some x => x | None => byte_get bits q end.
Proof.
  apply run_spec; auto using byte_signed_set, byte_signed_clear; intros b p r H Hp Hr; rewrite !byte_get_bit by auto using byte_signed_set, byte_signed_clear.
  - rewrite byte_set_bit by lia. rewrite orb_comm. f_equal. lia.
  - rewrite byte_clear_bit by lia. rewrite andb_comm. do 2 f_equal. lia.
Qed.
Theorem short_history ops bits q : in_signed 16 bits = true -> in_range 16 ops -> 0 <= q < 16 ->
  short_get (run short_set short_clear ops bits) q = match last_call q ops with Some x => x | None => short_get bits q end.
Proof.
  apply run_spec; auto using short_signed_set, short_signed_clear; intros b p r H Hp Hr; rewrite !short_get_bit by auto using short_signed_set, short_signed_clear.
  - rewrite short_set_bit by lia. rewrite orb_comm. f_equal. lia.
  - rewrite short_clear_bit by lia. rewrite andb_comm. do 2 f_equal. lia.
Qed.
Theorem int_history ops bits q : in_signed 32 bits = true -> in_range 32 ops -> 0 <= q < 32 ->
  int_get (run int_set int_clear ops bits) q = existsb (fun o => op_pos o =? q) ops || int_get bits q.
Proof.
  apply run_sticky; auto using int_signed_set, int_signed_clear; intros b p r H Hp Hr; rewrite !int_get_bit by auto using int_signed_set, int_signed_clear.
  - rewrite int_set_bit by lia. rewrite orb_comm. f_equal. lia.
  - rewrite int_clear_bit by lia. rewrite orb_comm. f_equal. lia.
Qed.
Theorem long_history ops bits q : in_signed 64 bits = true -> in_range 64 ops -> 0 <= q < 64 ->
  long_get (run long_set long_clear ops bits) q = existsb (fun o => op_pos o =? q) ops || long_get bits q.
Proof.
  apply run_sticky; auto using long_signed_set, long_signed_clear; intros b p r H Hp Hr; rewrite !long_get_bit by auto using long_signed_set, long_signed_clear.
  - rewrite long_set_bit by lia. rewrite orb_comm. f_equal. lia.
  - rewrite long_clear_bit by lia. rewrite orb_comm. f_equal. lia.
Qed.

(* ---- reading continuation bytes ---- *)
Lemma read_one b x rest : wf b -> readable b = x :: rest -> read_bytes 1 b = (inr [x], set_ridx b (ridx b + 1)).
Proof. intros Hb Hr. exact (read_bytes_ok b [x] rest Hb Hr). Qed.
Lemma get_one x : get_int BE [x] = wrap 8 x.
Proof. unfold get_int. simpl. rewrite Z.lor_0_r. reflexivity. Qed.
Lemma low7 x : Z.land (wrap 8 x) 127 = x mod 128.
Proof.
  change 127 with (Z.ones 7). rewrite Z.land_ones by lia. change (2 ^ 7) with 128.
  pose proof (wrap_mod 8 x ltac:(lia)). change (2 ^ 8) with 256 in *. lia.
Qed.
Lemma bit7 x : 0 <= x < 256 -> negb (Z.land (wrap 8 x) 128 =? 0) = (128 <=? x).
Proof.
  intros Hx. rewrite (test_mask 9 _ _ 7); try lia.
  - rewrite wrap_testbit by lia. destruct (Z.leb_spec 128 x).
    + rewrite Z.testbit_true by lia. change (2 ^ 7) with 128. lia.
    + apply (nonneg_high x 7); lia.
  - eapply in_signed_weaken; [|apply wrap_in_signed]; lia.
  - reflexivity.
  - intros i Hi. change 128 with (2 ^ 7). rewrite Z.pow2_bits_eqb by lia. apply Z.eqb_sym.
Qed.

Section Loop.
  Variables (shl : Z -> Z -> Z) (w : Z).
  Hypothesis Hw : w = 32 \/ w = 64.
  Hypothesis Hshl : forall a s j, 0 <= j < w -> Z.testbit (shl a s) j = Z.testbit a (j - s mod w).
  Lemma mod_w_wrap z : wrap 32 z mod 32 = z mod 32.
  Proof. pose proof (wrap_mod 32 z ltac:(lia)). change (2 ^ 32) with 4294967296 in *. lia. Qed.
  Lemma mod_w_wrap' z : wrap 32 z mod w = z mod w.
  Proof. pose proof (wrap_mod 32 z ltac:(lia)). change (2 ^ 32) with 4294967296 in *. destruct Hw as [->| ->]; lia. Qed.
  Lemma grouped_shift bytes s t j : s mod w = t mod w -> grouped w bytes s j = grouped w bytes t j.
  Proof.
    revert s t; induction bytes as [|x r IH]; intros s t H; auto. cbn [grouped]. rewrite H. f_equal. apply IH.
    destruct Hw as [->| ->]; lia.
  Qed.
  Lemma read_loop_stops hs x rest fuel bits shift b : wf b -> readable b = hs ++ x :: rest ->
    Forall (fun h => 128 <= h) hs -> x < 128 -> (length hs < fuel)%nat ->
    exists r, read_loop shl w fuel bits shift b = (None, r, set_ridx b (ridx b + S (length hs))) /\ in_signed w r = true
      /\ forall j, 0 <= j < w -> Z.testbit r j = Z.testbit bits j || grouped w (hs ++ [x]) shift j.
  Proof.
    intros Hb Hr Hh Hx Hf. revert fuel bits shift b Hb Hr Hf. induction Hh as [|h hs Hh Hs IH]; intros fuel bits shift b Hb Hr Hf.
    - destruct fuel as [|fuel]; [simpl in Hf; lia|]. cbn [read_loop]. rewrite (read_one b x rest Hb Hr).
      cbn zeta. rewrite get_one, low7. assert (Hx0 : 0 <= x < 256).
      { pose proof (Forall_skipn _ (ridx b) _ (content_bytes _ Hb)) as F. change (skipn _ _) with (readable b) in F. rewrite Hr in F. inversion F; auto. }
      rewrite bit7 by exact Hx0. rewrite (proj2 (Z.leb_gt _ _)) by exact Hx. eexists. split; [reflexivity|]. split; [apply wrap_in_signed; destruct Hw; lia|].
      intros j Hj. rewrite wrap_testbit, Z.lor_spec, Hshl by exact Hj. cbn [grouped app]. rewrite orb_false_r. reflexivity.
    - destruct fuel as [|fuel]; [simpl in Hf; lia|]. cbn [read_loop]. rewrite (read_one b h (hs ++ x :: rest) Hb Hr).
      cbn zeta. rewrite get_one, low7. assert (Hx0 : 0 <= h < 256).
      { pose proof (Forall_skipn _ (ridx b) _ (content_bytes _ Hb)) as F. change (skipn _ _) with (readable b) in F. rewrite Hr in F. inversion F; auto. }
      rewrite bit7 by exact Hx0. rewrite (proj2 (Z.leb_le _ _)) by exact Hh.
      destruct (IH fuel (wrap w (Z.lor bits (shl (h mod 128) shift))) (wrap 32 (shift + 7)) (set_ridx b (ridx b + 1))) as (r & E & R & B).
      + apply wf_advance; auto. rewrite Hr. simpl. lia.
      + rewrite readable_advance, Hr. reflexivity.
      + simpl in Hf. lia.
      + exists r. split; [|split; [exact R|]].
        * rewrite E. unfold set_ridx; simpl. rewrite <- Nat.add_assoc. reflexivity.
        * intros j Hj. rewrite B, wrap_testbit, Z.lor_spec, Hshl by exact Hj. cbn [grouped app].
          rewrite (grouped_shift _ (wrap 32 (shift + 7)) (shift + 7)) by apply mod_w_wrap'. apply eq_sym, orb_assoc.
  Qed.
  Lemma read_loop_runs_out fuel bits shift b : wf b -> Forall (fun h => 128 <= h) (readable b) -> (length (readable b) < fuel)%nat ->
    exists r, read_loop shl w fuel bits shift b = (Some IOOBE, r, set_ridx b (widx b)).
  Proof.
    intros Hb Hh Hf. remember (readable b) as hs eqn:Hr. symmetry in Hr. revert fuel bits shift b Hb Hr Hf.
    induction Hh as [|h hs Hh Hs IH]; intros fuel bits shift b Hb Hr Hf.
    - destruct fuel as [|fuel]; [simpl in Hf; lia|]. cbn [read_loop]. pose proof (readable_length _ Hb) as L. rewrite Hr in L. simpl in L. pose proof (wf_ridx _ Hb).
      unfold read_bytes. rewrite (proj2 (Nat.leb_gt _ _)) by lia. exists bits. assert (widx b = ridx b) as -> by lia. destruct b; reflexivity.
    - destruct fuel as [|fuel]; [simpl in Hf; lia|]. cbn [read_loop]. rewrite (read_one b h hs Hb Hr).
      cbn zeta. rewrite get_one, low7. assert (Hx0 : 0 <= h < 256).
      { pose proof (Forall_skipn _ (ridx b) _ (content_bytes _ Hb)) as F. change (skipn _ _) with (readable b) in F. rewrite Hr in F. inversion F; auto. }
      rewrite bit7 by exact Hx0. rewrite (proj2 (Z.leb_le _ _)) by exact Hh.
      destruct (IH fuel (wrap w (Z.lor bits (shl (h mod 128) shift))) (wrap 32 (shift + 7)) (set_ridx b (ridx b + 1))) as (r & E).
      + apply wf_advance; auto. rewrite Hr. simpl. lia.
      + rewrite readable_advance, Hr. reflexivity.
      + simpl in Hf. lia.
      + exists r. rewrite E. reflexivity.
  Qed.
End Loop.
Lemma ishl_testbit a s j : 0 <= j < 32 -> Z.testbit (ishl a s) j = Z.testbit a (j - s mod 32).
Proof.
  intros Hj. unfold ishl. rewrite wrap_testbit by lia. change 31 with (Z.ones 5). rewrite Z.land_ones by lia. change (2 ^ 5) with 32. apply Z.shiftl_spec. lia.
Qed.
Lemma lshl_testbit a s j : 0 <= j < 64 -> Z.testbit (lshl a s) j = Z.testbit a (j - s mod 64).
Proof.
  intros Hj. unfold lshl. rewrite wrap_testbit by lia. change 63 with (Z.ones 6). rewrite Z.land_ones by lia. change (2 ^ 6) with 64. apply Z.shiftl_spec. lia.
Qed.
Theorem int_read_stops bits0 b hs x rest : wf b -> readable b = hs ++ x :: rest -> Forall (fun h => 128 <= h) hs -> x < 128 ->
  exists r, int_read bits0 b = (None, r, set_ridx b (ridx b + S (length hs))) /\ in_signed 32 r = true
    /\ forall j, 0 <= j < 32 -> Z.testbit r j = grouped 32 (hs ++ [x]) 0 j.
Proof.
  intros Hb Hr Hh Hx. destruct (read_loop_stops ishl 32 (or_introl eq_refl) ishl_testbit hs x rest (S (length (readable b))) 0 0 b Hb Hr Hh Hx) as (r & E & R & B).
  { rewrite Hr, app_length. simpl. lia. } exists r. split; [exact E|split; [exact R|]]. intros j Hj. rewrite B by exact Hj. rewrite Z.testbit_0_l. reflexivity.
Qed.
Theorem long_read_stops bits0 b hs x rest : wf b -> readable b = hs ++ x :: rest -> Forall (fun h => 128 <= h) hs -> x < 128 ->
  exists r, long_read bits0 b = (None, r, set_ridx b (ridx b + S (length hs))) /\ in_signed 64 r = true
    /\ forall j, 0 <= j < 64 -> Z.testbit r j = grouped 64 (hs ++ [x]) 0 j.
Proof.
  intros Hb Hr Hh Hx. destruct (read_loop_stops lshl 64 (or_intror eq_refl) lshl_testbit hs x rest (S (length (readable b))) 0 0 b Hb Hr Hh Hx) as (r & E & R & B).
  { rewrite Hr, app_length. simpl. lia. } exists r. split; [exact E|split; [exact R|]]. intros j Hj. rewrite B by exact Hj. rewrite Z.testbit_0_l. reflexivity.
Qed.
Theorem int_read_runs_out bits0 b : wf b -> Forall (fun h => 128 <= h) (readable b) ->
  exists r, int_read bits0 b = (Some IOOBE, r, set_ridx b (widx b)).
Proof. intros Hb Hr. apply (read_loop_runs_out ishl 32); auto using ishl_testbit. Qed.
Theorem long_read_runs_out bits0 b : wf b -> Forall (fun h => 128 <= h) (readable b) ->
  exists r, long_read bits0 b = (Some IOOBE, r, set_ridx b (widx b)).
Proof. intros Hb Hr. apply (read_loop_runs_out lshl 64); auto using lshl_testbit. Qed.

(* every content has one of the two forms *)
Lemma stop_or_not (bs : list Z) : Forall (fun h => 128 <= h) bs \/ exists hs x rest, bs = hs ++ x :: rest /\ Forall (fun h => 128 <= h) hs /\ x < 128.
Proof.
  induction bs as [|h r IH]; [left; constructor|]. destruct (Z.lt_ge_cases h 128).
  - right. exists [], h, r. repeat split; auto.
  - destruct IH as [IH|(hs & x & rest & -> & F & Hx)]; [left; constructor; auto; lia|]. right. exists (h :: hs), x, rest. repeat split; auto; constructor; auto; lia.
Qed.

(* ---- writing ---- *)
Lemma write_groups_wrote gs b : wf b -> wrote b (map (fun g => g mod 256) gs) (write_groups gs b).
Proof.
  revert b; induction gs as [|g r IH]; intros b Hb; [apply wrote_nil; auto|].
  cbn [write_groups map]. change ((g mod 256) :: map (fun g0 => g0 mod 256) r) with ([g mod 256] ++ map (fun g0 => g0 mod 256) r).
  assert (E : (match write_int BE 1 g b with (None, b') => write_groups r b' | x => x end) = andthen (write_int BE 1 g b) (write_groups r)).
  { destruct (write_int BE 1 g b) as [[e|] b']; reflexivity. }
  rewrite E. apply wrote_seq; auto. rewrite <- (number1 BE g). apply wrote_int; auto.
Qed.
Definition group (bits k : Z) (more : bool) : Z := Z.shiftr bits k mod 128 + (if more then 128 else 0).
Lemma group_small x : 0 <= x < 128 -> wrap 8 x mod 256 = x.
Proof. intros. rewrite wrap_id; [lia|lia|]. apply in_signed_spec. change (2 ^ (8 - 1)) with 128. lia. Qed.
Lemma lor_128 x : 0 <= x < 128 -> Z.lor x 128 = x + 128.
Proof.
  intros. assert (D : Z.land x 128 = 0); [|rewrite Z.add_nocarry_lxor, Z.lxor_lor by exact D; reflexivity].
  apply Z.bits_inj'. intros i Hi. rewrite Z.land_spec, Z.testbit_0_l. change 128 with (2 ^ 7). rewrite Z.pow2_bits_eqb by lia.
  destruct (Z.eqb_spec 7 i); [|apply andb_false_r]. subst i. rewrite (nonneg_high x 7); auto; lia.
Qed.
Lemma group_more x : 0 <= x < 128 -> wrap 8 (Z.lor (wrap 8 x) 128) mod 256 = x + 128.
Proof.
  intros. rewrite (wrap_id 8 x); [|lia|apply in_signed_spec; change (2 ^ (8 - 1)) with 128; lia]. rewrite lor_128 by lia.
  change 256 with (2 ^ 8). rewrite wrap_mod by lia. change (2 ^ 8) with 256. lia.
Qed.
Lemma int_group_byte bits i : In i [0; 1; 2; 3] -> int_group bits i mod 256 = group bits (24 - 7 * i) (i <? 3).
Proof.
  intros Hi. unfold int_group, group, ishr. change 127 with (Z.ones 7). rewrite Z.land_ones by lia. change (2 ^ 7) with 128.
  assert (Z.land (24 - i * 7) 31 = 24 - 7 * i) as -> by (simpl in Hi; destruct Hi as [<-|[<-|[<-|[<-|[]]]]]; reflexivity).
  assert (0 <= Z.shiftr bits (24 - 7 * i) mod 128 < 128) by (apply Z.mod_pos_bound; lia).
  destruct (i <? 3); cbn zeta; [apply group_more; auto|rewrite Z.add_0_r; apply group_small; auto].
Qed.
Lemma long_group_byte bits i : In i [0; 1; 2; 3; 4; 5; 6; 7] -> long_group bits i mod 256 = group bits (49 - 7 * i) (i <? 7).
Proof.
  intros Hi. unfold long_group, group, lshr. change 127 with (Z.ones 7). rewrite Z.land_ones by lia. change (2 ^ 7) with 128.
  assert (Z.land (49 - i * 7) 63 = 49 - 7 * i) as -> by (simpl in Hi; repeat (destruct Hi as [<-|Hi]; [reflexivity|]); contradiction).
  assert (0 <= Z.shiftr bits (49 - 7 * i) mod 128 < 128) by (apply Z.mod_pos_bound; lia).
  destruct (i <? 7); cbn zeta; [apply group_more; auto|rewrite Z.add_0_r; apply group_small; auto].
Qed.
Definition int_bytes (bits : Z) := map (fun i => group bits (24 - 7 * i) (i <? 3)) [0; 1; 2; 3].
Definition long_bytes (bits : Z) := map (fun i => group bits (49 - 7 * i) (i <? 7)) [0; 1; 2; 3; 4; 5; 6; 7].
Theorem int_write_wrote bits b : wf b -> wrote b (int_bytes bits) (int_write bits b).
Proof.
  intros Hb. unfold int_write, int_bytes. erewrite <- map_ext_in with (f := fun i => int_group bits i mod 256) by (intros; apply int_group_byte; auto).
  rewrite <- (map_map (int_group bits) (fun g => g mod 256)). apply write_groups_wrote; auto.
Qed.
Theorem long_write_wrote bits b : wf b -> wrote b (long_bytes bits) (long_write bits b).
Proof.
  intros Hb. unfold long_write, long_bytes. erewrite <- map_ext_in with (f := fun i => long_group bits i mod 256) by (intros; apply long_group_byte; auto).
  rewrite <- (map_map (long_group bits) (fun g => g mod 256)). apply write_groups_wrote; auto.
Qed.
Lemma group_bit bits k more j : 0 <= k -> Z.testbit (group bits k more mod 128) j = (0 <=? j) && (j <? 7) && Z.testbit bits (j + k).
Proof.
  intros Hk. assert (group bits k more mod 128 = Z.shiftr bits k mod 2 ^ 7) as ->.
  { unfold group. change (2 ^ 7) with 128. destruct more; [|rewrite Z.add_0_r]; lia. }
  destruct (Z.leb_spec 0 j); [|rewrite Z.testbit_neg_r by lia; reflexivity]. destruct (Z.ltb_spec j 7); cbn [andb].
  - rewrite Z.mod_pow2_bits_low, Z.shiftr_spec by lia. reflexivity.
  - apply Z.mod_pow2_bits_high. lia.
Qed.
Lemma group_high bits k : 128 <= group bits k true.
Proof. unfold group. assert (0 <= Z.shiftr bits k mod 128 < 128) by (apply Z.mod_pos_bound; lia). lia. Qed.
Lemma group_last bits k : group bits k false < 128.
Proof. unfold group. assert (0 <= Z.shiftr bits k mod 128 < 128) by (apply Z.mod_pos_bound; lia). lia. Qed.

Theorem int_round bits bits0 b rest : wf b -> readable b = int_bytes bits ++ rest ->
  exists r, int_read bits0 b = (None, r, set_ridx b (ridx b + 4)) /\ in_signed 32 r = true
    /\ forall j, 0 <= j < 32 -> Z.testbit r j = (j <? 28) && Z.testbit bits (24 + j - 14 * (j / 7)).
Proof.
  intros Hb Hr.
  destruct (int_read_stops bits0 b [group bits 24 true; group bits 17 true; group bits 10 true] (group bits 3 false) rest) as (r & E & R & B); auto.
  - repeat constructor; apply group_high.
  - apply group_last.
  - exists r. split; [exact E|split; [exact R|]]. intros j Hj. rewrite B by exact Hj. cbn [grouped app]. rewrite !group_bit by lia.
    change (0 mod 32) with 0. change ((0 + 7) mod 32) with 7. change ((0 + 7 + 7) mod 32) with 14. change ((0 + 7 + 7 + 7) mod 32) with 21.
    assert (D : j / 7 = 0 \/ j / 7 = 1 \/ j / 7 = 2 \/ j / 7 = 3 \/ j / 7 = 4) by lia.
    destruct D as [D|[D|[D|[D|D]]]];
      repeat match goal with |- context [?x <=? ?y] => first [rewrite (proj2 (Z.leb_le x y)) by lia | rewrite (proj2 (Z.leb_gt x y)) by lia] end;
      repeat match goal with |- context [?x <? ?y] => first [rewrite (proj2 (Z.ltb_lt x y)) by lia | rewrite (proj2 (Z.ltb_ge x y)) by lia] end;
      cbn [andb orb]; rewrite ?orb_false_r, ?D; try reflexivity; f_equal; lia.
Qed.
Theorem long_round bits bits0 b rest : wf b -> readable b = long_bytes bits ++ rest ->
  exists r, long_read bits0 b = (None, r, set_ridx b (ridx b + 8)) /\ in_signed 64 r = true
    /\ forall j, 0 <= j < 64 -> Z.testbit r j = (j <? 56) && Z.testbit bits (49 + j - 14 * (j / 7)).
Proof.
  intros Hb Hr.
  destruct (long_read_stops bits0 b [group bits 49 true; group bits 42 true; group bits 35 true; group bits 28 true; group bits 21 true; group bits 14 true; group bits 7 true]
    (group bits 0 false) rest) as (r & E & R & B); auto.
  - repeat constructor; apply group_high.
  - apply group_last.
  - exists r. split; [exact E|split; [exact R|]]. intros j Hj. rewrite B by exact Hj. cbn [grouped app]. rewrite !group_bit by lia.
    change (0 mod 64) with 0. change ((0 + 7) mod 64) with 7. change ((0 + 7 + 7) mod 64) with 14. change ((0 + 7 + 7 + 7) mod 64) with 21.
    change ((0 + 7 + 7 + 7 + 7) mod 64) with 28. change ((0 + 7 + 7 + 7 + 7 + 7) mod 64) with 35. change ((0 + 7 + 7 + 7 + 7 + 7 + 7) mod 64) with 42.
    change ((0 + 7 + 7 + 7 + 7 + 7 + 7 + 7) mod 64) with 49.
    assert (D : j / 7 = 0 \/ j / 7 = 1 \/ j / 7 = 2 \/ j / 7 = 3 \/ j / 7 = 4 \/ j / 7 = 5 \/ j / 7 = 6 \/ j / 7 = 7 \/ j / 7 >= 8) by lia.
    destruct D as [D|[D|[D|[D|[D|[D|[D|[D|D]]]]]]]];
      repeat match goal with |- context [?x <=? ?y] => first [rewrite (proj2 (Z.leb_le x y)) by lia | rewrite (proj2 (Z.leb_gt x y)) by lia] end;
      repeat match goal with |- context [?x <? ?y] => first [rewrite (proj2 (Z.ltb_lt x y)) by lia | rewrite (proj2 (Z.ltb_ge x y)) by lia] end;
      cbn [andb orb]; rewrite ?orb_false_r, ?D; try reflexivity; f_equal; lia.
Qed.

(* ---- what survives ---- *)
Definition survivor := 2 ^ 3 + 2 ^ 9 + 2 ^ 11 + 2 ^ 15 + 2 ^ 19 + 2 ^ 21 + 2 ^ 27.
(* follow a bit through repeated round trips until it falls out (false) or reaches bit 3 (true) *)
Fixpoint chase (fuel : nat) (j : Z) : option bool :=
  match fuel with
  | O => None
  | S k => if j =? 3 then Some true else if j <? 28 then chase k (24 + j - 14 * (j / 7)) else Some false
  end.
Lemma chase_ok (T : Z -> bool) fuel j c : (forall i, 0 <= i < 32 -> T i = (i <? 28) && T (24 + i - 14 * (i / 7))) ->
  0 <= j < 32 -> chase fuel j = Some c -> T j = c && T 3.
Proof.
  intros H. revert j; induction fuel as [|k IH]; intros j Hj E; [discriminate|]. cbn [chase] in E.
  destruct (Z.eqb_spec j 3); [subst; inversion E; reflexivity|]. rewrite H by exact Hj. destruct (Z.ltb_spec j 28); cbn [andb].
  - apply IH; auto. lia.
  - inversion E. reflexivity.
Qed.
Lemma chase_all i : 0 <= i < 32 -> chase 12 i = Some (Z.testbit survivor i).
Proof.
  intros Hi. assert (A : forallb (fun i => match chase 12 i with Some c => Bool.eqb c (Z.testbit survivor i) | None => false end) (map Z.of_nat (seq 0 32)) = true) by reflexivity.
  rewrite forallb_forall in A. assert (Hi' : In i (map Z.of_nat (seq 0 32))) by (apply in_map_iff; exists (Z.to_nat i); split; [lia|apply in_seq; lia]).
  specialize (A i Hi'). destruct (chase 12 i) as [c|]; [|discriminate]. f_equal. apply eqb_prop. exact A.
Qed.
Lemma int_fixed bits r : in_signed 32 bits = true -> in_signed 32 r = true ->
  (forall j, 0 <= j < 32 -> Z.testbit r j = (j <? 28) && Z.testbit bits (24 + j - 14 * (j / 7))) ->
  (r = bits <-> bits = 0 \/ bits = survivor).
Proof.
  intros Hb Hr B. split.
  - intros ->. assert (Y : forall i, 0 <= i < 32 -> Z.testbit bits i = Z.testbit survivor i && Z.testbit bits 3).
    { intros i Hi. apply (chase_ok (Z.testbit bits) 12); auto. apply chase_all; auto. }
    destruct (Z.testbit bits 3) eqn:T3; [right|left]; (apply (signed_ext 32); [lia|exact Hb|reflexivity|]);
      intros i Hi; rewrite Y by exact Hi; [apply andb_true_r|rewrite Z.testbit_0_l; apply andb_false_r].
  - intros [-> | ->]; (apply (signed_ext 32); [lia|exact Hr|exact Hb|]); intros i Hi; rewrite B by exact Hi.
    + rewrite !Z.testbit_0_l, andb_false_r. reflexivity.
    + assert (Hi' : In i (map Z.of_nat (seq 0 32))) by (apply in_map_iff; exists (Z.to_nat i); split; [lia|apply in_seq; lia]).
      cbn in Hi'. repeat (destruct Hi' as [<-|Hi']; [reflexivity|]). contradiction.
Qed.
Lemma long_fixed bits r : in_signed 64 bits = true -> in_signed 64 r = true ->
  (forall j, 0 <= j < 64 -> Z.testbit r j = (j <? 56) && Z.testbit bits (49 + j - 14 * (j / 7))) ->
  (r = bits <-> 0 <= bits < 2 ^ 56 /\ forall i, 0 <= i < 8 -> Z.shiftr bits (7 * i) mod 128 = Z.shiftr bits (7 * (7 - i)) mod 128).
Proof.
  intros Hb Hr B. split.
  - intros ->. assert (P : 0 <= bits).
    { pose proof (signed_high 64 bits 63 ltac:(lia) Hb ltac:(lia)) as S. rewrite B in S by lia. simpl in S. lia. }
    split; [split; [exact P|]|].
    + assert (bits mod 2 ^ 56 = bits) as <-; [|apply Z.mod_pos_bound; lia]. apply Z.bits_inj'. intros i Hi.
      destruct (Z.lt_ge_cases i 56); [apply Z.mod_pow2_bits_low; lia|]. rewrite Z.mod_pow2_bits_high by lia.
      destruct (Z.lt_ge_cases i 64).
      * rewrite B by lia. rewrite (proj2 (Z.ltb_ge _ _)) by lia. reflexivity.
      * rewrite (signed_high 64) by (auto; lia). lia.
    + intros i Hi. change 128 with (2 ^ 7). apply Z.bits_inj'. intros k Hk. destruct (Z.lt_ge_cases k 7); [|rewrite !Z.mod_pow2_bits_high by lia; reflexivity].
      rewrite !Z.mod_pow2_bits_low, !Z.shiftr_spec by lia. rewrite B by lia. rewrite (proj2 (Z.ltb_lt _ _)) by lia. cbn [andb]. f_equal.
      assert ((k + 7 * i) / 7 = i) as -> by lia. lia.
  - intros [R G]. apply (signed_ext 64); [lia|exact Hr|exact Hb|]. intros j Hj. rewrite B by exact Hj. destruct (Z.ltb_spec j 56); cbn [andb].
    + specialize (G (j / 7) ltac:(lia)). apply (f_equal (fun z => Z.testbit z (j mod 7))) in G. change 128 with (2 ^ 7) in G.
      rewrite !Z.mod_pow2_bits_low, !Z.shiftr_spec in G by lia. replace (j mod 7 + 7 * (j / 7)) with j in G by lia. rewrite G. f_equal. lia.
    + symmetry. apply (nonneg_high bits 56); lia.
Qed.

(* ---- the byte and short maps ---- *)
Theorem byte_round bits bits0 b rest : in_signed 8 bits = true -> wf b -> readable b = number BE 1 bits ++ rest ->
  byte_read bits0 b = (None, bits, set_ridx b (ridx b + 1)).
Proof.
  intros Hs Hb Hr. unfold byte_read. pose proof (read_bytes_ok b _ rest Hb Hr) as E. rewrite number_length in E. rewrite E.
  rewrite get_int_number by lia. rewrite wrap_id by (auto; lia). reflexivity.
Qed.
Definition short_bytes (bits : Z) : list Z := [Z.shiftr bits 8 mod 128 + 128; bits mod 256].
Theorem short_write_wrote bits b : in_signed 16 bits = true -> wf b -> wrote b (short_bytes bits) (short_write bits b).
Proof.
  intros Hs Hb. unfold short_write, short_bytes. set (h := wrap 8 (Z.land (ishr bits 8) 255)).
  assert (Eh : wrap 8 (Z.lor h 128) mod 256 = Z.shiftr bits 8 mod 128 + 128).
  { subst h. unfold ishr. change (Z.land 8 31) with 8. change 255 with (Z.ones 8). rewrite Z.land_ones by lia.
    change 256 with (2 ^ 8) at 1. rewrite wrap_mod by lia.
    assert (0 <= Z.shiftr bits 8 mod 128 < 128) as Hg by (apply Z.mod_pos_bound; lia).
    transitivity (Z.lor (Z.shiftr bits 8 mod 128) 128).
    - apply Z.bits_inj'. intros i Hi. destruct (Z.lt_ge_cases i 8).
      + rewrite Z.mod_pow2_bits_low, !Z.lor_spec, wrap_testbit, Z.mod_pow2_bits_low by lia. change 128 with (2 ^ 7). rewrite Z.pow2_bits_eqb by lia.
        destruct (Z.eqb_spec 7 i); [rewrite !orb_true_r; reflexivity|]. rewrite !orb_false_r, Z.mod_pow2_bits_low by lia. reflexivity.
      + rewrite Z.mod_pow2_bits_high by lia. rewrite Z.lor_spec. rewrite (nonneg_high _ 7) by lia. replace (Z.testbit 128 i) with (Z.testbit (2 ^ 7) i) by reflexivity. rewrite Z.pow2_bits_eqb by lia. rewrite (proj2 (Z.eqb_neq _ _)) by lia. reflexivity.
    - apply lor_128. lia. }
  assert (El : wrap 8 (Z.land bits 255) mod 256 = bits mod 256).
  { change 255 with (Z.ones 8). rewrite Z.land_ones by lia. change 256 with (2 ^ 8). rewrite wrap_mod by lia. apply Z.mod_mod. lia. }
  cbn zeta. pose proof (number1 BE (wrap 8 (Z.lor h 128))) as N1. pose proof (number1 BE (wrap 8 (Z.land bits 255))) as N2. rewrite Eh in N1. rewrite El in N2.
  change [?x; ?y] with ([x] ++ [y]). rewrite <- N1, <- N2.
  pose proof (wrote_seq b _ (number BE 1 (wrap 8 (Z.land bits 255))) _ (write_int BE 1 (wrap 8 (Z.land bits 255))) Hb (wrote_int BE 1 (wrap 8 (Z.lor h 128)) b Hb)) as W.
  unfold andthen in W. destruct (write_int BE 1 (wrap 8 (Z.lor h 128)) b) as [[e|] b']; apply W; intros; apply wrote_int; auto.
Qed.
Theorem short_round bits bits0 b rest : in_signed 16 bits = true -> wf b -> readable b = short_bytes bits ++ rest ->
  exists r, short_read bits0 b = (None, r, set_ridx b (ridx b + 2)) /\ in_signed 16 r = true
    /\ forall j, 0 <= j < 16 -> Z.testbit r j = negb (j =? 15) && negb (j =? 7) && Z.testbit bits j.
Proof.
  intros Hs Hb Hr. unfold short_read. unfold short_bytes in Hr.
  rewrite (read_one b (Z.shiftr bits 8 mod 128 + 128) ([bits mod 256] ++ rest) Hb Hr).
  rewrite (read_one (set_ridx b (ridx b + 1)) (bits mod 256) rest).
  - rewrite !get_one, !low7. eexists. split; [|split].
    + f_equal. unfold set_ridx; simpl. rewrite <- Nat.add_assoc. reflexivity.
    + apply wrap_in_signed; lia.
    + intros j Hj. rewrite wrap_testbit, Z.lor_spec, ishl_testbit by lia. change (8 mod 32) with 8.
      replace ((Z.shiftr bits 8 mod 128 + 128) mod 128) with (Z.shiftr bits 8 mod 2 ^ 7) by (change (2 ^ 7) with 128; lia).
      replace ((bits mod 256) mod 128) with (bits mod 2 ^ 7) by (change (2 ^ 7) with 128; lia).
      destruct (Z.lt_ge_cases j 8).
      * rewrite (Z.testbit_neg_r _ (j - 8)) by lia. destruct (Z.eqb_spec j 7); [subst j; rewrite Z.mod_pow2_bits_high by lia; reflexivity|].
        rewrite Z.mod_pow2_bits_low by lia. rewrite (proj2 (Z.eqb_neq j 15)) by lia. reflexivity.
      * rewrite (Z.mod_pow2_bits_high bits) by lia. rewrite orb_false_r. rewrite (proj2 (Z.eqb_neq j 7)) by lia. rewrite andb_true_r.
        destruct (Z.eqb_spec j 15); [subst j; rewrite Z.mod_pow2_bits_high by lia; reflexivity|].
        rewrite Z.mod_pow2_bits_low, Z.shiftr_spec by lia. simpl. f_equal. lia.
  - apply wf_advance; auto. rewrite Hr. simpl. lia.
  - rewrite readable_advance, Hr. reflexivity.
Qed.
