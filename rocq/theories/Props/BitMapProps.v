(* C06-C11, C48: the bit maps.  A map is the value of its field bits; in_signed n says it has the field's type. *)
From Coq Require Import ZArith List Bool Lia ZifyBool.
From Verif.Model Require Import JavaPrim ByteBuf BitMap.
From Verif.Spec Require Import Bytes Buffers Maps.
From Verif.Proofs Require Import BytesFacts BufFacts CodecFacts BitMapFacts.
Import ListNotations.
Open Scope Z_scope.
Ltac Zify.zify_post_hook ::= Z.div_mod_to_equations.

Definition map_buf (bs : list Z) : bytebuf :=
  {| arr := bs ++ [255; 255]; ridx := 1; widx := length bs; maxcap := 64; cs_slack := true; policy := {| extra := fun n => n; fill := fun _ => 7 |} |}.
Definition wire_of (r : option exn * bytebuf) (b : bytebuf) : list Z := skipn (widx b) (content (snd r)).

(* ---- C06 ---- *)
Theorem C06_byte_map_is_a_set : forall ops bits q, in_signed 8 bits = true -> in_range 8 ops -> 0 <= q < 8 ->
  byte_get (run byte_set byte_clear ops bits) q = match last_call q ops with Some x => x | None => byte_get bits q end.
Proof. exact byte_history. Qed.
Theorem C06_short_map_is_a_set : forall ops bits q, in_signed 16 bits = true -> in_range 16 ops -> 0 <= q < 16 ->
  short_get (run short_set short_clear ops bits) q = match last_call q ops with Some x => x | None => short_get bits q end.
Proof. exact short_history. Qed.
(* a new map has no position set, and two maps with the same positions are the same map *)
Theorem C06_new_map_empty : forall q, byte_get 0 q = false /\ short_get 0 q = false.
Proof. intros q. unfold byte_get, short_get. rewrite !Z.land_0_l. auto. Qed.
Theorem C06_positions_determine_map : forall x y, 
  (in_signed 8 x = true -> in_signed 8 y = true -> (forall q, 0 <= q < 8 -> byte_get x q = byte_get y q) -> x = y)
  /\ (in_signed 16 x = true -> in_signed 16 y = true -> (forall q, 0 <= q < 16 -> short_get x q = short_get y q) -> x = y).
Proof.
  intros x y; split; intros Hx Hy H; [apply (signed_ext 8)|apply (signed_ext 16)]; auto; try lia; intros i Hi.
  - specialize (H (7 - i) ltac:(lia)). rewrite !byte_get_bit in H by assumption. replace ((7 - (7 - i)) mod 32) with i in H by lia. exact H.
  - specialize (H (15 - i) ltac:(lia)). rewrite !short_get_bit in H by assumption. replace ((15 - (15 - i)) mod 32) with i in H by lia. exact H.
Qed.
Example C06_meets : in_range 8 [MSet 0; MSet 7; MClear 7; MClear 0; MSet 0] /\ in_signed 8 (-86) = true
  /\ run byte_set byte_clear [MSet 0; MSet 7; MClear 7; MClear 0; MSet 0] 0 = -128
  /\ byte_get (-128) 0 = true /\ byte_get (-128) 7 = false
  /\ run short_set short_clear [MSet 0; MSet 8; MClear 3] 4096 = -32640.
Proof. split; [repeat constructor; discriminate|]. repeat split. Qed.

(* ---- C07 ---- *)
Theorem C07_int_clear_sets : forall bits p, in_signed 32 bits = true -> 0 <= p < 32 -> int_get (int_clear bits p) p = true.
Proof.
  intros bits p Hb Hp. rewrite int_get_bit by apply int_signed_clear. rewrite int_clear_bit by lia. rewrite Z.eqb_refl. apply orb_true_r.
Qed.
Theorem C07_long_clear_sets : forall bits p, in_signed 64 bits = true -> 0 <= p < 64 -> long_get (long_clear bits p) p = true.
Proof.
  intros bits p Hb Hp. rewrite long_get_bit by apply long_signed_clear. rewrite long_clear_bit by lia. rewrite Z.eqb_refl. apply orb_true_r.
Qed.
(* after any sequence of calls a position is set iff it was set before or some call, set or clear, named it *)
Theorem C07_int_never_unset : forall ops bits q, in_signed 32 bits = true -> in_range 32 ops -> 0 <= q < 32 ->
  int_get (run int_set int_clear ops bits) q = existsb (fun o => op_pos o =? q) ops || int_get bits q.
Proof. exact int_history. Qed.
Theorem C07_long_never_unset : forall ops bits q, in_signed 64 bits = true -> in_range 64 ops -> 0 <= q < 64 ->
  long_get (run long_set long_clear ops bits) q = existsb (fun o => op_pos o =? q) ops || long_get bits q.
Proof. exact long_history. Qed.
(* what users rely on *)
Theorem C07_clear_unsets_refuted : exists p, 0 <= p < 32 /\ int_get (int_clear 0 p) p <> false /\ long_get (long_clear 0 p) p <> false.
Proof. exists 5. vm_compute. repeat split; discriminate. Qed.
Example C07_meets : in_signed 32 (-5) = true /\ in_range 32 [MSet 3; MClear 3; MClear 31]
  /\ run int_set int_clear [MSet 3; MClear 3; MClear 31] 0 = 268435457 /\ int_get 268435457 3 = true /\ int_get 268435457 4 = false.
Proof. split; [reflexivity|]. split; [repeat constructor; discriminate|]. repeat split. Qed.

(* ---- C08 ---- *)
Theorem C08_byte_write : forall bits b, in_signed 8 bits = true -> buf_wf b = true ->
  (fits b 1 -> exists b1, byte_write bits b = (None, b1) /\ appended b [bits mod 256] b1 /\ buf_wf b1 = true)
  /\ (~ fits b 1 -> byte_write bits b = (Some IOOBE, b)).
Proof.
  intros bits b Hs Hb. apply buf_wf_iff in Hb. split; intros F.
  - destruct (write_int_fit BE 1 bits b Hb F) as (b1 & E & A & W & _). exists b1. rewrite number1 in A. repeat split; auto; try apply A. apply buf_wf_iff; auto.
  - apply write_int_full; auto.
Qed.
Theorem C08_byte_round_trip : forall bits old b b1 b2 bs rest, in_signed 8 bits = true -> buf_wf b = true -> buf_wf b2 = true ->
  byte_write bits b = (None, b1) -> appended b bs b1 -> readable b2 = bs ++ rest ->
  length bs = 1%nat /\ exists b3, byte_read old b2 = (None, bits, b3) /\ advanced b2 1 b3.
Proof.
  intros bits old b b1 b2 bs rest Hs Hb Hb2 E A Hr. apply buf_wf_iff in Hb, Hb2.
  pose proof (wrote_int BE 1 bits b Hb) as W. change (write_int BE 1 bits b) with (byte_write bits b) in W. rewrite E in W. destruct W as [A' _].
  pose proof (app_content _ _ _ A) as C1. pose proof (app_content _ _ _ A') as C2. rewrite C1 in C2. apply app_inv_head in C2. subst bs.
  split; [apply number_length|]. exists (set_ridx b2 (ridx b2 + 1)). split; [|reflexivity]. apply (byte_round bits old b2 rest); auto.
Qed.
Theorem C08_byte_read_short : forall old b, readable b = [] -> buf_wf b = true -> byte_read old b = (Some IOOBE, old, b).
Proof.
  intros old b Hr Hb. apply buf_wf_iff in Hb. unfold byte_read, read_bytes. pose proof (readable_length _ Hb) as L. rewrite Hr in L. simpl in L. pose proof (wf_ridx _ Hb).
  rewrite (proj2 (Nat.leb_gt _ _)) by lia. reflexivity.
Qed.
Example C08_meets : buf_wf (map_buf [1; 2]) = true /\ in_signed 8 (-86) = true /\ wire_of (byte_write (-86) (map_buf [1; 2])) (map_buf [1; 2]) = [170]
  /\ byte_read 3 (map_buf [1; 170; 9]) = (None, -86, set_ridx (map_buf [1; 170; 9]) 2).
Proof. vm_compute. repeat split. Qed.

(* ---- C09 ---- *)
Theorem C09_short_write : forall bits b, in_signed 16 bits = true -> buf_wf b = true -> fits b 2 ->
  exists b1 x y, short_write bits b = (None, b1) /\ appended b [x; y] b1 /\ buf_wf b1 = true /\ 128 <= x.
Proof.
  intros bits b Hs Hb F. apply buf_wf_iff in Hb. pose proof (short_write_wrote bits b Hs Hb) as W.
  destruct (short_write bits b) as [[e|] b1]; [exfalso; exact (proj1 (proj2 W) F)|]. destruct W as [A W]. do 3 eexists. split; [reflexivity|]. split; [exact A|].
  split; [apply buf_wf_iff; auto|]. assert (0 <= Z.shiftr bits 8 mod 128) by (apply Z.mod_pos_bound; lia). lia.
Qed.
Theorem C09_short_round_trip : forall bits old b b1 b2 bs rest, in_signed 16 bits = true -> buf_wf b = true -> buf_wf b2 = true ->
  short_write bits b = (None, b1) -> appended b bs b1 -> readable b2 = bs ++ rest ->
  length bs = 2%nat /\ exists r b3, short_read old b2 = (None, r, b3) /\ advanced b2 2 b3
    /\ (forall q, 0 <= q < 16 -> short_get r q = negb (q =? 0) && negb (q =? 8) && short_get bits q)
    /\ (r = bits <-> short_get bits 0 = false /\ short_get bits 8 = false).
Proof.
  intros bits old b b1 b2 bs rest Hs Hb Hb2 E A Hr. apply buf_wf_iff in Hb, Hb2.
  pose proof (short_write_wrote bits b Hs Hb) as W. rewrite E in W. destruct W as [A' _].
  pose proof (app_content _ _ _ A) as C1. pose proof (app_content _ _ _ A') as C2. rewrite C1 in C2. apply app_inv_head in C2. subst bs.
  split; [reflexivity|]. destruct (short_round bits old b2 rest Hs Hb2 Hr) as (r & Er & Rr & B). exists r, (set_ridx b2 (ridx b2 + 2)).
  split; [exact Er|]. split; [reflexivity|].
  assert (G : forall q, 0 <= q < 16 -> short_get r q = negb (q =? 0) && negb (q =? 8) && short_get bits q).
  { intros q Hq. rewrite !short_get_bit by assumption. rewrite B by lia. replace ((15 - q) mod 32 =? 15) with (q =? 0) by lia. replace ((15 - q) mod 32 =? 7) with (q =? 8) by lia. reflexivity. }
  split; [exact G|]. split.
  - intros <-. split; [rewrite (G 0) by lia|rewrite (G 8) by lia]; reflexivity.
  - intros [H0 H8]. apply (C06_positions_determine_map r bits); auto. intros q Hq. rewrite G by exact Hq.
    destruct (Z.eqb_spec q 0) as [->|]; [rewrite H0; reflexivity|]. destruct (Z.eqb_spec q 8) as [->|]; [rewrite H8; reflexivity|]. reflexivity.
Qed.
Theorem C09_round_trip_refuted : exists bits b b1 b2 rest, in_signed 16 bits = true /\ buf_wf b = true /\ buf_wf b2 = true
  /\ short_write bits b = (None, b1) /\ readable b2 = skipn (widx b) (content b1) ++ rest /\ snd (fst (short_read 0 b2)) <> bits.
Proof.
  exists 128, (map_buf [1]), (snd (short_write 128 (map_buf [1]))), (map_buf [1; 128; 128; 5]), [5]. vm_compute. repeat split; discriminate.
Qed.
Example C09_meets : wire_of (short_write (-32640) (map_buf [1])) (map_buf [1]) = [128; 128]
  /\ wire_of (short_write 257 (map_buf [1])) (map_buf [1]) = [129; 1]
  /\ short_read 0 (map_buf [1; 129; 1; 7]) = (None, 257, set_ridx (map_buf [1; 129; 1; 7]) 3).
Proof. vm_compute. repeat split. Qed.

(* ---- C10 ---- *)
(* position q of the map read back is position q - 24 + 14*((31-q)/7) of the map written; positions 0-3 are lost *)
Theorem C10_int_round_trip : forall bits old b b1 b2 bs rest, in_signed 32 bits = true -> buf_wf b = true -> buf_wf b2 = true ->
  int_write bits b = (None, b1) -> appended b bs b1 -> readable b2 = bs ++ rest ->
  length bs = 4%nat /\ exists r b3, int_read old b2 = (None, r, b3) /\ advanced b2 4 b3
    /\ (forall q, 0 <= q < 32 -> int_get r q = (4 <=? q) && int_get bits (q - 24 + 14 * ((31 - q) / 7)))
    /\ (r = bits <-> bits = 0 \/ bits = 2 ^ 3 + 2 ^ 9 + 2 ^ 11 + 2 ^ 15 + 2 ^ 19 + 2 ^ 21 + 2 ^ 27).
Proof.
  intros bits old b b1 b2 bs rest Hs Hb Hb2 E A Hr. apply buf_wf_iff in Hb, Hb2.
  pose proof (int_write_wrote bits b Hb) as W. rewrite E in W. destruct W as [A' _].
  pose proof (app_content _ _ _ A) as C1. pose proof (app_content _ _ _ A') as C2. rewrite C1 in C2. apply app_inv_head in C2. subst bs.
  split; [reflexivity|]. destruct (int_round bits old b2 rest Hb2 Hr) as (r & Er & Rr & B). exists r, (set_ridx b2 (ridx b2 + 4)).
  split; [exact Er|]. split; [reflexivity|]. split.
  - intros q Hq. rewrite !int_get_bit by assumption. rewrite B by lia. replace ((31 - q) mod 32) with (31 - q) by lia. replace (31 - q <? 28) with (4 <=? q) by lia.
    destruct (Z.leb_spec 4 q); [|reflexivity]. cbn [andb]. f_equal. replace ((31 - (q - 24 + 14 * ((31 - q) / 7))) mod 32) with (31 - (q - 24 + 14 * ((31 - q) / 7))) by lia. lia.
  - exact (int_fixed bits r Hs Rr B).
Qed.
(* position q of the map read back is position q - 49 + 14*((63-q)/7) of the map written; positions 0-7 are lost *)
Theorem C10_long_round_trip : forall bits old b b1 b2 bs rest, in_signed 64 bits = true -> buf_wf b = true -> buf_wf b2 = true ->
  long_write bits b = (None, b1) -> appended b bs b1 -> readable b2 = bs ++ rest ->
  length bs = 8%nat /\ exists r b3, long_read old b2 = (None, r, b3) /\ advanced b2 8 b3
    /\ (forall q, 0 <= q < 64 -> long_get r q = (8 <=? q) && long_get bits (q - 49 + 14 * ((63 - q) / 7)))
    /\ (r = bits <-> 0 <= bits < 2 ^ 56 /\ forall i, 0 <= i < 8 -> (bits / 2 ^ (7 * i)) mod 128 = (bits / 2 ^ (7 * (7 - i))) mod 128).
Proof.
  intros bits old b b1 b2 bs rest Hs Hb Hb2 E A Hr. apply buf_wf_iff in Hb, Hb2.
  pose proof (long_write_wrote bits b Hb) as W. rewrite E in W. destruct W as [A' _].
  pose proof (app_content _ _ _ A) as C1. pose proof (app_content _ _ _ A') as C2. rewrite C1 in C2. apply app_inv_head in C2. subst bs.
  split; [reflexivity|]. destruct (long_round bits old b2 rest Hb2 Hr) as (r & Er & Rr & B). exists r, (set_ridx b2 (ridx b2 + 8)).
  split; [exact Er|]. split; [reflexivity|]. split.
  - intros q Hq. rewrite !long_get_bit by assumption. rewrite B by lia. replace ((63 - q) mod 64) with (63 - q) by lia. replace (63 - q <? 56) with (8 <=? q) by lia.
    destruct (Z.leb_spec 8 q); [|reflexivity]. cbn [andb]. f_equal. replace ((63 - (q - 49 + 14 * ((63 - q) / 7))) mod 64) with (63 - (q - 49 + 14 * ((63 - q) / 7))) by lia. lia.
  - rewrite (long_fixed bits r Hs Rr B). split; intros [R G]; (split; [exact R|]); intros i Hi; specialize (G i Hi);
      rewrite ?Z.shiftr_div_pow2 in * by lia; exact G.
Qed.
Theorem C10_write_room : forall bits b, buf_wf b = true ->
  (fits b 4 -> exists b1 bs, int_write bits b = (None, b1) /\ appended b bs b1 /\ buf_wf b1 = true)
  /\ (fits b 8 -> exists b1 bs, long_write bits b = (None, b1) /\ appended b bs b1 /\ buf_wf b1 = true).
Proof.
  intros bits b Hb. apply buf_wf_iff in Hb. split; intros F.
  - pose proof (int_write_wrote bits b Hb) as W. destruct (int_write bits b) as [[e|] b1]; [exfalso; exact (proj1 (proj2 W) F)|]. destruct W as [A W]. do 2 eexists. split; [reflexivity|]. split; [exact A|]. apply buf_wf_iff; auto.
  - pose proof (long_write_wrote bits b Hb) as W. destruct (long_write bits b) as [[e|] b1]; [exfalso; exact (proj1 (proj2 W) F)|]. destruct W as [A W]. do 2 eexists. split; [reflexivity|]. split; [exact A|]. apply buf_wf_iff; auto.
Qed.
Theorem C10_round_trip_refuted : exists bits b b1 b2 rest, in_signed 32 bits = true /\ buf_wf b = true /\ buf_wf b2 = true
  /\ int_write bits b = (None, b1) /\ readable b2 = skipn (widx b) (content b1) ++ rest /\ snd (fst (int_read 0 b2)) = 0 /\ bits <> 0.
Proof.
  exists (int_set 0 0), (map_buf [1]), (snd (int_write (int_set 0 0) (map_buf [1]))), (map_buf [1; 128; 128; 128; 0; 5]), [5]. vm_compute. repeat split; discriminate.
Qed.
Example C10_meets : wire_of (int_write (int_set 0 31) (map_buf [1])) (map_buf [1]) = [128; 128; 128; 0]
  /\ wire_of (int_write (int_set 0 7) (map_buf [1])) (map_buf [1]) = [129; 128; 128; 0]
  /\ snd (fst (int_read 0 (map_buf [1; 129; 128; 128; 0]))) = int_set 0 31
  /\ wire_of (int_write 136874504 (map_buf [1])) (map_buf [1]) = [136; 148; 162; 65] /\ snd (fst (int_read 0 (map_buf [1; 136; 148; 162; 65]))) = 136874504
  /\ wire_of (long_write (long_set 0 63) (map_buf [1])) (map_buf [1]) = [128; 128; 128; 128; 128; 128; 128; 1]
  /\ snd (fst (long_read 0 (map_buf [1; 128; 128; 128; 128; 128; 128; 128; 1]))) = long_set 0 14.
Proof. vm_compute. repeat split. Qed.

(* ---- C11 ---- *)
(* bit j of the result: some byte, number i from 0, has bit j - (7*i mod w) among its low seven *)
Lemma grouped_iff w bytes s j : grouped w bytes s j = true <->
  exists i x, nth_error bytes i = Some x /\ Z.testbit (x mod 128) (j - (s + 7 * Z.of_nat i) mod w) = true.
Proof.
  revert s; induction bytes as [|x r IH]; intros s; cbn [grouped].
  - split; [discriminate|intros (i & x & E & _); destruct i; discriminate].
  - rewrite orb_true_iff, IH. split.
    + intros [T|(i & y & E & T)]; [exists 0%nat, x; split; [reflexivity|]; rewrite Z.mul_0_r, Z.add_0_r; exact T|].
      exists (S i), y. split; [exact E|]. replace (s + 7 * Z.of_nat (S i)) with (s + 7 + 7 * Z.of_nat i) by lia. exact T.
    + intros (i & y & E & T). destruct i as [|i]; [left; inversion E; subst; rewrite Z.mul_0_r, Z.add_0_r in T; exact T|].
      right. exists i, y. split; [exact E|]. replace (s + 7 + 7 * Z.of_nat i) with (s + 7 * Z.of_nat (S i)) by lia. exact T.
Qed.
Theorem C11_int_read_stops : forall old b hs x rest, buf_wf b = true -> readable b = hs ++ x :: rest -> Forall (fun h => 128 <= h) hs -> x < 128 ->
  exists r b1, int_read old b = (None, r, b1) /\ advanced b (length hs + 1) b1 /\ in_signed 32 r = true
    /\ forall j, 0 <= j < 32 -> Z.testbit r j = true <->
         exists i y, nth_error (hs ++ [x]) i = Some y /\ Z.testbit (y mod 128) (j - (7 * Z.of_nat i) mod 32) = true.
Proof.
  intros old b hs x rest Hb Hr Hh Hx. apply buf_wf_iff in Hb. destruct (int_read_stops old b hs x rest Hb Hr Hh Hx) as (r & E & R & B).
  exists r, (set_ridx b (ridx b + S (length hs))). split; [exact E|]. split; [unfold advanced; f_equal; lia|]. split; [exact R|].
  intros j Hj. rewrite B by exact Hj. apply grouped_iff.
Qed.
Theorem C11_long_read_stops : forall old b hs x rest, buf_wf b = true -> readable b = hs ++ x :: rest -> Forall (fun h => 128 <= h) hs -> x < 128 ->
  exists r b1, long_read old b = (None, r, b1) /\ advanced b (length hs + 1) b1 /\ in_signed 64 r = true
    /\ forall j, 0 <= j < 64 -> Z.testbit r j = true <->
         exists i y, nth_error (hs ++ [x]) i = Some y /\ Z.testbit (y mod 128) (j - (7 * Z.of_nat i) mod 64) = true.
Proof.
  intros old b hs x rest Hb Hr Hh Hx. apply buf_wf_iff in Hb. destruct (long_read_stops old b hs x rest Hb Hr Hh Hx) as (r & E & R & B).
  exists r, (set_ridx b (ridx b + S (length hs))). split; [exact E|]. split; [unfold advanced; f_equal; lia|]. split; [exact R|].
  intros j Hj. rewrite B by exact Hj. apply grouped_iff.
Qed.
Theorem C11_runs_out : forall old b, buf_wf b = true -> Forall (fun h => 128 <= h) (readable b) ->
  exists r r' b1, int_read old b = (Some IOOBE, r, b1) /\ long_read old b = (Some IOOBE, r', b1)
    /\ advanced b (length (readable b)) b1 /\ readable b1 = [].
Proof.
  intros old b Hb Hh. apply buf_wf_iff in Hb. destruct (int_read_runs_out old b Hb Hh) as (r & E). destruct (long_read_runs_out old b Hb Hh) as (r' & E').
  assert (W : widx b = (ridx b + length (readable b))%nat) by (rewrite readable_length by exact Hb; pose proof (wf_ridx _ Hb); lia).
  exists r, r', (set_ridx b (widx b)). split; [exact E|]. split; [exact E'|]. split; [unfold advanced; rewrite W at 1; reflexivity|].
  rewrite W, readable_advance. apply skipn_all.
Qed.
(* the two cases are all there are: every read ends *)
Theorem C11_terminates : forall old b, buf_wf b = true ->
  (exists r b1, int_read old b = (None, r, b1)) \/ (exists r b1, int_read old b = (Some IOOBE, r, b1)).
Proof.
  intros old b Hb. pose proof Hb as Hb'. apply buf_wf_iff in Hb. destruct (stop_or_not (readable b)) as [F|(hs & x & rest & Hr & F & Hx)].
  - right. destruct (int_read_runs_out old b Hb F) as (r & E). eauto.
  - left. destruct (int_read_stops old b hs x rest Hb Hr F Hx) as (r & E & _). eauto.
Qed.
Theorem C11_long_terminates : forall old b, buf_wf b = true ->
  (exists r b1, long_read old b = (None, r, b1)) \/ (exists r b1, long_read old b = (Some IOOBE, r, b1)).
Proof.
  intros old b Hb. pose proof Hb as Hb'. apply buf_wf_iff in Hb. destruct (stop_or_not (readable b)) as [F|(hs & x & rest & Hr & F & Hx)].
  - right. destruct (long_read_runs_out old b Hb F) as (r & E). eauto.
  - left. destruct (long_read_stops old b hs x rest Hb Hr F Hx) as (r & E & _). eauto.
Qed.
Example C11_meets : readable (map_buf [0; 129; 130; 3; 9]) = [129; 130] ++ 3 :: [9]
  /\ int_read 0 (map_buf [0; 129; 130; 3; 9]) = (None, 49409, set_ridx (map_buf [0; 129; 130; 3; 9]) 4)
  /\ int_read 0 (map_buf [0; 129; 130]) = (Some IOOBE, 257, set_ridx (map_buf [0; 129; 130]) 3)
  /\ long_read 0 (map_buf [0; 128; 128; 128; 128; 128; 128; 128; 128; 128; 1]) = (None, - 2 ^ 63, set_ridx (map_buf [0; 128; 128; 128; 128; 128; 128; 128; 128; 128; 1]) 11).
Proof. vm_compute. repeat split. Qed.

(* ---- C48: positions outside bitCount() ---- *)
(* Byte and short maps: the position counts modulo 32; outside the map set and clear do nothing and get reads position 0 *)
Theorem C48_byte_outside : forall bits p, in_signed 8 bits = true -> 8 <= p mod 32 ->
  byte_set bits p = bits /\ byte_clear bits p = bits /\ byte_get bits p = byte_get bits 0.
Proof.
  intros bits p Hb Hp. split; [|split].
  - apply (signed_ext 8); auto using byte_signed_set; [lia|]. intros i Hi. rewrite byte_set_bit by lia. rewrite (proj2 (Z.eqb_neq _ _)) by lia. apply orb_false_r.
  - apply (signed_ext 8); auto using byte_signed_clear; [lia|]. intros i Hi. rewrite byte_clear_bit by lia. rewrite (proj2 (Z.eqb_neq _ _)) by lia. apply andb_true_r.
  - rewrite !byte_get_bit by assumption. rewrite !(signed_high 8 bits) by (auto; lia). reflexivity.
Qed.
Theorem C48_short_outside : forall bits p, in_signed 16 bits = true -> 16 <= p mod 32 ->
  short_set bits p = bits /\ short_clear bits p = bits /\ short_get bits p = short_get bits 0.
Proof.
  intros bits p Hb Hp. split; [|split].
  - apply (signed_ext 16); auto using short_signed_set; [lia|]. intros i Hi. rewrite short_set_bit by lia. rewrite (proj2 (Z.eqb_neq _ _)) by lia. apply orb_false_r.
  - apply (signed_ext 16); auto using short_signed_clear; [lia|]. intros i Hi. rewrite short_clear_bit by lia. rewrite (proj2 (Z.eqb_neq _ _)) by lia. apply andb_true_r.
  - rewrite !short_get_bit by assumption. rewrite !(signed_high 16 bits) by (auto; lia). reflexivity.
Qed.
Lemma ishl_cong k l : k mod 32 = l mod 32 -> ishl 1 k = ishl 1 l.
Proof. intros H. unfold ishl. change 31 with (Z.ones 5). rewrite !Z.land_ones by lia. change (2 ^ 5) with 32. rewrite H. reflexivity. Qed.
Lemma lshl_cong k l : k mod 64 = l mod 64 -> lshl 1 k = lshl 1 l.
Proof. intros H. unfold lshl. change 63 with (Z.ones 6). rewrite !Z.land_ones by lia. change (2 ^ 6) with 64. rewrite H. reflexivity. Qed.
Theorem C48_modulo : forall bits p k,
  byte_set bits (p + 32 * k) = byte_set bits p /\ byte_clear bits (p + 32 * k) = byte_clear bits p /\ byte_get bits (p + 32 * k) = byte_get bits p
  /\ short_set bits (p + 32 * k) = short_set bits p /\ short_clear bits (p + 32 * k) = short_clear bits p /\ short_get bits (p + 32 * k) = short_get bits p
  /\ int_set bits (p + 32 * k) = int_set bits p /\ int_clear bits (p + 32 * k) = int_clear bits p /\ int_get bits (p + 32 * k) = int_get bits p
  /\ long_set bits (p + 64 * k) = long_set bits p /\ long_clear bits (p + 64 * k) = long_clear bits p /\ long_get bits (p + 64 * k) = long_get bits p.
Proof.
  intros bits p k. unfold byte_set, byte_clear, byte_get, short_set, short_clear, short_get, int_set, int_clear, int_get, long_set, long_clear, long_get.
  rewrite (ishl_cong (7 - (p + 32 * k)) (7 - p)), (ishl_cong (15 - (p + 32 * k)) (15 - p)), (ishl_cong (31 - (p + 32 * k)) (31 - p)), (lshl_cong (63 - (p + 64 * k)) (63 - p)) by lia.
  repeat split.
Qed.
(* bitCount() is the number of independent positions: as many as there are, and no more *)
Definition independent (get : Z -> Z -> bool) (set : Z -> Z -> Z) (m : Z) : Prop :=
  forall p q, 0 <= p < m -> 0 <= q < m -> get (set 0 p) q = (p =? q).
Theorem C48_bit_count : forall m, 0 <= m ->
  (independent byte_get byte_set m <-> m <= byte_count) /\ (independent short_get short_set m <-> m <= short_count)
  /\ (independent int_get int_set m <-> m <= int_count) /\ (independent long_get long_set m <-> m <= long_count).
Proof.
  intros m Hm. unfold independent, byte_count, short_count, int_count, long_count. split; [|split; [|split]]; split; intros H.
  - destruct (Z.le_gt_cases m 8) as [|G]; [assumption|exfalso]. specialize (H 8 8 ltac:(lia) ltac:(lia)). discriminate H.
  - intros p q Hp Hq. rewrite byte_get_bit by apply byte_signed_set. rewrite byte_set_bit by lia. rewrite Z.bits_0. lia.
  - destruct (Z.le_gt_cases m 16) as [|G]; [assumption|exfalso]. specialize (H 16 16 ltac:(lia) ltac:(lia)). discriminate H.
  - intros p q Hp Hq. rewrite short_get_bit by apply short_signed_set. rewrite short_set_bit by lia. rewrite Z.bits_0. lia.
  - destruct (Z.le_gt_cases m 32) as [|G]; [assumption|exfalso]. specialize (H 0 32 ltac:(lia) ltac:(lia)). discriminate H.
  - intros p q Hp Hq. rewrite int_get_bit by apply int_signed_set. rewrite int_set_bit by lia. rewrite Z.bits_0. lia.
  - destruct (Z.le_gt_cases m 64) as [|G]; [assumption|exfalso]. specialize (H 0 64 ltac:(lia) ltac:(lia)). discriminate H.
  - intros p q Hp Hq. rewrite long_get_bit by apply long_signed_set. rewrite long_set_bit by lia. rewrite Z.bits_0. lia.
Qed.
Example C48_bit_count_meets : 0 <= 8 /\ 8 <= byte_count /\ ~ 9 <= byte_count /\ byte_get (byte_set 0 3) 3 = true /\ byte_get (byte_set 0 3) 4 = false.
Proof. vm_compute. repeat split; try discriminate. intros H. apply H. reflexivity. Qed.
(* what a reader of get(pos) expects: false outside the map *)
Theorem C48_get_outside_false_refuted : exists bits p, in_signed 8 bits = true /\ 8 <= p < 32 /\ byte_get bits p = true.
Proof. exists (-128), 9. vm_compute. repeat split; discriminate. Qed.
Example C48_meets : 8 <= 9 mod 32 /\ 8 <= (-1) mod 32 /\ byte_get (byte_set 0 0) 9 = true /\ byte_set 5 40 = byte_set 5 8 /\ int_get (int_set 0 32) 0 = true.
Proof. vm_compute. repeat split; discriminate. Qed.

Print Assumptions C06_byte_map_is_a_set.
Print Assumptions C06_short_map_is_a_set.
Print Assumptions C06_new_map_empty.
Print Assumptions C06_positions_determine_map.
Print Assumptions C07_int_clear_sets.
Print Assumptions C07_long_clear_sets.
Print Assumptions C07_int_never_unset.
Print Assumptions C07_long_never_unset.
Print Assumptions C07_clear_unsets_refuted.
Print Assumptions C08_byte_write.
Print Assumptions C08_byte_round_trip.
Print Assumptions C08_byte_read_short.
Print Assumptions C09_short_write.
Print Assumptions C09_short_round_trip.
Print Assumptions C09_round_trip_refuted.
Print Assumptions C10_int_round_trip.
Print Assumptions C10_long_round_trip.
Print Assumptions C10_write_room.
Print Assumptions C10_round_trip_refuted.
Print Assumptions C11_int_read_stops.
Print Assumptions C11_long_read_stops.
Print Assumptions C11_runs_out.
Print Assumptions C11_terminates.
Print Assumptions C11_long_terminates.
Print Assumptions C48_byte_outside.
Print Assumptions C48_short_outside.
Print Assumptions C48_modulo.
Print Assumptions C48_get_outside_false_refuted.
Print Assumptions C48_bit_count.
