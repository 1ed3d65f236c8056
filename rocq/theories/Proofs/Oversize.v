(* Reading back strings that are longer than their length prefix can say. *)
From Coq Require Import ZArith List Bool String Lia.
From Verif.Model Require Import JavaPrim ByteBuf Utf8 Codec Ast Interp.
From Verif.Spec Require Import Bytes Buffers Wire Reading.
From Verif.Proofs Require Import BytesFacts BufFacts Utf8Facts Utf8More CodecFacts Conform TableFacts EncodeFacts DecodeFacts DecodeRel DecodeInv.
Import ListNotations.
Open Scope Z_scope.

Lemma scalar_size c : scalar_ok c -> (List.length (utf8_scalar c) <= 3 * List.length (units c))%nat /\ (List.length (utf8_scalar c) <= 4)%nat.
Proof.
  intros _. unfold utf8_scalar, units.
  destruct (c <? 128) eqn:E1; [assert (c <? 65536 = true) as -> by lia; simpl; lia|].
  destruct (c <? 2048) eqn:E2; [assert (c <? 65536 = true) as -> by lia; simpl; lia|].
  destruct (c <? 65536) eqn:E3; simpl; lia.
Qed.
Lemma cut_chars cs : Forall scalar_ok cs -> forall p, let B := flat_map utf8_scalar cs in
  (3 * List.length (utf8_decode (firstn p B)) + (List.length B - p) <= 3 * List.length (flat_map units cs) + 9)%nat
  /\ (List.length B <= 3 * List.length (flat_map units cs))%nat.
Proof.
  induction 1 as [|c cs Hc F IH]; intros p; cbn zeta.
  - rewrite firstn_nil. simpl. lia.
  - cbn [flat_map]. destruct (scalar_size c Hc) as [S1 S2]. destruct (IH O) as [_ T]. cbn zeta in T. rewrite !app_length. split; [|lia].
    destruct (Nat.le_gt_cases (List.length (utf8_scalar c)) p) as [Hp|Hp].
    + rewrite firstn_app, firstn_all2, decode_scalar, app_length by auto. destruct (IH (p - List.length (utf8_scalar c))%nat) as [T2 _]. cbn zeta in T2. lia.
    + pose proof (decode_length (firstn p (utf8_scalar c ++ flat_map utf8_scalar cs))) as D. rewrite firstn_length in D. lia.
Qed.
Lemma scrub_length s : forallb is_unit s = true -> List.length (scrub s) = List.length s.
Proof.
  unfold scrub. induction s as [|a|a b l IH1 IH2] using pair_ind; intros H; auto.
  - cbn [scalars]. destruct (hi_sur a) eqn:Ha; [reflexivity|]. destruct (lo_sur a); [reflexivity|]. cbn [flat_map]. unfold units.
    cbn in H. unfold is_unit in H. assert (a <? 65536 = true) as -> by lia. reflexivity.
  - change (scalars (a :: b :: l)) with
      (if hi_sur a then (if lo_sur b then (65536 + (a - 55296) * 1024 + (b - 56320)) :: scalars l else 63 :: scalars (b :: l))
       else if lo_sur a then 63 :: scalars (b :: l) else a :: scalars (b :: l)).
    cbn [forallb] in H. apply andb_true_iff in H as [Ha H]. specialize (IH2 H). apply andb_true_iff in H as [Hb Hl]. specialize (IH1 Hl).
    assert (U : forall z, z < 65536 -> units z = [z]) by (intros z Hz; unfold units; assert (z <? 65536 = true) as -> by lia; reflexivity).
    unfold is_unit in Ha. destruct (hi_sur a) eqn:E1; [destruct (lo_sur b) eqn:E2|destruct (lo_sur a)]; cbn [flat_map]; rewrite app_length.
    + unfold units at 1. unfold hi_sur, lo_sur in *. assert (65536 + (a - 55296) * 1024 + (b - 56320) <? 65536 = false) as -> by lia. cbn [List.length]. lia.
    + rewrite IH2. reflexivity.
    + rewrite IH2. reflexivity.
    + rewrite IH2, U by lia. reflexivity.
Qed.

(* a prefix that is too small for the size: positive values are at least 256^n short *)
Lemma wrapped_prefix o n z : (0 < n)%nat -> max_prefix n < z -> get_int o (number o n z) <= z - 256.
Proof.
  intros Hn Hz. rewrite get_int_number by exact Hn. unfold wrap, max_prefix in *.
  assert (P : 2 ^ (8 * Z.of_nat n) = 2 * 2 ^ (8 * Z.of_nat n - 1)) by (rewrite <- Z.pow_succ_r by lia; f_equal; lia).
  assert (Q : 2 ^ 7 <= 2 ^ (8 * Z.of_nat n - 1)) by (apply Z.pow_le_mono_r; lia). change (2 ^ 7) with 128 in Q.
  rewrite P. set (M := 2 ^ (8 * Z.of_nat n - 1)) in *.
  pose proof (Z.div_mod (z + M) (2 * M) ltac:(lia)) as D. pose proof (Z.mod_pos_bound (z + M) (2 * M) ltac:(lia)).
  assert (1 <= (z + M) / (2 * M)) by (apply Z.div_le_lower_bound; lia). nia.
Qed.

Section Oversize.
  Variable Y : layouts.
  Variable F : string -> key -> option string.

  Definition too_long (n : nat) (s : list Z) : bool := max_prefix n <? Z.of_nat (List.length (utf8 s)).

  Lemma took_same b n bs bs' : read_bytes n b = (inr bs, adv b n) -> took b n bs' -> bs' = bs.
  Proof. unfold took. congruence. Qed.
  Lemma chars_same b k cs rest bs : wf b -> readable b = bs ++ rest -> List.length bs = k -> took_chars b k cs -> cs = bs.
  Proof. unfold took_chars. intros H R <- T. rewrite (read_chars_ok b bs rest H R) in T. congruence. Qed.

  Lemma not_read_back n o s b rest e x k : (0 < n)%nat -> forallb is_unit s = true -> too_long n s = true -> wf b ->
    readable b = (number o n (Z.of_nat (List.length (utf8 s))) ++ utf8 s) ++ rest ->
    rleaf b (WDyn n o) e x k -> x <> Some (VStr s).
  Proof.
    intros Hn Hs Hl H Hr R Ex. apply Z.ltb_lt in Hl. rewrite <- app_assoc in Hr.
    destruct (read_number o n _ b _ Hn H Hr) as (R1 & W1 & Rd1).
    inversion R as [| | | | |n0 o0 bs k0 cs T G K T2| | |]; try congruence. subst n0 o0. apply (took_same _ _ _ _ R1) in T. subst bs.
    rename k0 into m.
    pose proof (wrapped_prefix o n _ Hn Hl) as Wp. rewrite G in Wp.
    assert (Hf : readable (adv b n) = firstn m (utf8 s) ++ skipn m (utf8 s) ++ rest) by (rewrite app_assoc, firstn_skipn; exact Rd1).
    apply (chars_same _ _ _ _ _ W1 Hf) in T2; [|rewrite firstn_length; lia]. subst cs.
    destruct (cut_chars (scalars s) (scalars_ok s Hs) m) as [Cc _]. fold (utf8 s) in Cc. fold (scrub s) in Cc.
    assert (Q : utf8_decode (firstn m (utf8 s)) = s) by congruence. rewrite Q in Cc.
    rewrite (scrub_length s Hs) in Cc. lia.
  Qed.

  (* a string that fits: read completely *)
  Lemma read_whole n o s b rest x k : (0 < n)%nat -> too_long n s = false -> wf b ->
    readable b = (number o n (Z.of_nat (List.length (utf8 s))) ++ utf8 s) ++ rest ->
    rleaf b (WDyn n o) None x k -> k = (n + List.length (utf8 s))%nat.
  Proof.
    intros Hn Hl H Hr R. apply Z.ltb_ge in Hl. rewrite <- app_assoc in Hr.
    destruct (read_number o n _ b _ Hn H Hr) as (R1 & W1 & Rd1). pose proof (get_prefix o n (Z.of_nat (List.length (utf8 s))) Hn ltac:(lia)) as G.
    inversion R as [| | | | |n0 o0 bs k0 cs T G0 K T2|n0 o0 bs T G0| |]; try discriminate; subst o0;
      assert (T' : took b n bs) by congruence; apply (took_same _ _ _ _ R1) in T'; subst bs; lia.
  Qed.

  Definition item (v : val) : bool := match v with VNull => true | VStr s => forallb is_unit s | _ => false end.
  Lemma item_ser n o v : item v = true -> ser Y v (WDyn n o) = number o n (Z.of_nat (List.length (utf8 (text v)))) ++ utf8 (text v).
  Proof. destruct v; try discriminate; intros _; cbn [ser text]; [rewrite app_nil_r|]; reflexivity. Qed.
  Lemma relems_count d w k b e xs m : relems Y F d w k b e xs m -> (List.length xs <= k)%nat.
  Proof.
    intros R. induction R; cbn [List.length]; try lia. rewrite app_length. destruct x; cbn [listed List.length]; lia.
  Qed.
  Lemma elems_not_read_back d n o : (0 < n)%nat -> forall l b rest e xs m, forallb item l = true ->
    existsb (fun v => too_long n (text v)) l = true -> wf b -> readable b = flat_map (fun x => ser Y x (WDyn n o)) l ++ rest ->
    relems Y F d (WDyn n o) (List.length l) b e xs m -> xs <> l.
  Proof.
    intros Hn. induction l as [|v l IH]; intros b rest e xs m Hi He H Hr R; [discriminate|].
    cbn [forallb] in Hi. apply andb_true_iff in Hi as [Hv Hi]. cbn [existsb] in He. cbn [flat_map] in Hr. rewrite (item_ser n o v Hv), <- app_assoc in Hr.
    cbn [List.length] in R. inversion R; subst; try discriminate.
    match goal with T : rleaf b _ None ?x0 ?k0 |- _ => rename T into Lf; rename x0 into x; rename k0 into k end.
    match goal with T : relems _ _ _ _ _ _ _ ?x0 _ |- _ => rename T into Rs; rename x0 into ys end.
    pose proof (relems_count _ _ _ _ _ _ _ Rs) as Cnt.
    destruct x as [y|]; cbn [listed app].
    2: { intros ->. cbn [List.length] in Cnt. lia. }
    intros [= -> ->]. destruct (too_long n (text v)) eqn:Tl.
    - refine (not_read_back n o (text v) b _ None (Some v) k Hn _ Tl H Hr Lf _).
      + destruct v; try discriminate; auto.
      + destruct v; try discriminate; auto. inversion Lf.
    - pose proof (read_whole n o _ b _ _ _ Hn Tl H Hr Lf) as ->. destruct (adv_ok b _ _ H Hr) as [W1 R1]. rewrite app_length, number_length in W1, R1.
      exact (IH _ rest e l _ Hi He W1 R1 Rs eq_refl).
  Qed.
End Oversize.
