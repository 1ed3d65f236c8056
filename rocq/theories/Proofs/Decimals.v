(* show_int writes decimal notation. *)
From Coq Require Import ZArith List Bool String Ascii Lia Decimal DecimalString DecimalZ.
From Verif.Model Require Import JavaPrim Ast Show.
From Verif.Spec Require Import Bytes Wire Text.
Import ListNotations.
Open Scope Z_scope.

Lemma chars_letters s : chars s = letters s.
Proof. unfold letters. induction s as [|a s IH]; [reflexivity|]. cbn [chars list_ascii_of_string map]. rewrite IH. reflexivity. Qed.

Definition digit (c : Z) : Prop := 48 <= c <= 57.
Definition value (l : list Z) : Z := fold_left (fun a c => 10 * a + (c - 48)) l 0.
Lemma fold_value l : forall a, fold_left (fun a c => 10 * a + (c - 48)) l a = a * 10 ^ Z.of_nat (List.length l) + value l.
Proof.
  unfold value. induction l as [|c l IH]; intros a; [cbn; lia|]. cbn [fold_left List.length]. rewrite IH, (IH (10 * 0 + (c - 48))).
  rewrite Nat2Z.inj_succ, Z.pow_succ_r by lia. ring.
Qed.
Lemma value_app l m : value (l ++ m) = value l * 10 ^ Z.of_nat (List.length m) + value m.
Proof. unfold value at 1. rewrite fold_left_app. fold (value l). apply fold_value. Qed.

Definition uint_of (l : list Z) : uint :=
  fold_right (fun c u => if c =? 48 then D0 u else if c =? 49 then D1 u else if c =? 50 then D2 u else if c =? 51 then D3 u else if c =? 52 then D4 u
                         else if c =? 53 then D5 u else if c =? 54 then D6 u else if c =? 55 then D7 u else if c =? 56 then D8 u else D9 u) Nil l.
Lemma digit_cases c : digit c -> c = 48 \/ c = 49 \/ c = 50 \/ c = 51 \/ c = 52 \/ c = 53 \/ c = 54 \/ c = 55 \/ c = 56 \/ c = 57.
Proof. unfold digit. lia. Qed.
Lemma uint_of_text l : Forall digit l -> letters (NilEmpty.string_of_uint (uint_of l)) = l.
Proof.
  induction 1 as [|c l Hc _ IH]; [reflexivity|]. apply digit_cases in Hc.
  repeat match type of Hc with _ \/ _ => destruct Hc as [->|Hc] | _ => subst c end; cbn; f_equal; exact IH.
Qed.
Lemma of_acc l : Forall digit l -> forall p, Z.pos (Pos.of_uint_acc (uint_of l) p) = fold_left (fun a c => 10 * a + (c - 48)) l (Z.pos p).
Proof.
  induction 1 as [|c l Hc _ IH]; intros p; [reflexivity|]. apply digit_cases in Hc.
  repeat match type of Hc with _ \/ _ => destruct Hc as [->|Hc] | _ => subst c end; cbn [uint_of fold_right fold_left];
    repeat match goal with |- context [?a =? ?b] => change (a =? b) with false || change (a =? b) with true end; cbn iota; cbn [Pos.of_uint_acc];
    fold (uint_of l); rewrite IH; f_equal; lia.
Qed.
Lemma of_uint_value l : Forall digit l -> Z.of_uint (uint_of l) = value l.
Proof.
  unfold Z.of_uint, value. induction 1 as [|c l Hc Hl IH]; [reflexivity|]. apply digit_cases in Hc.
  repeat match type of Hc with _ \/ _ => destruct Hc as [->|Hc] | _ => subst c end; cbn [uint_of fold_right fold_left];
    repeat match goal with |- context [?a =? ?b] => change (a =? b) with false || change (a =? b) with true end; cbn iota; cbn [Pos.of_uint];
    fold (uint_of l); try (rewrite IH; f_equal; lia); cbn [Z.of_N]; rewrite (of_acc l Hl); f_equal; lia.
Qed.

(* no leading zero *)
Definition canonical (l : list Z) : Prop := Forall digit l /\ (l = [48] \/ exists c r, l = c :: r /\ 49 <= c).
Lemma canonical_norm l : canonical l -> unorm (uint_of l) = uint_of l.
Proof.
  intros [Hd [->|(c & r & -> & Hc)]]; [reflexivity|]. inversion Hd as [|? ? Hc' _]; subst. apply digit_cases in Hc'.
  repeat match type of Hc' with _ \/ _ => destruct Hc' as [->|Hc'] | _ => subst c end; try lia; reflexivity.
Qed.
Lemma canonical_string l : canonical l -> letters (NilZero.string_of_uint (uint_of l)) = l.
Proof.
  intros H. rewrite <- (uint_of_text l) at 2 by apply H. destruct H as [Hd [->|(c & r & -> & Hc)]]; [reflexivity|].
  assert (N : uint_of (c :: r) <> Nil).
  { cbn [uint_of fold_right]. repeat match goal with |- context [if ?x then _ else _] => destruct x end; discriminate. }
  unfold NilZero.string_of_uint. destruct (uint_of (c :: r)); [congruence|reflexivity..].
Qed.
Lemma canonical_decimal l : canonical l -> decimal (value l) = l.
Proof.
  intros H. unfold decimal. rewrite <- of_uint_value by apply H. change (Z.of_uint (uint_of l)) with (Z.of_int (Pos (uint_of l))). rewrite to_of. cbn [norm].
  rewrite canonical_norm by exact H. apply canonical_string. exact H.
Qed.
Lemma canonical_neg l : canonical l -> value l <> 0 -> decimal (- value l) = 45 :: l.
Proof.
  intros H N. unfold decimal. rewrite <- of_uint_value by apply H. change (- Z.of_uint (uint_of l)) with (Z.of_int (Neg (uint_of l))). rewrite to_of.
  assert (Q : norm (Neg (uint_of l)) = Neg (uint_of l)).
  { destruct H as [Hd [->|(c & r & -> & Hc)]]; [cbn in N; lia|]. inversion Hd as [|? ? Hc' _]; subst. apply digit_cases in Hc'.
    repeat match type of Hc' with _ \/ _ => destruct Hc' as [->|Hc'] | _ => subst c end; try lia; reflexivity. }
  rewrite Q. change (letters (NilZero.string_of_int (Neg (uint_of l)))) with (45 :: letters (NilZero.string_of_uint (uint_of l))). rewrite canonical_string by exact H. reflexivity.
Qed.

Lemma show_digits_ok k : forall z acc, 0 <= z < 10 ^ Z.of_nat k -> (0 < k)%nat ->
  exists l, show_digits k z acc = l ++ acc /\ canonical l /\ value l = z.
Proof.
  induction k as [|k IH]; intros z acc Hz Hk; [lia|]. cbn [show_digits].
  assert (Hm : 0 <= z mod 10 < 10) by (apply Z.mod_pos_bound; lia). destruct (Z.ltb_spec z 10) as [L|L].
  - exists [48 + z mod 10]. split; [reflexivity|]. assert (E : z mod 10 = z) by (apply Z.mod_small; lia). split.
    + split; [constructor; [unfold digit; lia|constructor]|]. destruct (Z.eq_dec z 0) as [->|N]; [left; reflexivity|right; do 2 eexists; split; [reflexivity|]; lia].
    + unfold value; cbn [fold_left]; lia.
  - assert (E : z = 10 * (z / 10) + z mod 10) by (apply Z.div_mod; lia). rewrite Nat2Z.inj_succ, Z.pow_succ_r in Hz by lia.
    assert (K : (0 < k)%nat). { destruct k; [|lia]. cbn in Hz. lia. }
    destruct (IH (z / 10) ((48 + z mod 10) :: acc)) as (l & -> & Hc & Hv); [lia|exact K|].
    exists (l ++ [48 + z mod 10]). rewrite <- app_assoc. split; [reflexivity|]. split.
    + destruct Hc as [Hd Hh]. split; [apply Forall_app; split; [exact Hd|constructor; [unfold digit; lia|constructor]]|]. right.
      destruct Hh as [->|(c & r & -> & Hc)]; [cbn in Hv; lia|]. exists c, (r ++ [48 + z mod 10]). split; [reflexivity|exact Hc].
    + rewrite value_app, Hv. cbn [List.length]. change (10 ^ Z.of_nat 1) with 10. unfold value; cbn [fold_left]. lia.
Qed.
Theorem show_int_decimal z : - 2 ^ 63 <= z < 2 ^ 63 -> show_int z = decimal z.
Proof.
  intros H. unfold show_int. assert (B : 2 ^ 63 < 10 ^ Z.of_nat 64) by (vm_compute; reflexivity). destruct (Z.ltb_spec z 0).
  - destruct (show_digits_ok 64 (- z) []) as (l & -> & Hc & Hv); [lia|lia|]. rewrite app_nil_r.
    replace z with (- value l) by lia. symmetry. apply canonical_neg; [exact Hc|lia].
  - destruct (show_digits_ok 64 z []) as (l & -> & Hc & Hv); [lia|lia|]. rewrite app_nil_r, <- Hv. symmetry. apply canonical_decimal. exact Hc.
Qed.
