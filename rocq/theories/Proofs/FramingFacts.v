(* Cutting a stream of encoded frames. *)
From Coq Require Import ZArith List Bool String Lia.
From Verif.Model Require Import JavaPrim ByteBuf.
From Verif.Spec Require Import Bytes Framing.
From Verif.Proofs Require Import BytesFacts.
Import ListNotations.
Open Scope Z_scope.

Lemma magnitude_digits n : forall z, 0 <= z < 2 ^ (8 * Z.of_nat n) -> magnitude (digits n z) = z.
Proof.
  induction n as [|n IH]; intros z Hz.
  - cbn in *. lia.
  - cbn [digits magnitude]. rewrite IH.
    + pose proof (Z.div_mod z 256 ltac:(lia)). lia.
    + replace (8 * Z.of_nat (S n)) with (8 + 8 * Z.of_nat n) in Hz by lia. rewrite Z.pow_add_r in Hz by lia. change (2 ^ 8) with 256 in Hz.
      split; [apply Z.div_pos; lia|apply Z.div_lt_upper_bound; lia].
Qed.
Lemma unsigned_number o n z : 0 <= z < 2 ^ (8 * Z.of_nat n) -> unsigned o (number o n z) = z.
Proof. intros H. destruct o; unfold unsigned, number; rewrite ?rev_involutive; apply magnitude_digits; auto. Qed.

Definition framed (off : nat) (o : endian) (after : nat) (f : list Z) : Prop :=
  exists head body tail, f = head ++ number o 4 (Z.of_nat (List.length body)) ++ body ++ tail
    /\ List.length head = off /\ List.length tail = after /\ Z.of_nat (List.length body) < 2 ^ 32.
Lemma next_framed off o after f rest : framed off o after f -> next_frame off o after (f ++ rest) = Some (f, rest).
Proof.
  intros (head & body & tail & -> & H1 & H2 & H3). unfold next_frame.
  assert (L : List.length (head ++ number o 4 (Z.of_nat (List.length body)) ++ body ++ tail) = (off + 4 + List.length body + after)%nat)
    by (rewrite !app_length, number_length; lia).
  rewrite app_length, L. destruct (Nat.ltb_spec (off + 4 + List.length body + after + List.length rest) (off + 4)) as [Q|_]; [lia|].
  assert (N : firstn 4 (skipn off ((head ++ number o 4 (Z.of_nat (List.length body)) ++ body ++ tail) ++ rest)) = number o 4 (Z.of_nat (List.length body))).
  { rewrite <- app_assoc, skipn_app, H1, Nat.sub_diag, <- H1, skipn_all. rewrite app_nil_l, skipn_O, <- app_assoc.
    set (k := number o 4 (Z.of_nat (List.length body))). assert (K : List.length k = 4%nat) by apply number_length.
    rewrite firstn_app, K, Nat.sub_diag, firstn_O, app_nil_r. apply firstn_all2. lia. }
  rewrite N, unsigned_number, Nat2Z.id by (change (8 * Z.of_nat 4) with 32; lia). cbv zeta. rewrite <- L. set (f := head ++ _) in *.
  destruct (Nat.ltb_spec (List.length f + List.length rest) (List.length f)) as [Q|_]; [lia|].
  rewrite firstn_app, skipn_app, Nat.sub_diag, firstn_all, skipn_all. cbn [firstn skipn app]. rewrite app_nil_r. reflexivity.
Qed.
Lemma framed_pos off o after f : framed off o after f -> (0 < List.length f)%nat.
Proof. intros (head & body & tail & -> & _). rewrite !app_length, number_length. lia. Qed.
Lemma cut_framed off o after fs : Forall (framed off o after) fs -> forall rest, next_frame off o after rest = None ->
  forall fuel, (List.length fs <= fuel)%nat -> cut_frames fuel off o after (List.concat fs ++ rest) = (fs, rest).
Proof.
  intros F rest N. induction F as [|f fs Hf F IH]; intros fuel Hl.
  - cbn [List.concat app]. destruct fuel; [reflexivity|]. cbn [cut_frames]. rewrite N. reflexivity.
  - destruct fuel as [|k]; [cbn in Hl; lia|]. cbn [List.concat cut_frames]. rewrite <- app_assoc, (next_framed _ _ _ _ _ Hf), IH by (cbn in Hl; lia). reflexivity.
Qed.
Lemma frames_in_framed off o after fs rest : Forall (framed off o after) fs -> next_frame off o after rest = None ->
  frames_in off o after (List.concat fs ++ rest) = (fs, rest).
Proof.
  intros F N. apply cut_framed; auto. rewrite app_length.
  assert (L : (List.length fs <= List.length (List.concat fs))%nat).
  { clear N. induction F as [|f fs Hf F IH]; [cbn; lia|]. cbn [List.concat List.length]. rewrite app_length. pose proof (framed_pos _ _ _ _ Hf). lia. }
  lia.
Qed.
