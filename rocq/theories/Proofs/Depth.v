(* More stack changes nothing for a call that did not run out of it. *)
From Coq Require Import ZArith List Bool String Lia.
From Verif.Model Require Import JavaPrim ByteBuf Utf8 Codec Ast Interp.
From Verif.Proofs Require Import DecodeFacts.
Import ListNotations.
Open Scope Z_scope.

Definition up {A B} (r r' : option exn * A * B) : Prop := fst (fst r) <> Some SOE -> r' = r.
Definition up2 {A} (r r' : option exn * A) : Prop := fst r <> Some SOE -> r' = r.
Lemma up2_refl {A} (r : option exn * A) : up2 r r. Proof. intros _. reflexivity. Qed.
Lemma up2_seq {A} (r r' : option exn * A) (k k' : A -> option exn * A) : up2 r r' -> (forall a, up2 (k a) (k' a)) ->
  up2 (match r with (None, a) => k a | (Some e, a) => (Some e, a) end) (match r' with (None, a) => k' a | (Some e, a) => (Some e, a) end).
Proof.
  intros H K N. destruct r as [[e|] a].
  - rewrite (H N). reflexivity.
  - rewrite H by discriminate. apply K. exact N.
Qed.

Section Enc.
  Variables enc enc' : val -> bytebuf -> option exn * val * bytebuf.
  Hypothesis H : forall v b, up (enc v b) (enc' v b).
  Variable sums : string -> option (list Z -> Z).
  Lemma up_elem x v b : up (enc_elem enc x v b) (enc_elem enc' x v b).
  Proof. destruct x; cbn [enc_elem]; try (intros _; reflexivity). apply H. Qed.
  Lemma up_elems x l : forall b, up (enc_elems enc x l b) (enc_elems enc' x l b).
  Proof.
    induction l as [|v l IH]; intros b N; [reflexivity|]. cbn [enc_elems] in *. pose proof (up_elem x v b) as U. unfold up in U.
    destruct (enc_elem enc x v b) as [[[e|] v'] b'].
    - rewrite U by exact N. reflexivity.
    - rewrite U by discriminate. pose proof (IH b') as U2. unfold up in U2. destruct (enc_elems enc x l b') as [[e r] b'']. rewrite U2 by exact N. reflexivity.
  Qed.
  Lemma up_call {A B} (g : val -> A) (h : B) v b :
    up2 (let '(e, v', b') := enc v b in (e, (g v', h, b'))) (let '(e, v', b') := enc' v b in (e, (g v', h, b'))).
  Proof. intros N. pose proof (H v b) as U. unfold up in U. destruct (enc v b) as [[e v'] b']. rewrite U by exact N. reflexivity. Qed.
  Lemma up_estmt s st : up2 (exec_estmt enc sums s st) (exec_estmt enc' sums s st).
  Proof.
    destruct st as [[fs loc] b]. destruct s; cbn [exec_estmt]; try apply up2_refl.
    - destruct (get f fs) as [| | | |[|v l]|]; try apply up2_refl. destruct (write_int _ _ _ b) as [[e|] b']; [apply up2_refl|].
      pose proof (up_elems x (v :: l) b') as U. intros N. unfold up in U.
      destruct (enc_elems enc x (v :: l) b') as [[e l'] b'']. rewrite U by exact N. reflexivity.
    - intros N. pose proof (H (get f fs) b) as U. unfold up in U. destruct (enc (get f fs) b) as [[e v'] b']. rewrite U by exact N. reflexivity.
    - destruct (get f fs) eqn:G; try apply up2_refl.
      all: apply (up_call (fun v' => set f v' fs)).
  Qed.
  Lemma up_enc ss : forall st, up2 (exec_enc enc sums ss st) (exec_enc enc' sums ss st).
  Proof.
    induction ss as [|s ss IH]; intros st; [apply up2_refl|]. cbn [exec_enc].
    apply (up2_seq _ _ (exec_enc enc sums ss) (exec_enc enc' sums ss)); [apply up_estmt|apply IH].
  Qed.
End Enc.
Lemma encode_deeper E d : forall d' v b, (d <= d')%nat -> up (encode E d v b) (encode E d' v b).
Proof.
  induction d as [|d IH]; intros d' v b Hd N.
  - destruct v; cbn in N; try congruence. destruct d'; reflexivity.
  - destruct d' as [|d']; [lia|]. destruct v; try reflexivity. cbn [encode] in *. destruct (find_class E c) as [cd|]; [|reflexivity].
    pose proof (up_enc (encode E d) (encode E d') (fun v b => IH d' v b ltac:(lia)) (checksum E) (c_enc cd) (fs, [], b)) as U. unfold up2 in U.
    destruct (exec_enc (encode E d) _ _ _) as [e [[fs' l] b']]. rewrite U by exact N. reflexivity.
Qed.

Section Dec.
  Variables dec dec' : val -> bytebuf -> option exn * val * bytebuf.
  Hypothesis H : forall v b, up (dec v b) (dec' v b).
  Variable new : string -> val.
  Variable create : key -> option string.
  Lemma up_delem y st : up2 (dec_elem dec new y st) (dec_elem dec' new y st).
  Proof.
    destruct st as [l b]. destruct y; cbn [dec_elem]; try apply up2_refl.
    intros N. pose proof (H (new c) b) as U. unfold up in U. destruct (dec (new c) b) as [[[e|] v] b']; rewrite U; try discriminate; auto.
  Qed.
  Lemma up_iter {S} (f f' : S -> option exn * S) k : (forall s, up2 (f s) (f' s)) -> forall s, up2 (iter k f s) (iter k f' s).
  Proof. intros F. induction k; intros s; [apply up2_refl|]. cbn [iter]. apply (up2_seq _ _ (iter k f) (iter k f')); auto. Qed.
  Lemma up_dstmt s st : up2 (exec_dstmt dec new create s st) (exec_dstmt dec' new create s st).
  Proof.
    destruct st as [fs b]. destruct s; cbn [exec_dstmt]; try apply up2_refl.
    - destruct (read_bytes n b) as [[e|bs] b']; [apply up2_refl|]. cbv zeta. destruct (get_int o bs >? 0); [|apply up2_refl].
      rewrite !repeat_z_iter. intros N.
      pose proof (up_iter _ _ (Z.to_nat (get_int o bs)) (up_delem y) ([], b')) as U. unfold up2 in U.
      destruct (iter _ (dec_elem dec new y) ([], b')) as [e [l b'']]. rewrite U by exact N. reflexivity.
    - intros N. pose proof (H (get f fs) b) as U. unfold up in U. destruct (dec (get f fs) b) as [[e v] b']; rewrite U by exact N; reflexivity.
  Qed.
  Lemma up_dec ss : forall st, up2 (exec_dec dec new create ss st) (exec_dec dec' new create ss st).
  Proof.
    induction ss as [|s ss IH]; intros st; [apply up2_refl|]. cbn [exec_dec].
    apply (up2_seq _ _ (exec_dec dec new create ss) (exec_dec dec' new create ss)); [apply up_dstmt|apply IH].
  Qed.
End Dec.
Lemma decode_deeper E d : forall d' v b, (d <= d')%nat -> up (decode E d v b) (decode E d' v b).
Proof.
  induction d as [|d IH]; intros d' v b Hd N.
  - destruct v; cbn in N; try congruence. destruct d'; reflexivity.
  - destruct d' as [|d']; [lia|]. destruct v; try reflexivity. cbn [decode] in *. destruct (find_class E c) as [cd|]; [|reflexivity].
    pose proof (up_dec (decode E d) (decode E d') (fun v b => IH d' v b ltac:(lia)) (new_obj E) (factory E c) (c_dec cd) (fs, b)) as U. unfold up2 in U.
    destruct (exec_dec (decode E d) _ _ _ _) as [e [fs' b']]. rewrite U by exact N. reflexivity.
Qed.
