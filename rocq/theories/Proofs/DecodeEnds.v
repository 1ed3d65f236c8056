(* decode ends whatever the factories answer: a bound on its steps. *)
From Coq Require Import ZArith List Bool String Lia.
From Verif.Model Require Import JavaPrim ByteBuf Utf8 Codec Checksum Ast Interp Factory Heap EncodeThreads DecodeThreads FactoryRace.
From Verif.Spec Require Import Worlds.
From Verif.Proofs Require Import BytesFacts DecodeThreadFacts FactoryRaceFacts.
Import ListNotations.
Open Scope list_scope.
Open Scope nat_scope.

Section Ends.
  Variable C : list (string * class_def).
  Variable R : cache.
  Notation now W := (env_of C W R).
  (* iterations a statement can make at most *)
  Definition big (s : dstmt) : nat := match s with DList _ n _ _ => Z.to_nat (2 ^ (8 * Z.of_nat n)) | _ => 0 end.
  Definition cost (K : nat) (s : dstmt) : nat := 2 + big s * (3 + K) + K.
  Definition total (K : nat) (ss : list dstmt) : nat := list_sum (map (cost K) ss).
  (* a call with room for d calls *)
  Fixpoint K (d : nat) : nat := match d with O => 0 | S d => 2 + list_max (map (fun x => total (K d) (c_dec (snd x))) C) end.
  Fixpoint ws (k : list ditem) (d : nat) : nat :=
    match k with
    | [] => 1
    | DBody _ _ ss :: k => total (K d) ss + 1 + ws k (S d)
    | DLoop _ _ _ n :: k => n * (3 + K d) + 1 + ws k d
    | DAdd _ _ _ :: k => 1 + ws k d
    end.
  Definition dweight (t : decoder) : nat := match dended t with Some _ => 0 | None => ws (dstack t) (droom t) end.
  Lemma ws_pos k d : 1 <= ws k d.
  Proof. destruct k as [|[] k]; cbn [ws]; lia. Qed.
  Lemma big_get n o b bs b' : read_bytes n b = (inr bs, b') -> Z.to_nat (get_int o bs) <= Z.to_nat (2 ^ (8 * Z.of_nat n)).
  Proof.
    unfold read_bytes. destruct (Nat.leb (ridx b + n) (widx b)); [|discriminate]. intros H. injection H as <- _. set (xs := slice (arr b) (ridx b) n).
    assert (L : List.length xs <= n) by (unfold xs, slice; rewrite firstn_length; lia). clearbody xs. destruct xs as [|x xs].
    - destruct o; cbn; lia.
    - pose proof (get_int_range o (x :: xs) ltac:(discriminate)) as GR. unfold in_signed in GR. rewrite andb_true_iff in GR. destruct GR as [_ GR]. apply Z.ltb_lt in GR || apply Z.leb_le in GR.
      assert (2 ^ (8 * Z.of_nat (List.length (x :: xs)) - 1) <= 2 ^ (8 * Z.of_nat n))%Z by (apply Z.pow_le_mono_r; lia). lia.
  Qed.
  Lemma in_max (x : string * class_def) f (l : list (string * class_def)) : In x l -> f x <= list_max (map f l).
  Proof. induction l as [|y l IH]; intros I; [destruct I|]. cbn. destruct I as [->|I]; [lia|]. specialize (IH I). unfold list_max in IH. lia. Qed.
  Lemma assoc_in {A} (l : list (string * A)) c x : assoc c l = Some x -> In (c, x) l.
  Proof. induction l as [|[k a] l IH]; cbn [assoc]; [discriminate|]. destruct (String.eqb_spec c k) as [->|]; [intros H; injection H as ->; left; auto|right; auto]. Qed.
  Lemma enter_weight W h v k d b : dweight (denter (now W) h v k d b) <= K d + ws k d.
  Proof.
    unfold denter. destruct v as [|z|z|s|l]; try (destruct d; unfold dweight; cbn [dended]; lia). destruct d as [|d]; [unfold dweight; cbn [dended]; lia|]. destruct (nth_error h l) as [[c fs|vs]|]; try (unfold dweight; cbn [dended]; lia).
    destruct (find_class (now W) c) as [cd|] eqn:F; [|unfold dweight; cbn [dended]; lia]. unfold dweight. cbn [dended dstack droom ws]. cbn [K]. apply assoc_in in F. cbn [classes env_of] in F.
    pose proof (in_max (c, cd) (fun x => total (K d) (c_dec (snd x))) C F) as M. cbn beta in M. cbn [snd] in M. lia.
  Qed.
  Lemma goes_weight k d e b : dweight (dgoes_on k d e b) <= ws k d.
  Proof. destruct e; unfold dweight; cbn [dgoes_on dended dstack droom]; lia. Qed.
  Lemma step_weight W h t h1 t1 : decoder_step (now W) h t = (h1, t1) -> dweight t1 <= pred (dweight t).
  Proof.
    intros X. unfold decoder_step in X. destruct (dended t) as [e|] eqn:EN; [apply pair_equal_spec in X; destruct X as [_ <-]; unfold dweight; rewrite EN; lia|].
    replace (dweight t) with (ws (dstack t) (droom t)) by (unfold dweight; rewrite EN; reflexivity). destruct (dstack t) as [|[p c [|s r]|p f y [|n]|p f x] k].
    - apply pair_equal_spec in X. destruct X as [_ <-]. unfold dweight. cbn. lia.
    - apply pair_equal_spec in X. destruct X as [_ <-]. pose proof (goes_weight k (S (droom t)) None (src t)). cbn [ws total map list_sum fold_right]. unfold total. cbn [map list_sum fold_right]. lia.
    - assert (TS : total (K (droom t)) (s :: r) = cost (K (droom t)) s + total (K (droom t)) r) by reflexivity. cbn [ws]. rewrite TS. clear TS. assert (WR : ws (DBody p c r :: k) (droom t) = total (K (droom t)) r + 1 + ws k (S (droom t))) by reflexivity.
      assert (PL : (let '(e, (h', b')) := hexec_dstmt no_call (hnew (now W)) (factory (now W) c) p s (h, src t) in (h', dgoes_on (DBody p c r :: k) (droom t) e b')) = (h1, t1) -> dweight t1 <= pred (cost (K (droom t)) s + total (K (droom t)) r + 1 + ws k (S (droom t)))).
      { intros Y. destruct (hexec_dstmt no_call (hnew (now W)) (factory (now W) c) p s (h, src t)) as [e [H2 b2]]. apply pair_equal_spec in Y. destruct Y as [_ <-]. pose proof (goes_weight (DBody p c r :: k) (droom t) e b2). unfold cost. lia. }
      destruct s as [n o f|n o f|f len pad lft|f n o|f n o y|f c1|f|f key]; try (exact (PL X)).
      + destruct (read_bytes n (src t)) as [[x|bs] b2] eqn:RB; [apply pair_equal_spec in X; destruct X as [_ <-]; pose proof (goes_weight (DBody p c r :: k) (droom t) (Some x) b2); unfold cost; lia|].
        destruct (get_int o bs >? 0)%Z; cbn [alloc_cell] in X; apply pair_equal_spec in X; destruct X as [_ <-].
        * pose proof (goes_weight (DLoop p f y (Z.to_nat (get_int o bs)) :: DBody p c r :: k) (droom t) None b2) as G. cbn [ws] in G. fold (ws (DBody p c r :: k) (droom t)) in G. pose proof (big_get n o (src t) bs b2 RB) as BG.
          assert (ML : Z.to_nat (get_int o bs) * (3 + K (droom t)) <= big (DList f n o y) * (3 + K (droom t))) by (apply PeanoNat.Nat.mul_le_mono_r; exact BG). unfold cost. lia.
        * pose proof (goes_weight (DBody p c r :: k) (droom t) None b2). unfold cost. lia.
      + apply pair_equal_spec in X. destruct X as [_ <-]. pose proof (enter_weight W h (field h p f) (DBody p c r :: k) (droom t) (src t)). unfold cost. cbn [big]. lia.
    - apply pair_equal_spec in X. destruct X as [_ <-]. pose proof (goes_weight k (droom t) None (src t)). cbn [ws]. lia.
    - assert (EL : (let '(e, (h', b')) := hdec_elem no_call (hnew (now W)) p f y (h, src t) in (h', dgoes_on (DLoop p f y n :: k) (droom t) e b')) = (h1, t1) -> dweight t1 <= pred (ws (DLoop p f y (S n) :: k) (droom t))).
      { intros Y. destruct (hdec_elem no_call (hnew (now W)) p f y (h, src t)) as [e [H2 b2]]. apply pair_equal_spec in Y. destruct Y as [_ <-]. pose proof (goes_weight (DLoop p f y n :: k) (droom t) e b2) as G. cbn [ws] in *. lia. }
      destruct y as [m o|m o|len pad lft|m o|c1]; try (exact (EL X)). destruct (hnew (now W) h c1) as [h2 x]. apply pair_equal_spec in X. destruct X as [_ <-]. pose proof (enter_weight W h2 x (DAdd p f x :: DLoop p f (YObj c1) n :: k) (droom t) (src t)) as G. cbn [ws] in *. lia.
    - apply pair_equal_spec in X. destruct X as [_ <-]. pose proof (goes_weight k (droom t) None (src t)). cbn [ws]. lia.
  Qed.
  Lemma run_weight : forall sched W h t W1 h1 t1, decode_run C R sched W h t = (W1, h1, t1) -> dweight t1 <= dweight t - List.length (worlds sched W).
  Proof.
    induction sched as [|[|o k c|o k] sched IH]; intros W h t W1 h1 t1 D; cbn [decode_run worlds List.length] in *; [injection D as _ _ <-; lia| |eapply IH; eauto|eapply IH; eauto].
    destruct (decoder_step (now W) h t) as [h2 t2] eqn:S. pose proof (step_weight W h t h2 t2 S). specialize (IH W h2 t2 W1 h1 t1 D). lia.
  Qed.
  Lemma weight_zero t : dweight t = 0 -> dended t <> None.
  Proof. unfold dweight. destruct (dended t); [discriminate|]. pose proof (ws_pos (dstack t) (droom t)). lia. Qed.
End Ends.
