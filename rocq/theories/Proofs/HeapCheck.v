(* Computable versions of the predicates of Spec/Sharing.v, for concrete heaps. *)
From Coq Require Import ZArith List Bool String Lia.
From Verif.Model Require Import JavaPrim ByteBuf Utf8 Codec Ast Interp Show Heap.
From Verif.Spec Require Import Bytes Wire Sharing.
From Verif.Proofs Require Import HeapFacts HeapEq HeapCycle.
Import ListNotations.
Open Scope Z_scope.

Definition disjoint (l m : list nat) : bool := forallb (fun i => negb (existsb (Nat.eqb i) m)) l.
Lemma disjoint_apart l m : disjoint l m = true -> apart l m.
Proof.
  intros H i Hi Hj. unfold disjoint in H. rewrite forallb_forall in H. specialize (H i Hi). apply negb_true_iff in H.
  assert (existsb (Nat.eqb i) m = true) by (apply existsb_exists; exists i; split; auto; apply Nat.eqb_refl). congruence.
Qed.

Section View.
  Variable h : heap.
  Fixpoint view (n : nat) (v : hval) : option val :=
    match n with
    | O => None
    | S n' =>
        let all := fix all (vs : list hval) : option (list val) :=
          match vs with
          | [] => Some []
          | x :: r => match view n' x, all r with Some t, Some ts => Some (t :: ts) | _, _ => None end
          end in
        match v with
        | HNull => Some VNull
        | HInt z => Some (VInt z)
        | HFlt z => Some (VFlt z)
        | HStr s => Some (VStr s)
        | HRef l => match nth_error h l with
                    | Some (CList vs) => match all vs with Some ts => Some (VList ts) | None => None end
                    | Some (CObj c fs) => match all (map snd fs) with Some ts => Some (VObj c (combine (map fst fs) ts)) | None => None end
                    | None => None
                    end
        end
    end.
  Lemma combine_names (fs : list (string * hval)) (ts : list val) : List.length ts = List.length fs -> map fst (combine (map fst fs) ts) = map fst fs.
  Proof. revert ts. induction fs as [|f fs IH]; intros [|t ts] L; cbn in *; try discriminate; auto. f_equal. auto. Qed.
  Lemma combine_values (fs : list (string * hval)) (ts : list val) : List.length ts = List.length fs -> map snd (combine (map fst fs) ts) = ts.
  Proof. revert ts. induction fs as [|f fs IH]; intros [|t ts] L; cbn in *; try discriminate; auto. f_equal. auto. Qed.
  Lemma view_shows n : forall v t, view n v = Some t -> shows h v t.
  Proof.
    induction n as [|n IH]; intros v t H; [discriminate|]. cbn [view] in H.
    assert (A : forall vs ts, (fix all (vs : list hval) : option (list val) :=
          match vs with [] => Some [] | x :: r => match view n x, all r with Some t, Some ts => Some (t :: ts) | _, _ => None end end) vs = Some ts -> shows_all h vs ts).
    { induction vs as [|x vs IHv]; intros ts K; [injection K as <-; constructor|]. destruct (view n x) eqn:Q; [|discriminate].
      match type of K with match ?X with _ => _ end = _ => destruct X eqn:R; [|discriminate] end. injection K as <-. constructor; auto. }
    destruct v; try (injection H as <-; constructor; fail). destruct (nth_error h l) as [[c fs|vs]|] eqn:Hl; [| |discriminate].
    - match type of H with match ?X with _ => _ end = _ => destruct X eqn:R; [|discriminate] end. injection H as <-. specialize (A _ _ R).
      assert (L : List.length l0 = List.length fs).
      { rewrite <- (map_length snd fs). clear - A. induction A; cbn; auto. }
      econstructor; eauto; [apply combine_names; auto|]. rewrite combine_values; auto.
    - match type of H with match ?X with _ => _ end = _ => destruct X eqn:R; [|discriminate] end. injection H as <-. econstructor; eauto.
  Qed.

  (* the same with the footprint *)
  Fixpoint owned (n : nat) (v : hval) : option (val * list nat) :=
    match n with
    | O => None
    | S n' =>
        let all := fix all (vs : list hval) : option (list val * list nat) :=
          match vs with
          | [] => Some ([], [])
          | x :: r => match owned n' x, all r with
                      | Some (t, fp), Some (ts, fps) => if disjoint fp fps then Some (t :: ts, fp ++ fps) else None
                      | _, _ => None
                      end
          end in
        match v with
        | HNull => Some (VNull, [])
        | HInt z => Some (VInt z, [])
        | HFlt z => Some (VFlt z, [])
        | HStr s => Some (VStr s, [])
        | HRef l => match nth_error h l with
                    | Some (CList vs) => match all vs with Some (ts, fp) => if disjoint [l] fp then Some (VList ts, l :: fp) else None | None => None end
                    | Some (CObj c fs) => match all (map snd fs) with
                                          | Some (ts, fp) => if disjoint [l] fp then Some (VObj c (combine (map fst fs) ts), l :: fp) else None
                                          | None => None
                                          end
                    | None => None
                    end
        end
    end.
  Lemma owned_owns n : forall v t fp, owned n v = Some (t, fp) -> owns h v t fp.
  Proof.
    induction n as [|n IH]; intros v t fp H; [discriminate|]. cbn [owned] in H.
    assert (A : forall vs ts fp, (fix all (vs : list hval) : option (list val * list nat) :=
          match vs with
          | [] => Some ([], [])
          | x :: r => match owned n x, all r with
                      | Some (t, fp), Some (ts, fps) => if disjoint fp fps then Some (t :: ts, fp ++ fps) else None
                      | _, _ => None
                      end
          end) vs = Some (ts, fp) -> owns_all h vs ts fp).
    { induction vs as [|x vs IHv]; intros ts fp0 K; [injection K as <- <-; constructor|]. destruct (owned n x) as [[t0 f0]|] eqn:Q; [|discriminate].
      match type of K with match ?X with _ => _ end = _ => destruct X as [[ts1 f1]|] eqn:R; [|discriminate] end.
      destruct (disjoint f0 f1) eqn:D; [|discriminate]. injection K as <- <-. constructor; auto. apply disjoint_apart. exact D. }
    destruct v; try (injection H as <- <-; constructor; fail). destruct (nth_error h l) as [[c fs|vs]|] eqn:Hl; [| |discriminate].
    - match type of H with match ?X with _ => _ end = _ => destruct X as [[ts f1]|] eqn:R; [|discriminate] end. destruct (disjoint [l] f1) eqn:D; [|discriminate].
      injection H as <- <-. specialize (A _ _ _ R). pose proof (disjoint_apart _ _ D l (or_introl eq_refl)) as NI.
      assert (L : List.length ts = List.length fs).
      { rewrite <- (map_length snd fs). clear - A. induction A; cbn; auto. }
      apply owns_obj with fs; auto; [apply combine_names; auto|]. rewrite combine_values; auto.
    - match type of H with match ?X with _ => _ end = _ => destruct X as [[ts f1]|] eqn:R; [|discriminate] end. destruct (disjoint [l] f1) eqn:D; [|discriminate].
      injection H as <- <-. pose proof (disjoint_apart _ _ D l (or_introl eq_refl)) as NI. apply owns_list with vs; auto.
  Qed.

  Fixpoint fitsb (v : hval) (t : ftype) {struct t} : bool :=
    match t, v with
    | TByte, HInt z => in_signed 8 z
    | TShort, HInt z => in_signed 16 z
    | TInt, HInt z => in_signed 32 z
    | TLong, HInt z => in_signed 64 z
    | TFloat, HFlt z => (0 <=? z) && (z <? 2 ^ 32)
    | TDouble, HFlt z => (0 <=? z) && (z <? 2 ^ 64)
    | TStr, HStr s => forallb is_unit s
    | TList u, HRef l => match nth_error h l with Some (CList vs) => forallb (fun x => match x with HNull => true | _ => fitsb x u end) vs | _ => false end
    | TObj c, HRef l => match nth_error h l with Some (CObj c' _) => String.eqb c c' | _ => false end
    | TCodec, HRef l => match nth_error h l with Some (CObj _ _) => true | _ => false end
    | TStr, HNull | TList _, HNull | TObj _, HNull | TCodec, HNull => true
    | _, _ => false
    end.
  Lemma signed_range n z : in_signed n z = true -> - 2 ^ (n - 1) <= z < 2 ^ (n - 1).
  Proof. unfold in_signed. intros H. apply andb_true_iff in H. destruct H as [H1 H2]. apply Z.leb_le in H1. apply Z.ltb_lt in H2. lia. Qed.
  Lemma fitsb_fits : forall t v, fitsb v t = true -> fits h v t.
  Proof.
    induction t as [| | | | | | |u IH|c|]; intros v H; destruct v; try discriminate H; cbn [fits fitsb] in *; auto;
      try (apply (signed_range 8) in H; exact H); try (apply (signed_range 16) in H; exact H); try (apply (signed_range 32) in H; exact H); try (apply (signed_range 64) in H; exact H).
    - apply andb_true_iff in H. destruct H as [H1 H2]. apply Z.leb_le in H1. apply Z.ltb_lt in H2. lia.
    - apply andb_true_iff in H. destruct H as [H1 H2]. apply Z.leb_le in H1. apply Z.ltb_lt in H2. lia.
    - rewrite forallb_forall in H. apply Forall_forall. intros u Hu. specialize (H u Hu). unfold is_unit in H. apply andb_true_iff in H. destruct H as [H1 H2].
      apply Z.leb_le in H1. apply Z.ltb_lt in H2. lia.
    - destruct (nth_error h l) as [[|vs]|] eqn:Hl; try discriminate. enough (K : fits h (HRef l) (TList u)) by (cbn [fits] in K; rewrite Hl in K; exact K). apply (fits_list_intro h l vs u Hl). intros x Hx. rewrite forallb_forall in H. specialize (H x Hx).
      destruct x; auto.
    - destruct (nth_error h l) as [[c' fs|]|] eqn:Hl; try discriminate. apply String.eqb_eq in H. subst c'. eauto.
    - destruct (nth_error h l) as [[c' fs|]|] eqn:Hl; try discriminate. eauto.
  Qed.
  Definition cell_ok (C : list (string * class_def)) (k : cell) : bool :=
    match k with
    | CList _ => true
    | CObj c fs => match assoc c C with
                   | Some cd => forall2b (fun fv ft => String.eqb (fst fv) (fst ft) && fitsb (snd fv) (snd ft)) fs (c_fields cd)
                   | None => false
                   end
    end.
  Lemma cells_ok C : forallb (cell_ok C) h = true -> heap_ok C h.
  Proof.
    intros H l c fs Hl. rewrite forallb_forall in H. specialize (H _ (nth_error_In _ _ Hl)). cbn [cell_ok] in H. destruct (assoc c C) as [cd|]; [|discriminate].
    exists cd. split; auto. clear Hl. revert H. generalize (c_fields cd). induction fs as [|f fs IH]; intros [|ft fts] H; cbn in H; try discriminate; constructor.
    - apply andb_true_iff in H. destruct H as [H _]. apply andb_true_iff in H. destruct H as [H1 H2]. apply String.eqb_eq in H1. split; auto. apply fitsb_fits. exact H2.
    - apply andb_true_iff in H. apply IH, H.
  Qed.
End View.
