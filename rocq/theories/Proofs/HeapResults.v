(* hashCode returns an int, toString a string of UTF-16 units. *)
From Coq Require Import ZArith List Bool String Ascii Lia.
From Verif.Model Require Import JavaPrim ByteBuf Utf8 Codec Ast Interp Show Heap.
From Verif.Spec Require Import Bytes Wire Sharing.
From Verif.Proofs Require Import BytesFacts HeapFacts HeapOwn HeapEq HeapCycle HeapTypes.
Import ListNotations.
Open Scope Z_scope.
Open Scope list_scope.

Lemma step_range k x : - 2 ^ 31 <= hash_step k x < 2 ^ 31.
Proof. unfold hash_step. pose proof (wrap_in_signed 32 (31 * k + x) ltac:(lia)) as W. unfold in_signed in W. change (32 - 1) with 31 in W. lia. Qed.
Lemma hash_fields_range hasho h ts : forall names fs k z, - 2 ^ 31 <= k < 2 ^ 31 -> hhash_fields hasho h ts names fs k = Some z -> - 2 ^ 31 <= z < 2 ^ 31.
Proof.
  induction names as [|f names IH]; cbn [hhash_fields]; intros fs k z K; [intros [= <-]; exact K|]. destruct (hhash_val _ _ _ _); [|discriminate]. apply IH. apply step_range.
Qed.
Theorem hash_range E : forall d h a z, hhash E d h a = Some z -> - 2 ^ 31 <= z < 2 ^ 31.
Proof.
  induction d as [|d IH]; intros h a z; cbn [hhash]; [discriminate|]. destruct a as [| | | |l]; try discriminate. destruct (nth_error h l) as [[c fs|]|]; try discriminate. destruct (find_class E c) as [cd|]; [|discriminate].
  destruct (c_hash cd); first [apply IH|apply hash_fields_range; lia].
Qed.

Definition prints (pr : printers) : Prop := forall z, units (show_float pr z) /\ units (show_double pr z).
Lemma units_app a b : units a -> units b -> units (a ++ b). Proof. intros. now apply Forall_app. Qed.
Lemma units_chars s : units (chars s).
Proof. induction s as [|a s IH]; cbn; constructor; [|exact IH]. pose proof (N_ascii_bounded a). lia. Qed.
Lemma units_digits : forall n z acc, units acc -> units (show_digits n z acc).
Proof.
  induction n as [|n IH]; intros z acc H; cbn [show_digits]; [exact H|]. assert (D : units ((48 + z mod 10) :: acc)) by (constructor; [pose proof (Z.mod_pos_bound z 10 ltac:(lia)); lia|exact H]).
  destruct (z <? 10); [exact D|apply IH; exact D].
Qed.
Lemma units_int z : units (show_int z).
Proof. unfold show_int. destruct (z <? 0); [constructor; [lia|]|]; apply units_digits; constructor. Qed.

Section Strings.
  Variable E : env.
  Variable P : printers.
  Hypothesis PR : prints P.
  Lemma item_units showo t h v : (forall w s, showo w = Some s -> units s) -> (v = HNull \/ exists u, fits h v u) -> forall s, hshow_item P showo t v = Some s -> units s.
  Proof.
    intros S F s. destruct v as [|z|z|u|l]; cbn [hshow_item].
    - intros [= <-]. apply (units_chars "null").
    - intros [= <-]. apply units_int.
    - intros [= <-]. destruct t; apply PR.
    - intros [= <-]. destruct F as [F|(w & F)]; [discriminate|]. destruct w; cbn in F; try contradiction. exact F.
    - apply S.
  Qed.
  Lemma items_units showo t h : (forall w s, showo w = Some s -> units s) -> forall vs, (forall v, In v vs -> v = HNull \/ exists u, fits h v u) -> forall s, hshow_items P showo t vs = Some s -> units s.
  Proof.
    intros S vs. induction vs as [|v vs IH]; intros F s; cbn [hshow_items]; [intros [= <-]; constructor|].
    pose proof (item_units showo t h v S (F v (or_introl eq_refl))) as A. destruct (hshow_item P showo t v) as [a|]; [|discriminate]. specialize (IH (fun w I => F w (or_intror I))). destruct (hshow_items P showo t vs) as [b|]; [|discriminate].
    intros [= <-]. destruct vs; [apply A; reflexivity|]. apply units_app; [apply A; reflexivity|]. repeat (constructor; [lia|]). apply IH; reflexivity.
  Qed.
  Lemma val_units showo t u h v : (forall w s, showo w = Some s -> units s) -> fits h v u -> forall s, hshow_val P showo h t v = Some s -> units s.
  Proof.
    intros S F s. unfold hshow_val. destruct (elements h v) as [vs|] eqn:Q; [|apply (item_units showo t h v S); eauto].
    destruct (hshow_items P showo _ vs) as [a|] eqn:A; [|discriminate]. intros [= <-]. constructor; [lia|]. apply units_app; [|exact (units_chars "]")]. eapply (items_units showo _ h S vs); [|exact A].
    unfold elements in Q. destruct v as [| | | |l]; try discriminate. destruct (nth_error h l) as [[|ws]|] eqn:Hl; try discriminate. injection Q as ->. destruct u; try (cbn in F; solve [contradiction|destruct F; congruence|destruct F as (? & ? & ?); congruence]).
    apply fits_list in F as [F|(m & xs & F & Hm & X)]; [discriminate|]. injection F as <-. rewrite Hl in Hm. injection Hm as <-. intros x Hx. destruct (X x Hx); eauto.
  Qed.
  Lemma fields_units showo h ts : (forall w s, showo w = Some s -> units s) -> forall ls first fs, (forall f, exists u, fits h (hget f fs) u) -> forall s, hshow_fields P showo h ts first ls fs = Some s -> units s.
  Proof.
    intros S ls. induction ls as [|[l f] ls IH]; intros first fs F s; cbn [hshow_fields]; [intros [= <-]; constructor|].
    destruct (F f) as (u & Fu). pose proof (val_units showo (type_of f ts) u h (hget f fs) S Fu) as A. destruct (hshow_val P showo h (type_of f ts) (hget f fs)) as [a|]; [|discriminate]. specialize (IH false fs F). destruct (hshow_fields P showo h ts false ls fs) as [b|]; [|discriminate].
    intros [= <-]. apply units_app; [destruct first; [constructor|exact (units_chars ", ")]|]. apply units_app; [apply units_chars|]. constructor; [lia|]. apply units_app; [apply A|apply IH]; reflexivity.
  Qed.
  Theorem string_units h : heap_ok (classes E) h -> forall d v s, hstring E P d h v = Some s -> units s.
  Proof.
    intros OK. induction d as [|d IH]; intros v s; cbn [hstring]; [discriminate|]. destruct v as [| | | |l]; try discriminate. destruct (nth_error h l) as [[c fs|]|] eqn:Hl; try discriminate. destruct (find_class E c) as [cd|]; [|discriminate].
    destruct (hshow_fields _ _ _ _ _ _ _) as [a|] eqn:A; [|discriminate]. intros [= <-]. apply units_app; [apply units_chars|]. repeat (constructor; [lia|]). apply units_app; [|exact (units_chars "]")].
    eapply (fields_units _ h _ IH); [|exact A]. intros f. destruct (OK l c fs Hl) as (cd' & _ & F). clear - F. induction F as [|[g v] [g' t] fs F [H1 H2] HF IH]; cbn [hget]; [exists TCodec; exact I|]. destruct (String.eqb f g); eauto.
  Qed.
End Strings.
