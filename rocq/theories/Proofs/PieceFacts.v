(* The wire form of a message field by field: which pieces change when one field does. *)
From Coq Require Import ZArith List Bool String Lia.
From Verif.Model Require Import JavaPrim ByteBuf Utf8 Codec Ast Interp.
From Verif.Spec Require Import Bytes Buffers Wire Reading Locality Flat Sizes.
From Verif.Proofs Require Import BytesFacts ValInd Conform TableFacts EncodeFacts DecodeFacts FillFacts SizeFacts LocalFacts.
Import ListNotations.
Open Scope Z_scope.

Section Pieces.
  Variable Y : layouts.
  Variable E : env.
  Notation sums := (checksum E).
  Notation clean := (fun fv : string * val => unsummed Y sums (snd fv)).
  Variable f : string.
  Definition apart_from (a b : string * val) : Prop := fst a = fst b /\ (fst a = f \/ snd a = snd b).
  (* x, y: what the field with format w holds after encode of the two objects *)
  Definition alike (L : layout) (i : nat) (g : string) (w : wire) (x y : val) : Prop :=
    x = y \/ g = f
    \/ (exists n o alg z z', w = WSum n o alg /\ sums alg <> None /\ x = VInt z /\ y = VInt z')
    \/ (exists n o w' z z', w = WLen n o /\ nth_error L (S i) = Some (f, w') /\ x = VInt z /\ y = VInt z').
  Lemma fill_pieces : forall fs gs L pre pre', map fst fs = map fst L -> Forall2 apart_from fs gs -> forallb clean fs = true -> forallb clean gs = true ->
    forall i g w a x y b, nth_error L i = Some (g, w) -> nth_error (fill_fields Y E pre fs L) i = Some (a, x) -> nth_error (fill_fields Y E pre' gs L) i = Some (b, y) -> alike L i g w x y.
  Proof.
    induction fs as [fs IHfs] using length_ind2. intros gs L pre pre' N A Cf Cg i g w a x y b HL Hx Hy.
    destruct fs as [|[f1 x1] fs]; [destruct L; [destruct i; discriminate|discriminate]|]. destruct L as [|[g1 w1] L]; [discriminate|]. inversion A as [|? [f2 x2] ? gs' A1 A2]; subst.
    cbn [map fst] in N. injection N as -> N. destruct A1 as [A1 A1']. cbn [fst snd] in A1, A1'. subst f2. cbn [forallb snd] in Cf, Cg. apply andb_true_iff in Cf as [C1 Cf]. apply andb_true_iff in Cg as [C2 Cg].
    assert (IH : forall pre pre' j, nth_error L j = Some (g, w) -> nth_error (fill_fields Y E pre fs L) j = Some (a, x) -> nth_error (fill_fields Y E pre' gs' L) j = Some (b, y) -> alike L j g w x y) by (intros p q j; apply (IHfs fs); auto; simpl; lia).
    assert (NORM : forall p q X X', i = O -> fill_in Y sums p x1 w1 = X -> fill_in Y sums q x2 w1 = X' -> x = X -> y = X' -> alike ((g1, w1) :: L) i g w x y).
    { intros p q X X' -> <- <- -> ->. cbn in HL. injection HL as <- <-. destruct A1' as [->| ->]; [right; left; reflexivity|left]. apply fill_local. exact C2. }
    assert (NEXT : forall p q X X', nth_error ((a, X) :: fill_fields Y E p fs L) i = Some (a, x) -> nth_error ((b, X') :: fill_fields Y E q gs' L) i = Some (b, y) -> i <> O -> alike ((g1, w1) :: L) i g w x y).
    { intros p q X X' H1 H2 NZ. destruct i as [|j]; [contradiction|]. cbn in HL, H1, H2. exact (IH p q j HL H1 H2). }
    destruct (PeanoNat.Nat.eq_dec i 0) as [->|NZ].
    - cbn in HL. injection HL as <- <-. destruct w1; cbn [fill_fields nth_error] in Hx, Hy; try (injection Hx as <- <-; injection Hy as <- <-; eapply NORM; eauto; fail).
      + destruct fs as [|[h1 y1] fs]; [|destruct L as [|[h2 w2] L]; [discriminate|]].
        * inversion A2; subst. cbn in Hx, Hy. injection Hx as <- <-. injection Hy as <- <-. destruct A1' as [->| ->]; [right; left; reflexivity|left; reflexivity].
        * inversion A2 as [|? [h3 y2] ? gs'' B1 B2]; subst. cbn in Hx, Hy. injection Hx as <- <-. injection Hy as <- <-. destruct B1 as [B1 B1']. cbn [fst snd] in B1, B1'. subst h3. cbn [map fst] in N. injection N as -> N.
          destruct B1' as [->|Q].
          -- right. right. right. exists n, o, w2. eexists _, _. split; [reflexivity|]. split; [reflexivity|]. split; reflexivity.
          -- subst y2. cbn [forallb snd] in Cf. apply andb_true_iff in Cf as [C3 Cf]. left. f_equal. f_equal. f_equal. f_equal. apply fill_local. exact C3.
      + injection Hx as <- <-. injection Hy as <- <-. destruct (sums alg) as [cs|] eqn:SA.
        * right. right. left. exists n, o, alg. eexists _, _. split; [reflexivity|]. split; [congruence|]. split; reflexivity.
        * destruct A1' as [->| ->]; [right; left; reflexivity|left; reflexivity].
    - destruct i as [|j]; [contradiction|]. destruct w1; cbn [fill_fields nth_error] in Hx, Hy, HL; try (exact (IH _ _ j HL Hx Hy)).
      destruct fs as [|[h1 y1] fs]; [destruct L; [destruct j; discriminate HL|discriminate N]|destruct L as [|[h2 w2] L]; [discriminate|]].
      inversion A2 as [|? [h3 y2] ? gs'' B1 B2]; subst. cbn [map fst] in N. injection N as -> N. destruct B1 as [B1 B1']. cbn [fst snd] in B1, B1'. subst h3. cbn [forallb snd] in Cf, Cg. apply andb_true_iff in Cf as [C3 Cf]. apply andb_true_iff in Cg as [C4 Cg].
      destruct j as [|j]; cbn in Hx, Hy, HL.
      + injection HL as <- <-. injection Hx as <- <-. injection Hy as <- <-. destruct B1' as [->| ->]; [right; left; reflexivity|left]. apply fill_local. exact C4.
      + assert (IH2 : alike L j g w x y) by (eapply (IHfs fs); eauto; simpl; lia). exact IH2.
  Qed.

  (* the pieces of an object *)
  Definition pieces (fs : list (string * val)) (L : layout) : list (list Z) := map (fun p => ser Y (snd (fst p)) (snd (snd p))) (combine fs L).
  Lemma pieces_ser fs : forall L, List.concat (pieces fs L) = ser_fields Y fs L.
  Proof. unfold pieces, ser_fields. induction fs as [|[a x] fs IH]; intros [|[g w] L]; cbn; auto. rewrite IH. reflexivity. Qed.
  Lemma pieces_length fs L : map fst fs = map fst L -> List.length (pieces fs L) = List.length L.
  Proof. intros H. unfold pieces. rewrite map_length, combine_length. apply (f_equal (@List.length _)) in H. rewrite !map_length in H. lia. Qed.
  Lemma pieces_at fs : forall L i g w, map fst fs = map fst L -> nth_error L i = Some (g, w) -> exists x, nth_error fs i = Some (g, x) /\ nth_error (pieces fs L) i = Some (ser Y x w).
  Proof.
    induction fs as [|[a x] fs IH]; intros [|[h u] L] i g w N H; try discriminate; [destruct i; discriminate|]. cbn [map fst] in N. injection N as -> N. destruct i as [|i]; cbn in H.
    - injection H as <- <-. exists x. split; reflexivity.
    - destruct (IH L i g w N H) as (y & P & Q). exists y. split; [exact P|exact Q].
  Qed.
  Lemma get_at fs : forall i g x, NoDup (map fst fs) -> nth_error fs i = Some (g, x) -> get g fs = x.
  Proof.
    induction fs as [|[a y] fs IH]; intros [|i] g x ND H; try discriminate; cbn in H |- *; inversion ND as [|? ? NI ND']; subst.
    - injection H as -> ->. rewrite String.eqb_refl. reflexivity.
    - destruct (String.eqb_spec g a) as [->|]; [|eauto]. exfalso. apply NI. apply nth_error_In in H. change a with (fst (a, x)). apply in_map. exact H.
  Qed.
End Pieces.

(* a flat layout: each field is read from its own bytes *)
Lemma skipn_add {A : Type} n m (l : list A) : skipn n (skipn m l) = skipn (m + n) l.
Proof. revert l. induction m as [|m IH]; intros [|a l]; cbn; auto. apply skipn_nil. Qed.
Lemma parse_at : forall L bs i g w, nth_error L i = Some (g, w) -> nth_error (parse L bs) i = Some (g, scalar_of w (firstn (width w) (skipn (total_width (firstn i L)) bs))).
Proof.
  induction L as [|[f u] L IH]; intros bs [|i] g w H; try discriminate; cbn in H |- *.
  - injection H as -> ->. reflexivity.
  - rewrite (IH _ i g w H). rewrite skipn_add. reflexivity.
Qed.

(* the widths of the first fields *)
Section Widths.
  Variable C : list (string * class_def).
  Variable Y : layouts.
  Hypothesis HC : conforms C Y.
  Lemma text_forget x w : text (forget Y x w) = text x.
  Proof. destruct x; try reflexivity; cbn [forget]; [destruct w; reflexivity|]. destruct (find c Y); reflexivity. Qed.
  Lemma prefix_width : forall A B seen fs gs, fields_ok C gs (A ++ B) = true -> ok_fields Y seen (A ++ B) = true ->
    all2 (fun fv fw => complete Y (snd fv) (snd fw)) gs (A ++ B) = true -> forget_fields Y fs (A ++ B) = forget_fields Y gs (A ++ B) ->
    map fst fs = map fst (A ++ B) -> flat A = true -> lefts_filled fs A = true ->
    List.length (List.concat (firstn (List.length A) (pieces Y gs (A ++ B)))) = total_width A.
  Proof.
    induction A as [|[g w] A IH]; intros B seen fs gs Hg Hok Hc Hf N Hfl Hl; [reflexivity|].
    destruct gs as [|[g1 y] gs]; [discriminate|]. destruct fs as [|[g2 x] fs]; [discriminate|]. rewrite <- !app_comm_cons in *.
    apply fields_ok_cons in Hg as (-> & Hy & Hg). apply ok_field_of in Hok as (_ & Hw & Hok & _). cbn [all2 snd] in Hc. apply andb_true_iff in Hc as [Hc1 Hc].
    cbn [forget_fields] in Hf. assert (Hf1 : forget_field Y x w = forget_field Y y w) by congruence. assert (Hf2 : forget_fields Y fs (A ++ B) = forget_fields Y gs (A ++ B)) by congruence. clear Hf.
    cbn [map fst] in N. assert (N2 : map fst fs = map fst (A ++ B)) by congruence. cbn [flat forallb snd] in Hfl. apply andb_true_iff in Hfl as [Hfw Hfl].
    unfold lefts_filled in Hl. cbn [all2 snd] in Hl. apply andb_true_iff in Hl as [Hl1 Hl]. unfold pieces. cbn [combine map fst snd List.length firstn List.concat total_width]. rewrite app_length.
    pose proof (IH B _ fs gs Hg Hok Hc Hf2 N2 Hfl Hl) as I. unfold pieces in I. rewrite I. f_equal.
    rewrite (ser_size C Y HC y w Hw (or_introl Hy) Hc1).
    destruct w; try discriminate Hfw; destruct y; try reflexivity; cbn [size_of width text] in *; destruct lft; try reflexivity; cbn [andb];
      cbn [forget_field] in Hf1; apply (f_equal text) in Hf1; rewrite !text_forget in Hf1; cbn [text] in Hf1; rewrite Hf1 in Hl1; try discriminate Hl1; destruct s; try reflexivity; discriminate Hl1.
  Qed.
End Widths.

(* statements that do not touch field f do the same whatever f holds *)
Lemma set_set f x (fs : list (string * val)) y : set f x (set f y fs) = set f x fs.
Proof. induction fs as [|[g z] fs IH]; cbn [set]; auto. destruct (String.eqb f g) eqn:Q; cbn [set]; rewrite Q; [reflexivity|]. rewrite IH. reflexivity. Qed.
Lemma set_comm f g x y (fs : list (string * val)) : f <> g -> set f x (set g y fs) = set g y (set f x fs).
Proof.
  intros NE. induction fs as [|[h z] fs IH]; cbn [set]; auto. destruct (String.eqb_spec g h) as [->|N1]; destruct (String.eqb_spec f h) as [->|N2]; cbn [set].
  - contradiction.
  - apply String.eqb_neq in N2. rewrite N2, String.eqb_refl. reflexivity.
  - apply String.eqb_neq in N1. rewrite N1, String.eqb_refl. reflexivity.
  - apply String.eqb_neq in N1, N2. rewrite N1, N2, IH. reflexivity.
Qed.
Lemma get_other f g x (fs : list (string * val)) : f <> g -> get g (set f x fs) = get g fs.
Proof.
  intros NE. induction fs as [|[h z] fs IH]; cbn [set get]; auto. destruct (String.eqb_spec f h) as [->|N2]; cbn [get].
  - assert (Q : String.eqb g h = false) by (apply String.eqb_neq; congruence). rewrite Q. reflexivity.
  - rewrite IH. reflexivity.
Qed.
Lemma get_same f x (fs : list (string * val)) : In f (map fst fs) -> get f (set f x fs) = x.
Proof.
  induction fs as [|[h z] fs IH]; cbn [set get map fst In]; [contradiction|]. intros H. destruct (String.eqb_spec f h) as [->|N2]; cbn [get].
  - rewrite String.eqb_refl. reflexivity.
  - apply String.eqb_neq in N2 as Q. rewrite Q. apply IH. destruct H; [congruence|exact H].
Qed.
Lemma set_names f x (fs : list (string * val)) : map fst (set f x fs) = map fst fs.
Proof. induction fs as [|[h z] fs IH]; cbn [set]; auto. destruct (String.eqb f h) eqn:Q; cbn [map fst]; [apply String.eqb_eq in Q as ->; reflexivity|]. rewrite IH. reflexivity. Qed.

Definition touches (f : string) (s : dstmt) : bool :=
  match s with
  | DRead _ _ g | DReadF _ _ g | DFix g _ _ _ | DDyn g _ _ | DList g _ _ _ | DNewIfNull g _ | DObj g => String.eqb f g
  | DCreate g k => String.eqb f g || String.eqb f k
  end.
Section Untouched.
  Variable new : string -> val.
  Variable create : key -> option string.
  Variable dec : val -> bytebuf -> option exn * val * bytebuf.
  Variable f : string.
  Definition same_but (x : val) (r r' : option exn * (list (string * val) * bytebuf)) : Prop :=
    fst r' = fst r /\ fst (snd r') = set f x (fst (snd r)) /\ snd (snd r') = snd (snd r).
  Definition kept_f (fs : list (string * val)) (r : option exn * (list (string * val) * bytebuf)) : Prop :=
    get f (fst (snd r)) = get f fs /\ map fst (fst (snd r)) = map fst fs.
  Lemma stmt_but x s fs b : touches f s = false ->
    same_but x (exec_dstmt dec new create s (fs, b)) (exec_dstmt dec new create s (set f x fs, b)) /\ kept_f fs (exec_dstmt dec new create s (fs, b)).
  Proof.
    intros T. assert (ST : forall e b', same_but x (e, (fs, b')) (e, (set f x fs, b')) /\ kept_f fs (e, (fs, b'))) by (intros; split; [split; [reflexivity|split; reflexivity]|split; reflexivity]).
    assert (SE : forall e g y b', String.eqb f g = false -> same_but x (e, (set g y fs, b')) (e, (set g y (set f x fs), b')) /\ kept_f fs (e, (set g y fs, b'))).
    { intros e g y b' Q. apply String.eqb_neq in Q. split; [split; [reflexivity|split; [apply eq_sym, set_comm; exact Q|reflexivity]]|]. split; cbn [fst snd]; [apply get_other; congruence|apply set_names]. }
    destruct s; cbn [exec_dstmt touches] in *.
    - destruct (read_bytes n b) as [[e|bs] b']; auto.
    - destruct (read_bytes n b) as [[e|bs] b']; auto.
    - destruct (read_fixed len pad left b) as [[e|bs] b']; auto.
    - destruct (read_bytes n b) as [[e|bs] b']; auto. cbv zeta. destruct (get_int o bs >? 0); auto. destruct (read_chars (get_int o bs) b') as [[e|cs] b'']; auto.
    - destruct (read_bytes n b) as [[e|bs] b']; auto. cbv zeta. destruct (get_int o bs >? 0); auto. destruct (repeat_z (get_int o bs) (dec_elem dec new y) ([], b')) as [e [l b'']]. auto.
    - apply String.eqb_neq in T as T'. rewrite (get_other f f0 x fs T'). destruct (get f0 fs); auto.
    - apply String.eqb_neq in T as T'. rewrite (get_other f f0 x fs T'). destruct (dec (get f0 fs) b) as [[e v] b']. auto.
    - apply orb_false_iff in T as [T1 T2]. apply String.eqb_neq in T2 as T'. rewrite (get_other f key x fs T'). destruct (key_of (get key fs)) as [kk|]; auto. destruct (create kk); auto.
  Qed.
  Lemma stmts_but x ss : forall fs b, forallb (fun s => negb (touches f s)) ss = true ->
    same_but x (exec_dec dec new create ss (fs, b)) (exec_dec dec new create ss (set f x fs, b)) /\ kept_f fs (exec_dec dec new create ss (fs, b)).
  Proof.
    induction ss as [|s ss IH]; intros fs b T; cbn [exec_dec]; [split; [split; [reflexivity|split; reflexivity]|split; reflexivity]|].
    cbn [forallb] in T. apply andb_true_iff in T as [T1 T]. apply negb_true_iff in T1. destruct (stmt_but x s fs b T1) as [(P1 & P2 & P3) [K1 K2]].
    destruct (exec_dstmt dec new create s (fs, b)) as [e [fs1 b1]], (exec_dstmt dec new create s (set f x fs, b)) as [e' [fs1' b1']]. cbn [fst snd] in *. subst e' fs1' b1'.
    destruct e as [e|]; [split; [split; [reflexivity|split; reflexivity]|split; [exact K1|exact K2]]|]. destruct (IH fs1 b1 T) as [I [J1 J2]]. split; [exact I|]. split; [rewrite J1; exact K1|rewrite J2; exact K2].
  Qed.
End Untouched.
Lemma parse_mid f w : forall A pre X, List.length pre = total_width A -> parse (A ++ [(f, w)]) (pre ++ X) = parse A pre ++ [(f, scalar_of w (firstn (width w) X))].
Proof.
  induction A as [|[g u] A IH]; intros pre X H; cbn [app parse total_width] in *.
  - destruct pre; [reflexivity|discriminate].
  - rewrite firstn_app, skipn_app. replace (width u - List.length pre)%nat with O by lia. cbn [firstn skipn]. rewrite app_nil_r. f_equal. apply IH. rewrite skipn_length. lia.
Qed.
Lemma parse_fst L : forall bs, map fst (parse L bs) = map fst L.
Proof. induction L as [|[g u] L IH]; intros bs; cbn [parse map fst]; auto. rewrite IH. reflexivity. Qed.

(* normalize and forget, field by field *)
Section Content.
  Variable Y : layouts.
  Lemma forget_normalize v : forall w, forget Y (normalize v) w = normalize (forget Y v w).
  Proof.
    induction v as [|z|z|s|l IH|c fs IH] using val_ind2; intros w; try reflexivity.
    - destruct s; reflexivity.
    - destruct l as [|x l]; [destruct w; reflexivity|]. destruct w; try reflexivity. cbn [normalize forget map]. inversion IH as [|? ? Hx Hl]; subst. rewrite Hx. f_equal. f_equal.
      clear - Hl. induction Hl as [|y l Hy Hl IHl]; [reflexivity|]. cbn [map]. rewrite Hy, IHl. reflexivity.
    - destruct (find c Y) as [L|] eqn:HL; cbn [normalize]; [|cbn [forget]; rewrite HL; reflexivity]. rewrite !(forget_obj_eq _ _ _ _ _ HL). cbn [normalize]. f_equal. clear HL. revert L.
      induction IH as [|[g x] fs Hx Hfs IHfs]; intros [|[h u] L]; try reflexivity. cbn [map forget_fields fst snd] in *. rewrite IHfs. f_equal. f_equal. destruct u; cbn [forget_field]; try apply Hx; reflexivity.
  Qed.
  Lemma get_normal g (fs : list (string * val)) : get g (map (fun fv => (fst fv, normalize (snd fv))) fs) = normalize (get g fs).
  Proof. induction fs as [|[h x] fs IH]; [reflexivity|]. cbn [map get fst snd]. destruct (String.eqb g h); [reflexivity|exact IH]. Qed.
  Lemma get_forget g w : forall fs L, map fst fs = map fst L -> find g L = Some w -> get g (forget_fields Y fs L) = forget_field Y (get g fs) w.
  Proof.
    induction fs as [|[h x] fs IH]; intros [|[k u] L] N F; try discriminate. cbn [map fst] in N. injection N as -> N. cbn [forget_fields get find] in *. destruct (String.eqb g k); [injection F as ->; reflexivity|]. apply IH; auto.
  Qed.
  Lemma normal_scalar y w z : normalize (forget Y y w) = normalize (forget Y z w) -> (exists k, z = VInt k) \/ (exists k, z = VFlt k) \/ (exists a s, z = VStr (a :: s)) -> y = z.
  Proof.
    intros H [[k ->]|[[k ->]|(a & s & ->)]]; cbn [forget normalize] in H; destruct y as [| | |[|]|[|]|]; cbn [forget normalize] in H; try discriminate H; try (injection H as ->; reflexivity); try (destruct w; discriminate H);
      try (destruct (find _ Y); discriminate H); injection H as -> ->; reflexivity.
  Qed.
End Content.
