(* The classes of objects do not change; new objects are of the classes that decode names or factories create. *)
From Coq Require Import ZArith List Bool String Lia.
From Verif.Model Require Import JavaPrim ByteBuf Utf8 Codec Ast Interp Show Heap Subclass.
From Verif.Spec Require Import Recast.
From Verif.Proofs Require Import DecodeFacts RegistryFacts SubclassFacts.
Import ListNotations.
Open Scope Z_scope.

Lemma k_upd h l x c : nth_error h l = Some c -> kind x = kind c -> kinds (upd h l x) = kinds h.
Proof.
  revert l. induction h as [|a h IH]; intros [|l] N K; try discriminate; cbn in N.
  - injection N as ->. unfold upd. cbn. rewrite K. reflexivity.
  - unfold upd, kinds in *. cbn. f_equal. apply IH; auto.
Qed.
Lemma k_put h l f x : kinds (put_field h l f x) = kinds h.
Proof. unfold put_field. destruct (nth_error h l) as [[]|] eqn:N; try reflexivity. eapply k_upd; eauto. Qed.
Lemma k_add h v x : kinds (list_add h v x) = kinds h.
Proof. destruct v; try reflexivity. unfold list_add. destruct (nth_error h l) as [[]|] eqn:N; try reflexivity. eapply k_upd; eauto. Qed.

Section Enc.
  Variable enc : heap -> hval -> bytebuf -> option exn * heap * bytebuf.
  Hypothesis K : forall h v b e h1 b1, enc h v b = (e, h1, b1) -> kinds h1 = kinds h.
  Variable sums : string -> option (list Z -> Z).
  Lemma k_elem x h v b e h1 b1 : henc_elem enc x h v b = (e, h1, b1) -> kinds h1 = kinds h.
  Proof.
    destruct x; cbn [henc_elem]; try apply K; intros Q.
    - destruct v; try (injection Q as <- <- <-; reflexivity). destruct (write_int o n z b). injection Q as <- <- <-. reflexivity.
    - destruct v; try (injection Q as <- <- <-; reflexivity). destruct (write_int o n bits b). injection Q as <- <- <-. reflexivity.
    - destruct (hstring_of v); [destruct (write_fixed j len pad left b)|]; injection Q as <- <- <-; reflexivity.
    - destruct (hstring_of v); [destruct (write_dyn j zn zo n o b)|]; injection Q as <- <- <-; reflexivity.
  Qed.
  Lemma k_elems x : forall l h b e h1 b1, henc_elems enc x h l b = (e, h1, b1) -> kinds h1 = kinds h.
  Proof.
    induction l as [|v l IH]; intros h b e h1 b1 Q; cbn [henc_elems] in Q; [injection Q as <- <- <-; reflexivity|]. destruct (henc_elem enc x h v b) as [[[e'|] h'] b'] eqn:A.
    - injection Q as <- <- <-. eapply k_elem; eauto.
    - rewrite (IH _ _ _ _ _ Q). eapply k_elem; eauto.
  Qed.
  Lemma k_estmt this s h loc b e h1 loc1 b1 : hexec_estmt enc sums this s (h, loc, b) = (e, (h1, loc1, b1)) -> kinds h1 = kinds h.
  Proof.
    destruct s; cbn [hexec_estmt]; intros Q.
    - destruct (field h this f); try (injection Q as <- <- <- <-; reflexivity). destruct (write_int o n z b). injection Q as <- <- <- <-. reflexivity.
    - destruct (field h this f); try (injection Q as <- <- <- <-; reflexivity). destruct (write_int o n bits b). injection Q as <- <- <- <-. reflexivity.
    - destruct (hstring_of (field h this f)); [destruct (write_fixed j len pad left b)|]; injection Q as <- <- <- <-; reflexivity.
    - destruct (hstring_of (field h this f)); [destruct (write_dyn j zn zo n o b)|]; injection Q as <- <- <- <-; reflexivity.
    - destruct (field h this f) as [| | | |l]; try (injection Q as <- <- <- <-; reflexivity); try (destruct (write_int zo zn 0 b); injection Q as <- <- <- <-; reflexivity).
      destruct (elements h (HRef l)) as [[|v vs]|]; try (injection Q as <- <- <- <-; reflexivity); [destruct (write_int zo zn 0 b); injection Q as <- <- <- <-; reflexivity|].
      destruct (write_int o n (wrap cast (Z.of_nat (List.length (v :: vs)))) b) as [[e'|] b']; [injection Q as <- <- <- <-; reflexivity|]. destruct (henc_elems enc x h (v :: vs) b') as [[e' h'] b''] eqn:A. injection Q as <- <- <- <-. eapply k_elems; eauto.
    - destruct (enc h (field h this f) b) as [[e' h'] b'] eqn:A. injection Q as <- <- <- <-. eapply K; eauto.
    - destruct (field h this f) as [| | | |l]; try (injection Q as <- <- <- <-; reflexivity); destruct (enc h _ b) as [[e' h'] b'] eqn:A; injection Q as <- <- <- <-; eapply K; eauto.
    - injection Q as <- <- <- <-. reflexivity.
    - destruct (write_int o n 0 b). injection Q as <- <- <- <-. reflexivity.
    - destruct (assoc x loc), (assoc y loc); injection Q as <- <- <- <-; rewrite ?k_put; reflexivity.
    - destruct (assoc x loc), (field h this f); try (injection Q as <- <- <- <-; reflexivity). destruct (set_int o n n0 z b). injection Q as <- <- <- <-. reflexivity.
    - destruct (sums alg); injection Q as <- <- <- <-; rewrite ?k_put; reflexivity.
  Qed.
  Lemma k_enc this : forall ss h loc b e h1 loc1 b1, hexec_enc enc sums this ss (h, loc, b) = (e, (h1, loc1, b1)) -> kinds h1 = kinds h.
  Proof.
    induction ss as [|s ss IH]; intros h loc b e h1 loc1 b1 Q; cbn [hexec_enc] in Q; [injection Q as <- <- <- <-; reflexivity|].
    destruct (hexec_estmt enc sums this s (h, loc, b)) as [[e'|] [[h' loc'] b']] eqn:A.
    - injection Q as <- <- <- <-. eapply k_estmt; eauto.
    - rewrite (IH _ _ _ _ _ _ _ Q). eapply k_estmt; eauto.
  Qed.
End Enc.
Lemma encode_kinds E : forall d h v b e h1 b1, hencode E d h v b = (e, h1, b1) -> kinds h1 = kinds h.
Proof.
  induction d as [|d IH]; intros h v b e h1 b1 Q; destruct v as [| | | |l]; cbn [hencode] in Q; try (injection Q as <- <- <-; reflexivity).
  destruct (nth_error h l) as [[c fs|vs]|]; try (injection Q as <- <- <-; reflexivity). destruct (find_class E c) as [cd|]; try (injection Q as <- <- <-; reflexivity).
  destruct (hexec_enc (hencode E d) (checksum E) l (c_enc cd) (h, [], b)) as [e' [[h' loc'] b']] eqn:A. injection Q as <- <- <-. exact (k_enc _ IH _ _ _ _ _ _ _ _ _ _ A).
Qed.

Section Dec.
  Variable P : string -> Prop.
  Definition ext (h h1 : heap) : Prop := exists new, kinds h1 = kinds h ++ new /\ forall c, In (Some c) new -> P c.
  Lemma ext_same h h1 : kinds h1 = kinds h -> ext h h1.
  Proof. intros Q. exists []. rewrite app_nil_r. split; [exact Q|]. intros c []. Qed.
  Lemma ext_trans h h1 h2 : ext h h1 -> ext h1 h2 -> ext h h2.
  Proof. intros (n1 & Q1 & A1) (n2 & Q2 & A2). exists (n1 ++ n2). split; [rewrite Q2, Q1, app_assoc; reflexivity|]. intros c I. apply in_app_or in I. destruct I; auto. Qed.
  Lemma ext_put h h1 l f x : ext h h1 -> ext h (put_field h1 l f x).
  Proof. intros (n & Q & A). exists n. rewrite k_put. auto. Qed.
  Lemma ext_add h h1 v x : ext h h1 -> ext h (list_add h1 v x).
  Proof. intros (n & Q & A). exists n. rewrite k_add. auto. Qed.
  Lemma ext_list h : ext h (fst (alloc_cell h (CList []))).
  Proof. exists [None]. cbn. split; [unfold kinds; rewrite map_app; reflexivity|]. intros c [X|[]]. discriminate. Qed.
  Variable dec : heap -> hval -> bytebuf -> option exn * heap * bytebuf.
  Hypothesis K : forall h v b e h1 b1, dec h v b = (e, h1, b1) -> ext h h1.
  Variable new : heap -> string -> heap * hval.
  Hypothesis NEW : forall h c h1 x, new h c = (h1, x) -> P c -> ext h h1.
  Variable create : key -> option string.
  Hypothesis CREATE : forall k c, create k = Some c -> P c.
  Ltac same := apply ext_same; rewrite ?k_put, ?k_add; reflexivity.
  Lemma k_delem this f y h b e h1 b1 : (forall c, y = YObj c -> P c) -> hdec_elem dec new this f y (h, b) = (e, (h1, b1)) -> ext h h1.
  Proof.
    intros L Q. destruct y; cbn [hdec_elem] in Q.
    - destruct (read_bytes n b) as [[e'|bs] b']; injection Q as <- <- <-; same.
    - destruct (read_bytes n b) as [[e'|bs] b']; injection Q as <- <- <-; same.
    - destruct (read_fixed len pad left b) as [[e'|bs] b']; injection Q as <- <- <-; same.
    - destruct (read_bytes n b) as [[e'|bs] b']; [injection Q as <- <- <-; same|]. destruct (get_int o bs >? 0); [|injection Q as <- <- <-; same]. destruct (read_chars (get_int o bs) b') as [[e'|cs] b'']; injection Q as <- <- <-; same.
    - destruct (new h c) as [h' x] eqn:N. apply NEW in N; [|apply L; reflexivity]. destruct (dec h' x b) as [[[e'|] h''] b'] eqn:A; apply K in A; injection Q as <- <- <-; [|apply ext_add]; eapply ext_trans; eauto.
  Qed.
  Lemma k_iter (f : hdst -> option exn * hdst) : (forall h b e h1 b1, f (h, b) = (e, (h1, b1)) -> ext h h1) -> forall n h b e h1 b1, iter n f (h, b) = (e, (h1, b1)) -> ext h h1.
  Proof.
    intros F. induction n as [|n IH]; intros h b e h1 b1 Q; cbn [iter] in Q; [injection Q as <- <- <-; same|]. destruct (f (h, b)) as [[e'|] [h' b']] eqn:A.
    - injection Q as <- <- <-. eapply F; eauto.
    - eapply ext_trans; [eapply F; eauto|eapply IH; eauto].
  Qed.
  Lemma k_dstmt this s h b e h1 b1 : (forall c, In c (literals s) -> P c) -> hexec_dstmt dec new create this s (h, b) = (e, (h1, b1)) -> ext h h1.
  Proof.
    intros L Q. destruct s; cbn [hexec_dstmt] in Q.
    - destruct (read_bytes n b) as [[e'|bs] b']; injection Q as <- <- <-; same.
    - destruct (read_bytes n b) as [[e'|bs] b']; injection Q as <- <- <-; same.
    - destruct (read_fixed len pad left b) as [[e'|bs] b']; injection Q as <- <- <-; same.
    - destruct (read_bytes n b) as [[e'|bs] b']; [injection Q as <- <- <-; same|]. destruct (get_int o bs >? 0); [|injection Q as <- <- <-; same]. destruct (read_chars (get_int o bs) b') as [[e'|cs] b'']; injection Q as <- <- <-; same.
    - destruct (read_bytes n b) as [[e'|bs] b']; [injection Q as <- <- <-; same|]. destruct (get_int o bs >? 0); [|injection Q as <- <- <-; same].
      pose proof (ext_list h) as X. destruct (alloc_cell h (CList [])) as [h' x] eqn:A. cbn [fst] in X. rewrite repeat_z_iter in Q. eapply ext_trans; [apply ext_put; exact X|]. eapply k_iter; [|exact Q]. intros h2 b2 e2 h3 b3. apply k_delem. intros c ->. apply L. left. reflexivity.
    - destruct (field h this f); try (injection Q as <- <- <-; same). destruct (new h c) as [h' x] eqn:N. injection Q as <- <- <-. apply ext_put. eapply NEW; eauto. apply L. left. reflexivity.
    - destruct (dec h (field h this f) b) as [[e' h'] b'] eqn:A. injection Q as <- <- <-. eapply K; eauto.
    - destruct (hkey_of (field h this key)) as [kk|]; [|injection Q as <- <- <-; same]. destruct (create kk) as [c|] eqn:C; [|injection Q as <- <- <-; same]. destruct (new h c) as [h' x] eqn:N. injection Q as <- <- <-. apply ext_put. eapply NEW; eauto.
  Qed.
  Lemma k_dec this : forall ss h b e h1 b1, (forall s c, In s ss -> In c (literals s) -> P c) -> hexec_dec dec new create this ss (h, b) = (e, (h1, b1)) -> ext h h1.
  Proof.
    induction ss as [|s ss IH]; intros h b e h1 b1 L Q; cbn [hexec_dec] in Q; [injection Q as <- <- <-; same|]. assert (L1 : forall c, In c (literals s) -> P c) by (intros c; apply L; left; reflexivity).
    destruct (hexec_dstmt dec new create this s (h, b)) as [[e'|] [h' b']] eqn:A.
    - injection Q as <- <- <-. eapply k_dstmt; eauto.
    - eapply ext_trans; [eapply k_dstmt; eauto|]. eapply IH; [|exact Q]. intros s' c I. apply L. right. exact I.
  Qed.
End Dec.
Lemma decode_kinds E (P : string -> Prop) : (forall c cd s k, find_class E c = Some cd -> In s (c_dec cd) -> In k (literals s) -> P k) -> (forall o k c, factory E o k = Some c -> P c) ->
  forall d h v b e h1 b1, hdecode E d h v b = (e, h1, b1) -> ext P h h1.
Proof.
  intros L F. induction d as [|d IH]; intros h v b e h1 b1 Q; destruct v as [| | | |l]; cbn [hdecode] in Q; try (injection Q as <- <- <-; apply ext_same; reflexivity).
  destruct (nth_error h l) as [[c fs|vs]|]; try (injection Q as <- <- <-; apply ext_same; reflexivity). destruct (find_class E c) as [cd|] eqn:FC; try (injection Q as <- <- <-; apply ext_same; reflexivity).
  destruct (hexec_dec (hdecode E d) (hnew E) (factory E c) l (c_dec cd) (h, b)) as [e' [h' b']] eqn:A. injection Q as <- <- <-. refine (k_dec P _ IH (hnew E) _ _ (F c) l _ _ _ _ _ _ (fun s k => L c cd s k FC) A).
  intros h0 c0 h2 x N Pc. unfold hnew in N. destruct (find_class E c0) as [cd0|]; unfold alloc_cell in N; apply pair_equal_spec in N; destruct N as [<- <-]; [|apply ext_same; reflexivity]. exists [Some c0]. split; [unfold kinds; rewrite map_app; reflexivity|]. intros c1 [X|[]]. injection X as <-. exact Pc.
Qed.
