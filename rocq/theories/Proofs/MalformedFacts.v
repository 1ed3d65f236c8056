(* The decoder follows Spec/Malformed.v. *)
From Coq Require Import ZArith List Bool Lia ZifyBool.
From Verif.Model Require Import JavaPrim Utf8.
From Verif.Spec Require Import Bytes Malformed.
From Verif.Proofs Require Import BytesFacts BufFacts Utf8Facts Utf8More.
Import ListNotations.
Open Scope Z_scope.
Ltac Zify.zify_post_hook ::= Z.div_mod_to_equations.

Definition cont (b : Z) : Prop := 128 <= b < 192.
Definition lead2 (b1 b2 : Z) : Prop :=
  cont b2 /\ (194 <= b1 < 224 \/ b1 = 224 /\ 160 <= b2 \/ 225 <= b1 < 240 \/ b1 = 240 /\ 144 <= b2 \/ 241 <= b1 <= 243 \/ b1 = 244 /\ b2 < 144).
Definition ok (p : list Z) : Prop :=
  match p with
  | [] => True
  | [b1] => 0 <= b1 < 128 \/ 194 <= b1 <= 244
  | [b1; b2] => lead2 b1 b2
  | [b1; b2; b3] => lead2 b1 b2 /\ 224 <= b1 /\ cont b3
  | [b1; b2; b3; b4] => lead2 b1 b2 /\ 240 <= b1 /\ cont b3 /\ cont b4
  | _ => False
  end.
Lemma scal2 b1 b2 : 194 <= b1 < 224 -> cont b2 -> utf8_scalar ((b1 - 192) * 64 + (b2 - 128)) = [b1; b2].
Proof.
  unfold cont. intros H1 H2. unfold utf8_scalar. destruct (Z.ltb_spec ((b1 - 192) * 64 + (b2 - 128)) 128); [lia|].
  destruct (Z.ltb_spec ((b1 - 192) * 64 + (b2 - 128)) 2048); [|lia]. repeat f_equal; lia.
Qed.
Lemma scal3 b1 b2 b3 : 224 <= b1 < 240 -> lead2 b1 b2 -> cont b3 -> utf8_scalar ((b1 - 224) * 4096 + (b2 - 128) * 64 + (b3 - 128)) = [b1; b2; b3].
Proof.
  unfold lead2, cont. intros H1 H2 H3. unfold utf8_scalar. set (c := (b1 - 224) * 4096 + (b2 - 128) * 64 + (b3 - 128)).
  destruct (Z.ltb_spec c 128); [lia|]. destruct (Z.ltb_spec c 2048); [lia|]. destruct (Z.ltb_spec c 65536); [|lia]. repeat f_equal; lia.
Qed.
Lemma scal4 b1 b2 b3 b4 : 240 <= b1 -> lead2 b1 b2 -> cont b3 -> cont b4 ->
  utf8_scalar ((b1 - 240) * 262144 + (b2 - 128) * 4096 + (b3 - 128) * 64 + (b4 - 128)) = [b1; b2; b3; b4].
Proof.
  unfold lead2, cont. intros H1 H2 H3 H4. unfold utf8_scalar. set (c := (b1 - 240) * 262144 + (b2 - 128) * 4096 + (b3 - 128) * 64 + (b4 - 128)).
  destruct (Z.ltb_spec c 128); [lia|]. destruct (Z.ltb_spec c 2048); [lia|]. destruct (Z.ltb_spec c 65536); [lia|]. repeat f_equal; lia.
Qed.
Lemma scalar_shape c : code_point c ->
  (utf8_scalar c = [c] /\ 0 <= c < 128)
  \/ (exists b1 b2, utf8_scalar c = [b1; b2] /\ 194 <= b1 < 224 /\ cont b2)
  \/ (exists b1 b2 b3, utf8_scalar c = [b1; b2; b3] /\ 224 <= b1 < 240 /\ lead2 b1 b2 /\ cont b3)
  \/ (exists b1 b2 b3 b4, utf8_scalar c = [b1; b2; b3; b4] /\ 240 <= b1 /\ lead2 b1 b2 /\ cont b3 /\ cont b4).
Proof.
  unfold code_point, lead2, cont, utf8_scalar. intros H. destruct (Z.ltb_spec c 128); [left; split; [reflexivity|lia]|]. right.
  destruct (Z.ltb_spec c 2048); [left; do 2 eexists; split; [reflexivity|]; lia|]. right.
  destruct (Z.ltb_spec c 65536); [left; do 3 eexists; split; [reflexivity|]; lia|]. right. do 4 eexists. split; [reflexivity|]. lia.
Qed.
Lemma begins_ok p : begins p -> ok p.
Proof.
  intros (c & t & Hc & E). destruct (scalar_shape c Hc) as [(Q & R)|[(b1 & b2 & Q & R)|[(b1 & b2 & b3 & Q & R)|(b1 & b2 & b3 & b4 & Q & R)]]]; rewrite Q in E;
    repeat (destruct p as [|? p]; [unfold ok, lead2, cont in *; solve [exact I|lia]|cbn [app] in E; first [discriminate E|injection E; clear E; intros E; intros; subst]]).
Qed.
Lemma ok_begins p : ok p -> begins p.
Proof.
  intros H. destruct p as [|b1 [|b2 [|b3 [|b4 [|]]]]]; cbn [ok] in H; try contradiction.
  - exists 0, [0]. split; [unfold code_point; lia|reflexivity].
  - destruct H as [H|H].
    + exists b1, []. split; [unfold code_point; lia|]. unfold utf8_scalar. destruct (Z.ltb_spec b1 128); [reflexivity|lia].
    + assert (D : 194 <= b1 < 224 \/ b1 = 224 \/ 225 <= b1 < 240 \/ b1 = 240 \/ 241 <= b1 <= 244) by lia. destruct D as [D|[D|[D|[D|D]]]].
      * exists ((b1 - 192) * 64 + (128 - 128)), [128]. split; [unfold code_point; lia|]. apply scal2; unfold cont; lia.
      * exists ((b1 - 224) * 4096 + (160 - 128) * 64 + (128 - 128)), [160; 128]. split; [unfold code_point; lia|]. apply scal3; unfold lead2, cont; lia.
      * exists ((b1 - 224) * 4096 + (128 - 128) * 64 + (128 - 128)), [128; 128]. split; [unfold code_point; lia|]. apply scal3; unfold lead2, cont; lia.
      * exists ((b1 - 240) * 262144 + (144 - 128) * 4096 + (128 - 128) * 64 + (128 - 128)), [144; 128; 128]. split; [unfold code_point; lia|]. apply scal4; unfold lead2, cont; lia.
      * exists ((b1 - 240) * 262144 + (128 - 128) * 4096 + (128 - 128) * 64 + (128 - 128)), [128; 128; 128]. split; [unfold code_point; lia|]. apply scal4; unfold lead2, cont; lia.
  - pose proof H as [H1 H2]. unfold cont in H1. assert (D : 194 <= b1 < 224 \/ 224 <= b1 < 240 \/ 240 <= b1) by lia. destruct D as [D|[D|D]].
    + exists ((b1 - 192) * 64 + (b2 - 128)), []. split; [unfold code_point; lia|]. apply scal2; unfold cont; lia.
    + exists ((b1 - 224) * 4096 + (b2 - 128) * 64 + (128 - 128)), [128]. split; [unfold code_point; lia|]. apply scal3; auto; unfold cont; lia.
    + exists ((b1 - 240) * 262144 + (b2 - 128) * 4096 + (128 - 128) * 64 + (128 - 128)), [128; 128]. split; [unfold code_point; lia|]. apply scal4; auto; unfold cont; lia.
  - destruct H as (H & H1 & H2). pose proof H as H0. unfold lead2, cont in H0, H2. assert (D : 224 <= b1 < 240 \/ 240 <= b1) by lia. destruct D as [D|D].
    + exists ((b1 - 224) * 4096 + (b2 - 128) * 64 + (b3 - 128)), []. split; [unfold code_point; lia|]. apply scal3; auto.
    + exists ((b1 - 240) * 262144 + (b2 - 128) * 4096 + (b3 - 128) * 64 + (128 - 128)), [128]. split; [unfold code_point; lia|]. apply scal4; auto; unfold cont; lia.
  - destruct H as (H & H1 & H2 & H3). pose proof H as H0. unfold lead2, cont in H0, H2, H3.
    exists ((b1 - 240) * 262144 + (b2 - 128) * 4096 + (b3 - 128) * 64 + (b4 - 128)), []. split; [unfold code_point; lia|]. apply scal4; auto.
Qed.
Lemma begins_app p q : begins (p ++ q) -> begins p.
Proof. intros (c & t & Hc & E). exists c, (q ++ t). rewrite app_assoc. auto. Qed.

(* length of the form a lead byte promises *)
Definition need (b1 : Z) : nat := if b1 <? 128 then 1 else if b1 <? 224 then 2 else if b1 <? 240 then 3 else 4.
Lemma scalar_need c : code_point c -> exists b1 t, utf8_scalar c = b1 :: t /\ length (utf8_scalar c) = need b1.
Proof.
  intros Hc. unfold need. destruct (scalar_shape c Hc) as [(Q & R)|[(b1 & b2 & Q & R)|[(b1 & b2 & b3 & Q & R)|(b1 & b2 & b3 & b4 & Q & R)]]]; rewrite Q; do 2 eexists; (split; [reflexivity|]); cbn [length].
  - destruct (Z.ltb_spec c 128); [reflexivity|lia].
  - destruct (Z.ltb_spec b1 128), (Z.ltb_spec b1 224); try lia; reflexivity.
  - destruct (Z.ltb_spec b1 128), (Z.ltb_spec b1 224), (Z.ltb_spec b1 240); try lia; reflexivity.
  - destruct (Z.ltb_spec b1 128), (Z.ltb_spec b1 224), (Z.ltb_spec b1 240); try lia; reflexivity.
Qed.
Lemma split_longer {A} (p : list A) : forall r q t, p ++ r = q ++ t -> (length p < length q)%nat -> exists x q', q = p ++ x :: q' /\ r = (x :: q') ++ t.
Proof.
  induction p as [|a p IH]; intros r [|b q] t E L; cbn [length] in L; try lia.
  - exists b, q. auto.
  - cbn [app] in E. injection E as -> E. destruct (IH r q t E ltac:(lia)) as (x & q' & -> & ->). exists x, q'. auto.
Qed.
Lemma bad_intro b1 p r s : (p = [] \/ ok (b1 :: p)) -> (S (length p) < need b1)%nat -> (forall x r', r = x :: r' -> ~ ok (b1 :: p ++ [x])) ->
  decodes r s -> decodes (b1 :: p ++ r) (65533 :: s).
Proof.
  intros Hp Hn Hr D. assert (L : forall q t, (b1 :: p) ++ r = q ++ t -> (length (b1 :: p) < length q)%nat -> ~ begins q).
  { intros q t E Lq B. destruct (split_longer (b1 :: p) r q t E Lq) as (x & q' & -> & E'). apply (Hr x (q' ++ t)); [exact E'|]. apply begins_ok. apply (begins_app _ q').
    change (b1 :: p ++ [x]) with ((b1 :: p) ++ [x]). rewrite <- app_assoc. exact B. }
  apply (D_bad (b1 :: p)); auto.
  - discriminate.
  - intros c t Hc E. destruct (scalar_need c Hc) as (b & u & E1 & E2). assert (b = b1) by (rewrite E1 in E; cbn [app] in E; congruence). subst b.
    apply (L _ t E); [rewrite E2; cbn [length]; lia|]. exists c, []. rewrite app_nil_r. auto.
  - destruct Hp as [->|Hp]; [left; reflexivity|right; apply ok_begins; exact Hp].
Qed.
Lemma char_intro c bs r s : code_point c -> utf8_scalar c = bs -> decodes r s -> decodes (bs ++ r) (shown c ++ s).
Proof. intros H <- D. apply D_char; auto. Qed.

Lemma cp2_spec b1 b2 : 194 <= b1 < 224 -> cont b2 -> cp2 b1 b2 = (b1 - 192) * 64 + (b2 - 128).
Proof. unfold cont. intros H1 H2. unfold cp2. rewrite land31, land63, lor_shl6 by lia. lia. Qed.
Lemma cp3_spec b1 b2 b3 : 224 <= b1 < 240 -> cont b2 -> cont b3 -> cp3 b1 b2 b3 = (b1 - 224) * 4096 + (b2 - 128) * 64 + (b3 - 128).
Proof. unfold cont. intros H1 H2 H3. unfold cp3. rewrite land15, !land63, lor_shl6 by lia. rewrite lor_shl12 by lia. lia. Qed.
Lemma cp4_spec b1 b2 b3 b4 : 240 <= b1 < 248 -> cont b2 -> cont b3 -> cont b4 -> cp4 b1 b2 b3 b4 = (b1 - 240) * 262144 + (b2 - 128) * 4096 + (b3 - 128) * 64 + (b4 - 128).
Proof. unfold cont. intros H1 H2 H3 H4. unfold cp4. rewrite land7, !land63, lor_shl6 by lia. rewrite lor_shl12 by lia. rewrite lor_shl18 by lia. lia. Qed.
Lemma is_cont_iff b : 0 <= b < 256 -> (is_cont b = true <-> cont b).
Proof. intros H. rewrite is_cont_spec by exact H. unfold cont. lia. Qed.
Lemma malformed3_2_iff b1 b2 : 224 <= b1 < 240 -> 0 <= b2 < 256 -> (malformed3_2 b1 b2 = false <-> lead2 b1 b2).
Proof. intros H1 H2. unfold malformed3_2. rewrite land224_spec, is_cont_spec by exact H2. unfold lead2, cont. lia. Qed.
Lemma malformed4_2_iff b1 b2 : 240 <= b1 < 248 -> 0 <= b2 < 256 -> ((244 <? b1) || malformed4_2 b1 b2 = false <-> lead2 b1 b2).
Proof. intros H1 H2. unfold malformed4_2. rewrite land240_spec, is_cont_spec by exact H2. unfold lead2, cont. lia. Qed.
Lemma need_2 b1 : 128 <= b1 < 224 -> need b1 = 2%nat.
Proof. intros H. unfold need. destruct (Z.ltb_spec b1 128), (Z.ltb_spec b1 224); try lia; reflexivity. Qed.
Lemma need_3 b1 : 224 <= b1 < 240 -> need b1 = 3%nat.
Proof. intros H. unfold need. destruct (Z.ltb_spec b1 128), (Z.ltb_spec b1 224), (Z.ltb_spec b1 240); try lia; reflexivity. Qed.
Lemma need_4 b1 : 240 <= b1 -> need b1 = 4%nat.
Proof. intros H. unfold need. destruct (Z.ltb_spec b1 128), (Z.ltb_spec b1 224), (Z.ltb_spec b1 240); try lia; reflexivity. Qed.

Lemma shown_bmp c : 0 <= c < 65536 -> shown c = [if is_surrogate c then REPL else c].
Proof.
  intros H. unfold shown, is_surrogate. rewrite is_high_spec, is_low_spec. destruct (hi_sur c || lo_sur c); [reflexivity|]. unfold units. destruct (Z.ltb_spec c 65536); [reflexivity|lia].
Qed.
Lemma shown_pair c : 65536 <= c < 1114112 -> shown c = [high_of c; low_of c].
Proof.
  intros H. unfold shown. replace (hi_sur c || lo_sur c) with false by (unfold hi_sur, lo_sur; lia). unfold units. destruct (Z.ltb_spec c 65536); [lia|].
  unfold high_of, low_of. rewrite shr10, land1023. f_equal; [|f_equal]; lia.
Qed.

Theorem decode_malformed : forall bs, bytes_ok bs -> decodes bs (utf8_decode bs).
Proof.
  induction bs as [bs IH] using length_ind. intros Hb. destruct bs as [|b1 r]; [constructor|].
  assert (Hb1 : 0 <= b1 < 256) by (inversion Hb; auto). assert (Hr : bytes_ok r) by (inversion Hb; auto). clear Hb.
  assert (IHr : decodes r (utf8_decode r)) by (apply IH; [cbn [length]; lia|exact Hr]).
  cbn [utf8_decode]. destruct (Z.ltb_spec b1 128) as [A|A].
  { replace (b1 :: utf8_decode r) with (shown b1 ++ utf8_decode r).
    - apply (char_intro b1 [b1]); auto; [unfold code_point; lia|]. unfold utf8_scalar. destruct (Z.ltb_spec b1 128); [reflexivity|lia].
    - rewrite shown_bmp by lia. rewrite small_not_surrogate by lia. reflexivity. }
  destruct ((194 <=? b1) && (b1 <? 224)) eqn:C2.
  { destruct r as [|b2 r2].
    - apply (bad_intro b1 [] [] []); auto; [rewrite need_2 by lia; cbn; lia|intros x r' [=]].
    - assert (Hb2 : 0 <= b2 < 256) by (inversion Hr; auto). assert (Hr2 : bytes_ok r2) by (inversion Hr; auto). destruct (is_cont b2) eqn:K.
      + apply is_cont_iff in K; auto. rewrite cp2_spec by (auto; lia). set (c := (b1 - 192) * 64 + (b2 - 128)). unfold cont in K.
        replace (c :: utf8_decode r2) with (shown c ++ utf8_decode r2) by (rewrite shown_bmp, small_not_surrogate by (subst c; lia); reflexivity).
        apply (char_intro c [b1; b2]); [unfold code_point; subst c; lia|apply scal2; unfold cont; lia|]. apply IH; [cbn [length]; lia|exact Hr2].
      + apply (bad_intro b1 []); auto; [rewrite need_2 by lia; cbn; lia|]. intros x r' [= -> ->]. cbn [app ok]. intros [Q _]. apply is_cont_iff in Q; auto. congruence. }
  destruct ((224 <=? b1) && (b1 <? 240)) eqn:C3.
  { assert (C3' : 224 <= b1 < 240) by lia. destruct r as [|b2 r2].
    - apply (bad_intro b1 [] [] []); auto; [rewrite need_3 by lia; cbn; lia|intros x r' [=]].
    - assert (Hb2 : 0 <= b2 < 256) by (inversion Hr; auto). assert (Hr2 : bytes_ok r2) by (inversion Hr; auto).
      assert (Bad1 : malformed3_2 b1 b2 = true -> decodes (b1 :: b2 :: r2) (REPL :: utf8_decode (b2 :: r2))).
      { intros M. apply (bad_intro b1 []); auto; [rewrite need_3 by lia; cbn; lia|]. intros x r' [= -> ->]. cbn [app ok]. intros Q. apply malformed3_2_iff in Q; auto. congruence. }
      destruct r2 as [|b3 r3].
      + destruct (malformed3_2 b1 b2) eqn:M; [apply Bad1; reflexivity|]. apply malformed3_2_iff in M; auto.
        apply (bad_intro b1 [b2] [] []); [right; exact M|rewrite need_3 by lia; cbn; lia|intros x r' [=]|constructor].
      + assert (Hb3 : 0 <= b3 < 256) by (inversion Hr2; auto). assert (Hr3 : bytes_ok r3) by (inversion Hr2; auto).
        assert (IH2 : decodes (b3 :: r3) (utf8_decode (b3 :: r3))) by (apply IH; [cbn [length]; lia|exact Hr2]).
        destruct (malformed3 b1 b2 b3) eqn:M3.
        * destruct (malformed3_2 b1 b2) eqn:M; [apply Bad1; reflexivity|]. unfold malformed3 in M3. rewrite M in M3. cbn [orb] in M3. apply malformed3_2_iff in M; auto.
          apply (bad_intro b1 [b2]); [right; exact M|rewrite need_3 by lia; cbn; lia| |exact IH2]. intros x r' [= -> ->]. cbn [app ok]. intros (_ & _ & Q). apply is_cont_iff in Q; auto.
          rewrite Q in M3. discriminate.
        * unfold malformed3 in M3. apply orb_false_iff in M3 as [M M3]. apply malformed3_2_iff in M; auto. apply negb_false_iff, is_cont_iff in M3; auto.
          assert (K2 : cont b2) by (destruct M; auto). rewrite cp3_spec by auto. set (c := (b1 - 224) * 4096 + (b2 - 128) * 64 + (b3 - 128)).
          assert (R : 0 <= c < 65536) by (subst c; unfold cont in *; lia). change ((if is_surrogate c then REPL else c) :: utf8_decode r3) with ([if is_surrogate c then REPL else c] ++ utf8_decode r3).
          rewrite <- shown_bmp by exact R. apply (char_intro c [b1; b2; b3]); [unfold code_point; lia|apply scal3; auto|]. apply IH; [cbn [length]; lia|exact Hr3]. }
  destruct ((240 <=? b1) && (b1 <? 248)) eqn:C4.
  { assert (C4' : 240 <= b1 < 248) by lia. destruct r as [|b2 r2].
    - destruct (244 <? b1); apply (bad_intro b1 [] [] []); auto; try (rewrite need_4 by lia; cbn; lia); intros x r' [=].
    - assert (Hb2 : 0 <= b2 < 256) by (inversion Hr; auto). assert (Hr2 : bytes_ok r2) by (inversion Hr; auto).
      assert (Bad1 : (244 <? b1) || malformed4_2 b1 b2 = true -> decodes (b1 :: b2 :: r2) (REPL :: utf8_decode (b2 :: r2))).
      { intros M. apply (bad_intro b1 []); auto; [rewrite need_4 by lia; cbn; lia|]. intros x r' [= -> ->]. cbn [app ok]. intros Q. apply malformed4_2_iff in Q; auto. congruence. }
      destruct r2 as [|b3 r3].
      + destruct ((244 <? b1) || malformed4_2 b1 b2) eqn:M; [apply Bad1; reflexivity|]. apply malformed4_2_iff in M; auto.
        apply (bad_intro b1 [b2] [] []); [right; exact M|rewrite need_4 by lia; cbn; lia|intros x r' [=]|constructor].
      + assert (Hb3 : 0 <= b3 < 256) by (inversion Hr2; auto). assert (Hr3 : bytes_ok r3) by (inversion Hr2; auto).
        assert (IH2 : decodes (b3 :: r3) (utf8_decode (b3 :: r3))) by (apply IH; [cbn [length]; lia|exact Hr2]).
        assert (IH3 : decodes r3 (utf8_decode r3)) by (apply IH; [cbn [length]; lia|exact Hr3]).
        assert (Bad2 : lead2 b1 b2 -> negb (is_cont b3) = true -> decodes (b1 :: b2 :: b3 :: r3) (REPL :: utf8_decode (b3 :: r3))).
        { intros M K. apply (bad_intro b1 [b2]); [right; exact M|rewrite need_4 by lia; cbn; lia| |exact IH2]. intros x r' [= -> ->]. cbn [app ok]. intros (_ & _ & Q). apply is_cont_iff in Q; auto.
          rewrite Q in K. discriminate. }
        destruct r3 as [|b4 r4].
        * destruct ((244 <? b1) || malformed4_2 b1 b2) eqn:M; [apply Bad1; reflexivity|]. apply malformed4_2_iff in M; auto.
          destruct (negb (is_cont b3)) eqn:K; [apply Bad2; auto|]. apply negb_false_iff, is_cont_iff in K; auto.
          apply (bad_intro b1 [b2; b3] [] []); [right; split; [exact M|split; [lia|exact K]]|rewrite need_4 by lia; cbn; lia|intros x r' [=]|constructor].
        * assert (Hb4 : 0 <= b4 < 256) by (inversion Hr3; auto). assert (Hr4 : bytes_ok r4) by (inversion Hr3; auto).
          cbv zeta. destruct (malformed4 b2 b3 b4 || negb (is_supplementary (cp4 b1 b2 b3 b4))) eqn:B.
          -- destruct ((244 <? b1) || malformed4_2 b1 b2) eqn:M; [apply Bad1; reflexivity|]. apply malformed4_2_iff in M; auto.
             destruct (negb (is_cont b3)) eqn:K; [apply Bad2; auto|]. apply negb_false_iff, is_cont_iff in K; auto.
             apply (bad_intro b1 [b2; b3]); [right; split; [exact M|split; [lia|exact K]]|rewrite need_4 by lia; cbn; lia| |exact IH3].
             intros x r' [= -> ->]. cbn [app ok]. intros (_ & _ & _ & Q). pose proof (proj1 M) as K2. rewrite cp4_spec in B by auto.
             unfold malformed4, is_supplementary in B. rewrite (proj2 (is_cont_iff b2 Hb2) K2), (proj2 (is_cont_iff b3 Hb3) K), (proj2 (is_cont_iff x Hb4) Q) in B.
             unfold lead2, cont in *. cbn [negb orb] in B. lia.
          -- apply orb_false_iff in B as [B S]. unfold malformed4 in B. apply orb_false_iff in B as [B K4]. apply orb_false_iff in B as [K2 K3].
             apply negb_false_iff in S, K2, K3, K4. rewrite is_cont_iff in K2, K3, K4 by auto. rewrite cp4_spec in * by auto. set (c := (b1 - 240) * 262144 + (b2 - 128) * 4096 + (b3 - 128) * 64 + (b4 - 128)) in *.
             unfold is_supplementary in S. assert (R : 65536 <= c < 1114112) by lia.
             change (high_of c :: low_of c :: utf8_decode r4) with ([high_of c; low_of c] ++ utf8_decode r4). rewrite <- shown_pair by exact R.
             apply (char_intro c [b1; b2; b3; b4]); [unfold code_point; lia|apply scal4; auto; try lia; unfold lead2, cont in *; subst c; lia|]. apply IH; [cbn [length]; lia|exact Hr4]. }
  apply (bad_intro b1 []); auto.
  - assert (D : 128 <= b1 < 224 \/ 240 <= b1) by lia. destruct D; [rewrite need_2 by lia|rewrite need_4 by lia]; cbn; lia.
  - intros x r' ->. cbn [app ok]. unfold lead2. lia.
Qed.

Lemma cons_eq {A} (a b : A) l m : a :: l = b :: m -> a = b /\ l = m.
Proof. intros [= -> ->]. auto. Qed.
Lemma decodes_unique bs s : decodes bs s -> forall t, decodes bs t -> s = t.
Proof.
  assert (C1 : forall c r c' r', code_point c -> code_point c' -> utf8_scalar c ++ r = utf8_scalar c' ++ r' -> c = c' /\ r = r').
  { intros c r c' r' Hc Hc' E. destruct (scalar_need c Hc) as (b & u & E1 & E2), (scalar_need c' Hc') as (b' & u' & E1' & E2').
    assert (b = b') by (rewrite E1, E1' in E; cbn [app] in E; congruence). subst b'.
    assert (Q : utf8_scalar c = utf8_scalar c' /\ r = r').
    { assert (L : length (utf8_scalar c) = length (utf8_scalar c')) by congruence. revert L E. generalize (utf8_scalar c) (utf8_scalar c'). clear.
      induction l as [|a l IH]; intros [|a' l'] L E; try discriminate; auto. cbn [app] in E. injection E as -> E. injection L as L. destruct (IH l' L E) as [-> ->]. auto. }
    destruct Q as [Q ->]. split; auto. clear - Hc Hc' Q. unfold utf8_scalar, code_point in *.
    destruct (Z.ltb_spec c 128), (Z.ltb_spec c 2048), (Z.ltb_spec c 65536), (Z.ltb_spec c' 128), (Z.ltb_spec c' 2048), (Z.ltb_spec c' 65536); try lia; try discriminate;
      repeat (apply cons_eq in Q as [? Q]); lia. }
  induction 1 as [|c r s Hc D IH|p r s Np Nc Hp Hl D IH]; intros t Dt.
  - inversion Dt as [|c r u Hc D E|p r u Np Nc Hp Hl D E]; auto.
    + exfalso. destruct (scalar_need c Hc) as (b & w & Q & _). rewrite Q in E. discriminate.
    + exfalso. destruct p; [congruence|discriminate].
  - remember (utf8_scalar c ++ r) as bs eqn:Q. destruct Dt as [|c' r' u Hc' D'|p r' u Np Nc Hp Hl D'].
    + exfalso. destruct (scalar_need c Hc) as (b & w & K & _). rewrite K in Q. discriminate.
    + destruct (C1 _ _ _ _ Hc' Hc Q) as [-> ->]. f_equal. apply IH. exact D'.
    + exfalso. exact (Nc c r Hc Q).
  - remember (p ++ r) as bs eqn:Q. destruct Dt as [|c' r' u Hc' D'|p' r' u Np' Nc' Hp' Hl' D'].
    + exfalso. destruct p; [congruence|discriminate].
    + exfalso. eapply Nc; [exact Hc'|reflexivity].
    + assert (L : length p = length p').
      { destruct (lt_eq_lt_dec (length p) (length p')) as [[L|L]|L]; auto; exfalso.
        - apply (Hl p' r' eq_refl L). destruct Hp' as [K|K]; auto. destruct p; [congruence|cbn in L; lia].
        - apply (Hl' p r Q L). destruct Hp as [K|K]; auto. destruct p'; [congruence|cbn in L; lia]. }
      assert (K : p' = p /\ r' = r).
      { clear - L Q. revert p' L Q. induction p as [|a p IHp]; intros [|a' p'] L Q; try discriminate; auto. cbn [app] in Q. injection Q as -> Q. injection L as L. destruct (IHp p' L Q) as [-> ->]. auto. }
      destruct K as [-> ->]. f_equal. apply IH. exact D'.
Qed.
