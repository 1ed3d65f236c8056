(* Parsing the tokens of a proper tree gives the tree back; so two proper trees with the same tokens are the same. *)
From Coq Require Import List Bool ZArith String Arith Lia.
From Verif.Java Require Import Lex Syntax Parse.
Import ListNotations.
Open Scope string_scope.
Open Scope list_scope.

Definition ev (P : nat -> Prop) : Prop := exists N, forall k, N <= k -> P k.
Definition evc (P : nat -> nat -> Prop) : Prop := exists N c, forall k, N <= k -> P k (k - c).

(* ---------- words ---------- *)
Lemma has_word_In s l : has_word s l = true -> In s l.
Proof. unfold has_word. intro H. apply existsb_exists in H. destruct H as (x & I & E). apply String.eqb_eq in E. subst. exact I. Qed.
Lemma by_test (f : string -> bool) x s : f x = true -> f s = false -> String.eqb x s = false.
Proof. intros H1 H2. destruct (String.eqb x s) eqn:E; auto. apply String.eqb_eq in E. congruence. Qed.
Lemma ident_tname x : ident x = true -> tname x = true.
Proof. unfold tname. intros ->. reflexivity. Qed.
Lemma eat_hit s r : eat s (T s :: r) = Some r.
Proof. cbn. now rewrite String.eqb_refl. Qed.
Lemma next_app p a b : a <> [] -> next p (a ++ b) = next p a.
Proof. destruct a; [congruence|reflexivity]. Qed.
Ltac words :=
  repeat match goal with
         | H : ident ?x = true |- context [String.eqb ?x ?s] => rewrite (by_test ident x s H eq_refl)
         | H : tname ?x = true |- context [String.eqb ?x ?s] => rewrite (by_test tname x s H eq_refl)
         end.

(* ---------- lists ---------- *)
Section SEVERAL.
  Context {A : Type}.
  Variable p : nat -> list token -> option (A * list token).
  Variable pr : A -> list token.
  Variable F : list token -> Prop.
  Hypothesis comma : forall r, F (T "," :: r).

  Lemma several_ok : forall l, l <> [] -> (forall x, In x l -> forall rest, F rest -> ev (fun k => p k (pr x ++ rest) = Some (x, rest))) ->
    forall rest, F rest -> eat "," rest = None -> exists N, forall k j, N <= k -> N <= j -> several (p k) j (sep [T ","] (map pr l) ++ rest) = Some (l, rest).
  Proof.
    induction l as [|x l IH]; intros NE H rest Fr Er; [congruence|].
    destruct l as [|y l].
    - destruct (H x (or_introl eq_refl) rest Fr) as (N & HN). exists (S N). intros k [|j] Hk Hj; [lia|]. cbn [map sep several]. rewrite HN by lia. rewrite Er. reflexivity.
    - destruct (IH ltac:(congruence) (fun z I => H z (or_intror I)) rest Fr Er) as (N1 & H1).
      destruct (H x (or_introl eq_refl) ([T ","] ++ sep [T ","] (map pr (y :: l)) ++ rest) (comma _)) as (N2 & H2).
      exists (S (N1 + N2)). intros k [|j] Hk Hj; [lia|].
      change (sep [T ","] (map pr (x :: y :: l))) with (pr x ++ [T ","] ++ sep [T ","] (map pr (y :: l))).
      rewrite <- !app_assoc. cbn [several]. rewrite H2 by lia. cbn [app]. rewrite eat_hit. rewrite H1 by lia. reflexivity.
  Qed.
  Lemma enclosed_ok : forall l, (forall x, In x l -> next (is ")") (pr x) = false /\ pr x <> []) ->
    F [T ")"] -> (forall r, F (T ")" :: r)) ->
    (forall x, In x l -> forall rest, F rest -> ev (fun k => p k (pr x ++ rest) = Some (x, rest))) ->
    forall rest, exists N, forall k j, N <= k -> N <= j -> enclosed (p k) j (sep [T ","] (map pr l) ++ T ")" :: rest) = Some (l, rest).
  Proof.
    intros l Hn _ Fc H rest. destruct l as [|x l].
    - exists 0. intros. cbn [map sep app]. unfold enclosed. rewrite eat_hit. reflexivity.
    - destruct (several_ok (x :: l) ltac:(congruence) H (T ")" :: rest) (Fc _) eq_refl) as (N & HN).
      exists N. intros k j Hk Hj. unfold enclosed. rewrite HN by lia. rewrite eat_hit.
      destruct (Hn x (or_introl eq_refl)) as (E1 & E2).
      assert (Hs : exists r, sep [T ","] (map pr (x :: l)) ++ T ")" :: rest = pr x ++ r).
      { destruct l as [|y l]; [exists (T ")" :: rest); reflexivity|]. exists ([T ","] ++ sep [T ","] (map pr (y :: l)) ++ T ")" :: rest). change (sep [T ","] (map pr (x :: y :: l))) with (pr x ++ [T ","] ++ sep [T ","] (map pr (y :: l))). now rewrite <- !app_assoc. }
      destruct Hs as (r & ->). destruct (pr x) as [|t q]; [congruence|]. cbn in E1. cbn [app eat]. rewrite E1. reflexivity.
  Qed.
End SEVERAL.

(* ---------- types ---------- *)
Lemma ty_ind' (P : ty -> Prop) (H1 : forall n args, Forall P args -> P (Ty n args)) (H2 : forall n, P (TyDia n)) (H3 : forall t, P t -> P (TyArr t)) (H4 : P TyAny) : forall t, P t.
Proof.
  fix IH 1. intros [n args|n|t|]; [apply H1|apply H2|apply H3, IH|exact H4].
  induction args as [|a l IHl]; constructor; [apply IH|exact IHl].
Qed.
Definition quiet_ty (rest : list token) : Prop := next (is "<") rest = false.
Definition arg_end (rest : list token) : Prop := next (is ",") rest = true \/ next (is ">") rest = true.
Lemma next_is s rest : next (is s) rest = true -> exists r, rest = T s :: r.
Proof. destruct rest as [|[x| | |] r]; cbn; try discriminate. intro H. apply String.eqb_eq in H. subst. eauto. Qed.
Lemma not_next s rest : next (is s) rest = false -> eat s rest = None.
Proof. destruct rest as [|t r]; cbn; auto. intros ->. reflexivity. Qed.
Lemma arg_end_comma r : arg_end (T "," :: r). Proof. left. reflexivity. Qed.
Lemma arg_end_brackets t rest : arg_end rest -> brackets t rest = (t, rest).
Proof. intros [H|H]; apply next_is in H; destruct H as (r & ->); destruct r; reflexivity. Qed.
Lemma arg_end_quiet rest : arg_end rest -> quiet_ty rest.
Proof. intros [H|H]; apply next_is in H; destruct H as (r & ->); reflexivity. Qed.

Lemma type_args_ok args : args <> [] ->
  Forall (fun t => (proper_ty t = true -> forall rest, quiet_ty rest -> ev (fun k => parse_ty k (p_ty t ++ rest) = Some (brackets t rest)))) args ->
  forallb (fun u => match u with TyAny => true | _ => proper_ty u end) args = true ->
  forall rest, exists N, forall k j, N <= k -> N <= j -> several (parse_ty k) j (sep [T ","] (map p_ty args) ++ T ">" :: rest) = Some (args, T ">" :: rest).
Proof.
  intros NE IH Pa rest. apply several_ok with (F := arg_end).
  - apply arg_end_comma.
  - exact NE.
  - intros x I r Fr. rewrite Forall_forall in IH. rewrite forallb_forall in Pa. specialize (IH x I). specialize (Pa x I).
    destruct x as [n l|n|u|].
    1-3: destruct (IH Pa r (arg_end_quiet r Fr)) as (N & HN); exists N; intros k Hk; rewrite HN by lia; now rewrite arg_end_brackets.
    exists 1. intros [|k] Hk; [lia|]. reflexivity.
  - right. reflexivity.
  - reflexivity.
Qed.
Lemma p_ty_first t : (proper_ty t = true \/ t = TyAny) -> exists x r, p_ty t = T x :: r /\ (tname x = true \/ x = "?").
Proof.
  induction t as [n args _|n|t IH|] using ty_ind'; intro H.
  - destruct H as [H|H]; [|discriminate]. cbn in H. apply andb_true_iff in H. destruct H as (H & _). destruct args; cbn; eauto.
  - destruct H as [H|H]; [|discriminate]. cbn in *. eauto.
  - destruct H as [H|H]; [|discriminate]. cbn in H. destruct (IH (or_introl H)) as (x & r & E & D). cbn. rewrite E. cbn. eauto.
  - cbn. eauto.
Qed.
Lemma sep_app_first {A} (d : list A) x l rest : exists r, sep d (x :: l) ++ rest = x ++ r.
Proof. destruct l as [|y l]; [exists rest; reflexivity|]. cbn. exists ((d ++ sep d (y :: l)) ++ rest). now rewrite <- !app_assoc. Qed.
Lemma args_not_close args rest : args <> [] -> forallb (fun u => match u with TyAny => true | _ => proper_ty u end) args = true -> eat ">" (sep [T ","] (map p_ty args) ++ rest) = None.
Proof.
  intros NE H. destruct args as [|a l]; [congruence|]. cbn [map]. destruct (sep_app_first [T ","] (p_ty a) (map p_ty l) rest) as (r & ->).
  cbn in H. apply andb_true_iff in H. destruct H as (H & _).
  destruct (p_ty_first a) as (x & q & E & D). { destruct a; auto. }
  rewrite E. cbn. destruct D as [D| ->]; [words|]; reflexivity.
Qed.
Lemma parse_ty_ok t : proper_ty t = true -> forall rest, quiet_ty rest -> ev (fun k => parse_ty k (p_ty t ++ rest) = Some (brackets t rest)).
Proof.
  induction t as [n args IH|n|t IH|] using ty_ind'; intros Pt rest Q.
  - cbn in Pt. apply andb_true_iff in Pt. destruct Pt as (Pn & Pa). destruct args as [|a l].
    + exists 1. intros [|k] Hk; [lia|]. cbn [p_ty app parse_ty]. words. rewrite Pn. rewrite (not_next _ _ Q). reflexivity.
    + destruct (type_args_ok (a :: l) ltac:(congruence) IH Pa rest) as (N & HN). exists (S N). intros [|k] Hk; [lia|].
      change (p_ty (Ty n (a :: l))) with ([T n; T "<"] ++ sep [T ","] (map p_ty (a :: l)) ++ [T ">"]). rewrite <- !app_assoc. cbn [app parse_ty]. words. rewrite Pn, eat_hit.
      rewrite (args_not_close (a :: l)) by (auto; congruence). rewrite HN by lia. rewrite eat_hit. reflexivity.
  - exists 1. intros [|k] Hk; [lia|]. cbn in Pt. cbn [p_ty app parse_ty]. words. rewrite Pt. rewrite !eat_hit. reflexivity.
  - cbn in Pt. destruct (IH Pt (T "[" :: T "]" :: rest) eq_refl) as (N & HN). exists N. intros k Hk. cbn [p_ty]. rewrite <- app_assoc. cbn [app]. rewrite HN by lia. reflexivity.
  - discriminate.
Qed.
Lemma brackets_none t rest : next (is "[") rest = false -> brackets t rest = (t, rest).
Proof. destruct rest as [|a [|b r]]; cbn; auto. intros ->. reflexivity. Qed.
Lemma type_ok t rest : proper_ty t = true -> next (is "<") rest = false -> next (is "[") rest = false -> ev (fun k => parse_ty k (p_ty t ++ rest) = Some (t, rest)).
Proof. intros P Q B. destruct (parse_ty_ok t P rest Q) as (N & HN). exists N. intros k Hk. rewrite HN by lia. now rewrite brackets_none. Qed.
Lemma made_ok t rest : made_ty t = true -> next (is "<") rest = false -> ev (fun k => parse_made k (p_ty t ++ rest) = Some (t, rest)).
Proof.
  intros M Q. destruct t as [n args|n|t|]; try discriminate.
  - cbn in M. apply andb_true_iff in M. destruct M as (Pn & Pa). destruct args as [|a l].
    + exists 1. intros k Hk. cbn [p_ty app parse_made]. rewrite Pn. rewrite (not_next _ _ Q). reflexivity.
    + destruct (type_args_ok (a :: l) ltac:(congruence)) with (rest := rest) as (N & HN).
      { apply Forall_forall. intros x _. apply parse_ty_ok. } { exact Pa. }
      exists (S N). intros k Hk.
      change (p_ty (Ty n (a :: l))) with ([T n; T "<"] ++ sep [T ","] (map p_ty (a :: l)) ++ [T ">"]). rewrite <- !app_assoc. cbn [app parse_made]. rewrite Pn, eat_hit.
      rewrite (args_not_close (a :: l)) by (auto; congruence). rewrite HN by lia. rewrite eat_hit. reflexivity.
  - exists 1. intros k Hk. cbn in M. cbn [p_ty app parse_made]. rewrite M. rewrite !eat_hit. reflexivity.
Qed.

(* ---------- parentheses: a type contains none, an expression begins with an opening one ---------- *)
Definition round (t : token) : bool := is "(" t || is ")" t.
Definition flat (l : list token) : Prop := find round l = None.
Lemma find_cat {A} (f : A -> bool) a b : find f (a ++ b) = match find f a with Some x => Some x | None => find f b end.
Proof. induction a as [|x a IH]; cbn; auto. destruct (f x); auto. Qed.
Lemma flat_app a b : flat a -> flat b -> flat (a ++ b).
Proof. unfold flat. intros Ha Hb. rewrite find_cat, Ha. exact Hb. Qed.
Lemma eat_inv s ts r : eat s ts = Some r -> ts = T s :: r.
Proof. destruct ts as [|[x| | |] q]; cbn; try discriminate. destruct (String.eqb x s) eqn:E; [|discriminate]. apply String.eqb_eq in E. congruence. Qed.
Lemma brackets_flat : forall n ts t t' r, List.length ts <= n -> brackets t ts = (t', r) -> exists pre, ts = pre ++ r /\ flat pre.
Proof.
  induction n as [|n IH]; intros ts t t' r L H.
  - destruct ts; [|cbn in L; lia]. cbn in H. injection H as <- <-. exists []. split; reflexivity.
  - destruct ts as [|a [|b q]]; cbn in H.
    + injection H as <- <-. exists []. split; reflexivity.
    + injection H as <- <-. exists []. split; reflexivity.
    + destruct (is "[" a && is "]" b) eqn:E.
      * apply andb_true_iff in E. destruct E as (Ea & Eb). destruct (IH q (TyArr t) t' r) as (pre & -> & Fp); [cbn in L; lia|exact H|].
        exists (a :: b :: pre). split; [reflexivity|]. destruct a; try discriminate. destruct b; try discriminate. cbn in Ea, Eb. apply String.eqb_eq in Ea, Eb. subst. exact Fp.
      * injection H as <- <-. exists []. split; reflexivity.
Qed.
Lemma several_flat {A} (p : list token -> option (A * list token)) :
  (forall ts a r, p ts = Some (a, r) -> exists pre, ts = pre ++ r /\ flat pre) ->
  forall k ts l r, several p k ts = Some (l, r) -> exists pre, ts = pre ++ r /\ flat pre.
Proof.
  intro Hp. induction k as [|k IH]; intros ts l r H; [discriminate|]. cbn in H.
  destruct (p ts) as [(a, q)|] eqn:E; [|discriminate]. destruct (Hp _ _ _ E) as (pre & -> & Fp).
  destruct (eat "," q) as [q1|] eqn:Eq.
  - apply eat_inv in Eq. subst q. destruct (several p k q1) as [(l1, r1)|] eqn:E1; [|discriminate]. injection H as <- <-.
    destruct (IH _ _ _ E1) as (pre1 & -> & Fp1). exists (pre ++ T "," :: pre1). split; [now rewrite <- app_assoc|]. apply flat_app; [exact Fp|]. exact Fp1.
  - injection H as <- <-. eauto.
Qed.
Lemma tname_round x : tname x = true -> round (T x) = false.
Proof. intro H. unfold round. cbn. words. reflexivity. Qed.
Lemma ident_round x : ident x = true -> round (T x) = false.
Proof. intro H. apply tname_round, ident_tname, H. Qed.
Lemma parse_ty_flat : forall k ts t r, parse_ty k ts = Some (t, r) -> exists pre, ts = pre ++ r /\ flat pre.
Proof.
  induction k as [|k IH]; intros ts t r H; [discriminate|]. cbn in H. destruct ts as [|[x| | |] q]; try discriminate.
  destruct (String.eqb x "?") eqn:Ex.
  { apply String.eqb_eq in Ex. injection H as <- <-. subst. exists [T "?"]. split; reflexivity. }
  destruct (tname x) eqn:En; [|discriminate]. pose proof (tname_round x En) as Rx.
  destruct (eat "<" q) as [q1|] eqn:E1.
  - apply eat_inv in E1. subst q. destruct (eat ">" q1) as [q2|] eqn:E2.
    + apply eat_inv in E2. subst q1. destruct (brackets (TyDia x) q2) as (t', r') eqn:B. injection H as -> ->. destruct (brackets_flat _ _ _ _ _ (le_n _) B) as (pre & -> & Fp).
      exists (T x :: T "<" :: T ">" :: pre). split; [reflexivity|]. unfold flat. cbn [find]. rewrite Rx. exact Fp.
    + destruct (several (parse_ty k) k q1) as [(args, q2)|] eqn:E3; [|discriminate]. destruct (eat ">" q2) as [q3|] eqn:E4; [|discriminate]. apply eat_inv in E4. subst q2.
      destruct (several_flat _ IH _ _ _ _ E3) as (pre1 & -> & Fp1). destruct (brackets (Ty x args) q3) as (t', r') eqn:B. injection H as -> ->. destruct (brackets_flat _ _ _ _ _ (le_n _) B) as (pre & -> & Fp).
      exists (T x :: T "<" :: pre1 ++ T ">" :: pre). split. { cbn. rewrite <- app_assoc. reflexivity. }
      unfold flat. cbn [find]. rewrite Rx. apply (flat_app pre1 (T ">" :: pre)); [exact Fp1|exact Fp].
  - destruct (brackets (Ty x []) q) as (t', r') eqn:B. injection H as -> ->. destruct (brackets_flat _ _ _ _ _ (le_n _) B) as (pre & -> & Fp).
    exists (T x :: pre). split; [reflexivity|]. unfold flat. cbn [find]. rewrite Rx. exact Fp.
Qed.
Lemma flat_sep {A} (f : A -> list token) d l : flat d -> Forall (fun x => flat (f x)) l -> flat (sep d (map f l)).
Proof.
  intros Hd. induction l as [|x l IH]; intro H; [reflexivity|]. inversion H; subst. destruct l as [|y l]; [exact H2|].
  change (sep d (map f (x :: y :: l))) with (f x ++ d ++ sep d (map f (y :: l))). apply flat_app; [assumption|]. apply flat_app; [assumption|]. apply IH. assumption.
Qed.
Lemma p_ty_flat t : (proper_ty t = true \/ t = TyAny) -> flat (p_ty t).
Proof.
  induction t as [n args IH|n|t IH|] using ty_ind'; intro H.
  - destruct H as [H|H]; [|discriminate]. cbn in H. apply andb_true_iff in H. destruct H as (Hn & Ha). pose proof (tname_round n Hn) as Rn.
    destruct args as [|a l]. { unfold flat. cbn [p_ty find]. rewrite Rn. reflexivity. }
    change (p_ty (Ty n (a :: l))) with ([T n; T "<"] ++ sep [T ","] (map p_ty (a :: l)) ++ [T ">"]).
    apply flat_app. { unfold flat. cbn [find]. rewrite Rn. reflexivity. } apply flat_app; [|reflexivity]. apply flat_sep; [reflexivity|].
    rewrite Forall_forall in *. rewrite forallb_forall in Ha. intros x I. specialize (Ha x I). apply IH; auto. destruct x; auto.
  - destruct H as [H|H]; [|discriminate]. cbn in H. unfold flat. cbn [p_ty find]. rewrite (tname_round n H). reflexivity.
  - destruct H as [H|H]; [|discriminate]. cbn in H. cbn [p_ty]. apply flat_app; [apply IH; auto|reflexivity].
  - reflexivity.
Qed.

Lemma expr_ind' (P : expr -> Prop)
  (H0 : P ENull) (H1 : P EThis) (H2 : forall b, P (EBool b)) (H3 : forall h z, P (EInt h z)) (H4 : forall z, P (ELong z)) (H5 : forall z, P (EChr z)) (H6 : forall s, P (EStr s))
  (H7 : forall x, P (EName x)) (H8 : forall e x, P e -> P (EField e x)) (H9 : forall e m args, P e -> Forall P args -> P (ECall e m args))
  (H10 : forall m args, Forall P args -> P (ECallU m args)) (H11 : forall t args, Forall P args -> P (ENew t args)) (H12 : forall t n, P n -> P (ENewArr t n))
  (H13 : forall a i, P a -> P i -> P (EIndex a i)) (H14 : forall t e, P e -> P (ECast t e)) (H15 : forall e, P e -> P (EParen e)) (H16 : forall e, P e -> P (ENot e))
  (H17 : forall e, P e -> P (EInv e)) (H18 : forall o a b, P a -> P b -> P (EBin o a b)) (H19 : forall e, P e -> P (EInc e)) (H20 : forall e, P e -> P (EDec e))
  (H21 : forall o a b, P a -> P b -> P (EAsg o a b)) (H22 : forall c, P (ERef c)) (H23 : forall c, P (EClass c)) : forall e, P e.
Proof.
  fix IH 1.
  assert (L : forall l, Forall P l). { fix IL 1. intros [|x l]; constructor; [apply IH|apply IL]. }
  intros [ | |b|h z|z|z|s|x|e x|e m args|m args|t args|t n|a i|t e|e|e|e|o a b|e|e|o a b|c|c].
  - exact H0. - exact H1. - apply H2. - apply H3. - apply H4. - apply H5. - apply H6. - apply H7.
  - apply H8, IH. - apply H9; [apply IH|]. induction args as [|x l IHl]; constructor; [apply IH|exact IHl].
  - apply H10. induction args as [|x l IHl]; constructor; [apply IH|exact IHl].
  - apply H11. induction args as [|x l IHl]; constructor; [apply IH|exact IHl].
  - apply H12, IH. - apply H13; apply IH. - apply H14, IH. - apply H15, IH. - apply H16, IH. - apply H17, IH.
  - apply H18; apply IH. - apply H19, IH. - apply H20, IH. - apply H21; apply IH. - apply H22. - apply H23.
Qed.
Ltac props := repeat match goal with H : _ && _ = true |- _ => apply andb_true_iff in H; destruct H end.

Definition opens (l : list token) : Prop := find round l = None \/ find round l = Some (T "(").
Lemma opens_app a b : opens a -> opens b -> opens (a ++ b).
Proof. unfold opens. rewrite find_cat. intros [-> | ->] Hb; auto. Qed.
Lemma opens_flat a : flat a -> opens a. Proof. left. exact H. Qed.
Lemma opens_open l : opens (T "(" :: l). Proof. right. reflexivity. Qed.
Lemma p_op_flat o : flat (p_op o). Proof. destruct o; reflexivity. Qed.
Lemma p_asg_flat o l : p_asg o = Some l -> flat l.
Proof. destruct o as [|[]]; cbn; intro H; try discriminate; injection H as <-; reflexivity. Qed.
Lemma p_expr_opens e : proper_expr e = true -> wf_expr e = true -> opens (p_expr e).
Proof.
  induction e using expr_ind'; intros Pe We; cbn [proper_expr wf_expr] in Pe, We; props; try (left; reflexivity).
  - destruct b; left; reflexivity.
  - apply opens_flat. unfold flat. cbn [p_expr find]. rewrite ident_round by auto. reflexivity.
  - cbn [p_expr]. apply opens_app; auto. apply opens_flat. unfold flat. cbn [find]. rewrite (ident_round x) by auto. reflexivity.
  - cbn [p_expr]. apply opens_app; auto. cbn [app]. apply (opens_app [T "."; T m]); [|apply opens_open]. apply opens_flat. unfold flat. cbn [find]. rewrite (ident_round m) by auto. reflexivity.
  - cbn [p_expr app]. apply (opens_app [T m]); [|apply opens_open]. apply opens_flat. unfold flat. cbn [find]. rewrite (ident_round m) by auto. reflexivity.
  - cbn [p_expr]. apply (opens_app [T "new"]); [apply opens_flat; reflexivity|]. apply opens_app; [|apply opens_open]. apply opens_flat, p_ty_flat. left. destruct t; auto; discriminate.
  - cbn [p_expr]. apply (opens_app [T "new"]); [apply opens_flat; reflexivity|]. apply opens_app. { apply opens_flat, p_ty_flat. left. destruct t; auto; discriminate. }
    apply (opens_app [T "["]); [apply opens_flat; reflexivity|]. apply opens_app; auto. apply opens_flat. reflexivity.
  - cbn [p_expr]. apply opens_app; auto. apply (opens_app [T "["]); [apply opens_flat; reflexivity|]. apply opens_app; auto. apply opens_flat. reflexivity.
  - apply opens_open.
  - apply opens_open.
  - cbn [p_expr]. apply (opens_app [T "!"]); [apply opens_flat; reflexivity|]. auto.
  - cbn [p_expr]. apply (opens_app [T "~"]); [apply opens_flat; reflexivity|]. auto.
  - cbn [p_expr]. apply opens_app; auto. apply opens_app; auto. apply opens_flat, p_op_flat.
  - cbn [p_expr]. apply opens_app; auto. apply opens_flat. reflexivity.
  - cbn [p_expr]. apply opens_app; auto. apply opens_flat. reflexivity.
  - cbn [p_expr]. destruct (p_asg o) eqn:E; [|discriminate]. apply opens_app; auto. apply opens_app; auto. apply opens_flat. eapply p_asg_flat; eauto.
  - apply opens_flat. unfold flat. cbn [p_expr find]. rewrite (ident_round c) by auto. reflexivity.
  - apply opens_flat. unfold flat. cbn [p_expr find]. rewrite (ident_round c) by auto. reflexivity.
Qed.
Lemma first_close a b x y : flat a -> flat b -> a ++ T ")" :: x = b ++ T ")" :: y -> x = y.
Proof.
  revert b. induction a as [|t a IH]; intros [|u b] Fa Fb E; cbn in E.
  - now injection E.
  - injection E as <- E. discriminate Fb.
  - injection E as -> E. discriminate Fa.
  - injection E as <- E. unfold flat in *. cbn in Fa, Fb. destruct (round t); [discriminate|]. eapply IH; eauto.
Qed.
Lemma not_a_cast e rest k : proper_expr e = true -> wf_expr e = true -> next starts rest = false -> cast_ahead k (T "(" :: p_expr e ++ T ")" :: rest) = None.
Proof.
  intros Pe We Hr. unfold cast_ahead. rewrite eat_hit. destruct (parse_ty k (p_expr e ++ T ")" :: rest)) as [(t, r1)|] eqn:E; auto.
  destruct (eat ")" r1) as [r2|] eqn:E2; auto. apply eat_inv in E2. subst r1. destruct (parse_ty_flat _ _ _ _ E) as (pre & Epre & Fp).
  assert (r2 = rest) as ->; [|now rewrite Hr].
  destruct (p_expr_opens e Pe We) as [O|O].
  - symmetry. eapply first_close; [exact O|exact Fp|exact Epre].
  - apply (f_equal (find round)) in Epre. rewrite !find_cat, O in Epre. rewrite Fp in Epre. discriminate.
Qed.

(* ---------- what an expression begins with, and what may follow it ---------- *)
Lemma starts_ident x : ident x = true -> starts (T x) = true.
Proof. cbn. intros ->. reflexivity. Qed.
Lemma p_expr_starts e : proper_expr e = true -> exists t r, p_expr e = t :: r /\ starts t = true.
Proof.
  induction e using expr_ind'; intro Pe; cbn [proper_expr] in Pe; props; cbn [p_expr app];
  try (now (eexists; eexists; split; [reflexivity|try reflexivity; try (apply starts_ident; assumption)]));
  try (match goal with IH : proper_expr ?a = true -> _, H : proper_expr ?a = true |- context [p_expr ?a ++ _] => destruct (IH H) as (t0 & r0 & -> & St); cbn [app]; eauto end).
  destruct b; eauto.
Qed.
Lemma next_starts e rest : proper_expr e = true -> next starts (p_expr e ++ rest) = true.
Proof. intro H. destruct (p_expr_starts e H) as (t & r & -> & S). exact S. Qed.
Lemma starts_not t s : starts t = true -> starts (T s) = false -> is s t = false.
Proof. destruct t; cbn; auto. intros H1 H2. destruct (String.eqb s0 s) eqn:E; auto. apply String.eqb_eq in E. subst. congruence. Qed.
Lemma expr_next_not e rest s : proper_expr e = true -> starts (T s) = false -> next (is s) (p_expr e ++ rest) = false.
Proof. intros H Hs. destruct (p_expr_starts e H) as (t & r & -> & S). cbn. apply starts_not; auto. Qed.
Lemma p_expr_not_nil e : proper_expr e = true -> p_expr e <> [].
Proof. intro H. destruct (p_expr_starts e H) as (t & r & -> & _). congruence. Qed.

Definition stop_syms : list string := [")"; ";"; ","; "]"].
Definition op_syms : list string := ["="; "|="; "&="; "^="; "+="; "-="; ">"; "||"; "&&"; "|"; "^"; "&"; "=="; "!="; "<"; "<="; ">="; "<<"; "+"; "-"; "*"; "%"].
Definition sym (l : list string) (t : token) : bool := match t with T x => has_word x l | _ => false end.
Definition stop (rest : list token) : Prop := next (sym stop_syms) rest = true.
Definition opfollow (rest : list token) : Prop := next (sym (stop_syms ++ op_syms)) rest = true.
(* after a primary: selectors and ++ too *)
Definition follow (rest : list token) : Prop :=
  next (sym (stop_syms ++ op_syms ++ ["++"; "--"; "["])) rest = true \/ (next (is ".") rest = true /\ next (is "class") (tl rest) = false).
Lemma sym_cases l rest : next (sym l) rest = true -> exists s r, In s l /\ rest = T s :: r.
Proof. destruct rest as [|[x| | |] r]; cbn; try discriminate. intro H. apply has_word_In in H. eauto. Qed.
Lemma stop_opfollow rest : stop rest -> opfollow rest.
Proof. intro H. destruct (sym_cases _ _ H) as (s & r & I & ->). repeat (destruct I as [<-|I]; [reflexivity|]). destruct I. Qed.
Lemma opfollow_follow rest : opfollow rest -> follow rest.
Proof. intro H. destruct (sym_cases _ _ H) as (s & r & I & ->). left. repeat (destruct I as [<-|I]; [reflexivity|]). destruct I. Qed.
Lemma follow_quiet rest : follow rest -> next starts rest = false /\ eat "(" rest = None /\ eat "::" rest = None /\ next (is ".") rest && next (is "class") (tl rest) = false.
Proof.
  intros [H|(H & C)].
  - destruct (sym_cases _ _ H) as (s & r & I & ->). repeat (destruct I as [<-|I]; [repeat split; reflexivity|]). destruct I.
  - apply next_is in H. destruct H as (r & ->). rewrite C. repeat split; reflexivity.
Qed.
Lemma opfollow_ends rest : opfollow rest -> eat "." rest = None /\ eat "[" rest = None /\ eat "++" rest = None /\ eat "--" rest = None.
Proof. intro H. destruct (sym_cases _ _ H) as (s & r & I & ->). repeat (destruct I as [<-|I]; [repeat split; reflexivity|]). destruct I. Qed.
Lemma stop_ops rest : stop rest -> op_ahead rest = None /\ asg_ahead rest = None.
Proof. intro H. destruct (sym_cases _ _ H) as (s & r & I & ->). repeat (destruct I as [<-|I]; [repeat split; reflexivity|]). destruct I. Qed.
Definition lead (rest : list token) : nat := match op_ahead rest with Some (o, _) => level_op o | None => 0 end.
Lemma op_ok o r : next starts r = true -> op_ahead (p_op o ++ r) = Some (o, r).
Proof.
  intro H. destruct r as [|t r]; [discriminate|]. cbn in H.
  destruct o; try reflexivity; cbn [p_op app op_ahead]; cbn [String.eqb Ascii.eqb Bool.eqb next is tl]; rewrite ?(starts_not t ">" H eq_refl), ?(starts_not t ">=" H eq_refl); reflexivity.
Qed.
Lemma op_follow o r : opfollow (p_op o ++ r).
Proof. destruct o; reflexivity. Qed.
Lemma asg_ok o l r : p_asg o = Some l -> asg_ahead (l ++ r) = Some (o, r) /\ op_ahead (l ++ r) = None /\ opfollow (l ++ r).
Proof. destruct o as [|[]]; cbn; intro H; try discriminate; injection H as <-; repeat split; reflexivity. Qed.

(* a primary begins with an opening parenthesis only if it begins with (e) *)
Definition tail_ok (l : list token) : Prop := l = [] \/ next (is ".") l = true \/ next (is "[") l = true.
Lemma tail_app a b : tail_ok a -> tail_ok b -> tail_ok (a ++ b).
Proof. intros [-> |[H|H]] Hb; [exact Hb| |]; apply next_is in H; destruct H as (r & ->); [right; left|right; right]; reflexivity. Qed.
Lemma level_14 e : at_least 14 e = true -> level e = 14.
Proof. intro H. apply Nat.leb_le in H. destruct e; cbn in H; try lia; try reflexivity. destruct o; cbn in H; lia. Qed.
Lemma primary_head e : proper_expr e = true -> wf_expr e = true -> level e = 14 ->
  (exists t r, p_expr e = t :: r /\ is "(" t = false /\ is "!" t = false /\ is "~" t = false) \/
  (exists b tail, p_expr e = T "(" :: p_expr b ++ T ")" :: tail /\ proper_expr b = true /\ wf_expr b = true /\ tail_ok tail).
Proof.
  induction e using expr_ind'; intros Pe We Le; cbn [proper_expr wf_expr level] in Pe, We, Le; try discriminate; props; cbn [p_expr app];
  try (left; eexists; eexists; split; [reflexivity|cbn; words; repeat split; reflexivity]).
  - left. destruct b; (eexists; eexists; split; [reflexivity|repeat split; reflexivity]).
  - match goal with H : at_least 14 _ = true |- _ => apply level_14 in H end. destruct IHe as [(t & r & -> & A)|(b & tl & -> & Pb & Wb & Tb)]; auto.
    { left. cbn [app]. eauto. } { right. exists b, (tl ++ [T "."; T x]). cbn [app]. rewrite <- app_assoc. cbn [app]. repeat split; auto. apply tail_app; auto. right. left. reflexivity. }
  - match goal with H : at_least 14 _ = true |- _ => apply level_14 in H end. destruct IHe as [(t & r & -> & A)|(b & tl & -> & Pb & Wb & Tb)]; auto.
    { left. cbn [app]. eauto. } { right. exists b, (tl ++ T "." :: T m :: T "(" :: sep [T ","] (map p_expr args) ++ [T ")"]). cbn [app]. rewrite <- app_assoc. cbn [app]. repeat split; auto. apply tail_app; auto. right. left. reflexivity. }
  - match goal with H : at_least 14 _ = true |- _ => apply level_14 in H end. destruct IHe1 as [(t & r & -> & A)|(b & tl & -> & Pb & Wb & Tb)]; auto.
    { left. cbn [app]. eauto. } { right. exists b, (tl ++ T "[" :: p_expr e2 ++ [T "]"]). cbn [app]. rewrite <- app_assoc. cbn [app]. repeat split; auto. apply tail_app; auto. right. right. reflexivity. }
  - right. exists e, []. repeat split; auto. left. reflexivity.
  - destruct o; discriminate.
Qed.
Lemma not_unary e rest k : proper_expr e = true -> wf_expr e = true -> level e = 14 -> next starts rest = false ->
  eat "!" (p_expr e ++ rest) = None /\ eat "~" (p_expr e ++ rest) = None /\ cast_ahead k (p_expr e ++ rest) = None.
Proof.
  intros Pe We Le Hr. destruct (primary_head e Pe We Le) as [(t & r & -> & A & B & C)|(b & tl & -> & Pb & Wb & Tb)].
  - cbn. rewrite B, C. unfold cast_ahead. cbn. rewrite A. auto.
  - cbn [app]. rewrite <- app_assoc. cbn [app]. repeat split; try reflexivity. apply not_a_cast; auto.
    destruct Tb as [-> |[H|H]]; [exact Hr| |]; apply next_is in H; destruct H as (q & ->); reflexivity.
Qed.
Lemma level_op_bounds o : 2 <= level_op o <= 11. Proof. destruct o; cbn; lia. Qed.
Lemma level_var e : is_var e = true -> level e = 14. Proof. destruct e; cbn; congruence. Qed.

(* ---------- expressions ---------- *)
Definition prim (k : nat) (ts : list token) : option (expr * list token) := match parse_atom k ts with Some (a, r) => selectors k a r | None => None end.
Definition primary_ok (e : expr) : Prop := forall rest, follow rest -> exists N c, forall k, N <= k -> prim k (p_expr e ++ rest) = selectors (k - c) e rest.
Definition unary_ok (e : expr) : Prop := forall rest, opfollow rest -> ev (fun k => parse_un k (p_expr e ++ rest) = Some (e, rest)).
Definition binary_ok (e : expr) : Prop := forall n rest, n <= level e -> opfollow rest -> lead rest <= level e -> exists N c, forall k, N <= k -> parse_bin k n (p_expr e ++ rest) = operators (k - c) n e rest.
Definition expr_ok (e : expr) : Prop := forall rest, stop rest -> ev (fun k => parse_expr k (p_expr e ++ rest) = Some (e, rest)).

Lemma atom_primary e : (forall rest, follow rest -> ev (fun k => parse_atom k (p_expr e ++ rest) = Some (e, rest))) -> primary_ok e.
Proof. intros H rest F. destruct (H rest F) as (N & HN). exists N, 0. intros k Hk. unfold prim. rewrite HN by lia. now rewrite Nat.sub_0_r. Qed.
Lemma selectors_end k e rest : opfollow rest -> 1 <= k -> selectors k e rest = Some (e, rest).
Proof. intros F Hk. destruct k as [|k]; [lia|]. cbn [selectors]. destruct (opfollow_ends rest F) as (-> & -> & _). reflexivity. Qed.
Lemma primary_unary e : proper_expr e = true -> wf_expr e = true -> level e = 14 -> primary_ok e -> unary_ok e.
Proof.
  intros Pe We Le H rest F. destruct (H rest (opfollow_follow _ F)) as (N & c & HN). exists (S (N + c + 1)). intros [|k] Hk; [lia|]. cbn [parse_un].
  destruct (not_unary e rest k Pe We Le) as (-> & -> & ->). { apply follow_quiet, opfollow_follow, F. }
  specialize (HN k ltac:(lia)). unfold prim in HN. rewrite selectors_end in HN by (auto; lia).
  destruct (parse_atom k (p_expr e ++ rest)) as [(a0, r0)|]; [|discriminate]. rewrite HN. destruct (opfollow_ends rest F) as (_ & _ & -> & ->). reflexivity.
Qed.
Lemma unary_binary e : unary_ok e -> binary_ok e.
Proof. intros H n rest Ln F _. destruct (H rest F) as (N & HN). exists (S N), 1. intros [|k] Hk; [lia|]. cbn [parse_bin]. rewrite HN by lia. now replace (S k - 1) with k by lia. Qed.
Lemma binary_expr e : 2 <= level e -> binary_ok e -> expr_ok e.
Proof.
  intros L H rest F. destruct (stop_ops rest F) as (Eo & Ea). destruct (H 2 rest L (stop_opfollow _ F)) as (N & c & HN). { unfold lead. rewrite Eo. lia. }
  exists (S (N + c + 1)). intros [|k] Hk; [lia|]. cbn [parse_expr]. rewrite HN by lia.
  destruct (k - c) as [|j] eqn:Ej; [lia|]. cbn [operators]. rewrite Eo, Ea. reflexivity.
Qed.
Lemma primary_all e : proper_expr e = true -> wf_expr e = true -> level e = 14 -> primary_ok e -> (level e = 14 -> primary_ok e) /\ (12 <= level e -> unary_ok e) /\ (2 <= level e -> binary_ok e) /\ expr_ok e.
Proof.
  intros Pe We Le H. assert (U : unary_ok e) by (apply primary_unary; auto). assert (B : binary_ok e) by (apply unary_binary; auto). repeat split; auto. apply binary_expr; auto. lia.
Qed.
Lemma unary_all e : level e = 12 \/ level e = 13 -> unary_ok e -> (level e = 14 -> primary_ok e) /\ (12 <= level e -> unary_ok e) /\ (2 <= level e -> binary_ok e) /\ expr_ok e.
Proof. intros L U. assert (B : binary_ok e) by (apply unary_binary; auto). repeat split; auto; try lia. apply binary_expr; auto. lia. Qed.
Lemma stop_comma r : stop (T "," :: r). Proof. reflexivity. Qed.
Lemma stop_close r : stop (T ")" :: r). Proof. reflexivity. Qed.
Lemma args_ok args : (forall x, In x args -> proper_expr x = true /\ expr_ok x) ->
  forall rest, exists N, forall k j, N <= k -> N <= j -> enclosed (parse_expr k) j (sep [T ","] (map p_expr args) ++ T ")" :: rest) = Some (args, rest).
Proof.
  intros H rest. apply enclosed_ok with (F := stop); try reflexivity; try apply stop_comma; try apply stop_close.
  - intros x I. destruct (H x I) as (P & _). split; [|apply p_expr_not_nil; auto]. destruct (p_expr_starts x P) as (t & r & -> & S). cbn. apply starts_not; auto.
  - intros x I r F. apply (proj2 (H x I)). exact F.
Qed.
Definition parsed (e : expr) : Prop :=
  proper_expr e = true -> wf_expr e = true -> (level e = 14 -> primary_ok e) /\ (12 <= level e -> unary_ok e) /\ (2 <= level e -> binary_ok e) /\ expr_ok e.
Lemma args_parsed args : Forall parsed args -> forallb proper_expr args = true -> forallb wf_expr args = true -> forall x, In x args -> proper_expr x = true /\ expr_ok x.
Proof. rewrite Forall_forall, !forallb_forall. intros H P W x I. split; [auto|]. apply (H x I); auto. Qed.

Ltac at14 := match goal with H : at_least 14 _ = true |- _ => apply level_14 in H end.
Lemma expr_parsed e : parsed e.
Proof.
  induction e using expr_ind'; intros Pe We; pose proof Pe as Pe0; pose proof We as We0; cbn [proper_expr wf_expr] in Pe, We; props.
  1-7: apply primary_all; auto; apply atom_primary; intros rest F; exists 1; intros [|k] Hk; [lia|]; cbn [p_expr app parse_atom]; try reflexivity.
  - destruct b; reflexivity.
  - destruct h; reflexivity.
  - (* name *) apply primary_all; auto. apply atom_primary. intros rest F. exists 1. intros [|k] Hk; [lia|]. cbn [p_expr app parse_atom]. rewrite Pe. destruct (follow_quiet rest F) as (_ & -> & -> & ->). reflexivity.
  - (* field *) at14. destruct IHe as (IH & _); auto.
    apply primary_all; auto.
    intros rest F. destruct (IH ltac:(assumption) (T "." :: T x :: rest)) as (N & c & HN). { right. cbn. words. auto. }
    exists (N + c + 1), (S c). intros k Hk. cbn [p_expr]. rewrite <- app_assoc. cbn [app]. rewrite HN by lia.
    destruct (k - c) as [|j] eqn:Ej; [lia|]. cbn [selectors]. rewrite eat_hit. cbn [eat_id]. rewrite (ltac:(assumption) : ident x = true). destruct (follow_quiet rest F) as (_ & -> & _). replace (k - S c) with j by lia. reflexivity.
  - (* call *) at14. destruct IHe as (IH & _); auto.
    apply primary_all; auto.
    intros rest F. destruct (IH ltac:(assumption) (T "." :: T m :: T "(" :: sep [T ","] (map p_expr args) ++ T ")" :: rest)) as (N & c & HN). { right. cbn. words. auto. }
    destruct (args_ok args (args_parsed args ltac:(assumption) ltac:(assumption) ltac:(assumption)) rest) as (N1 & HN1).
    exists (N + N1 + c + 1), (S c). intros k Hk. cbn [p_expr]. rewrite <- app_assoc. cbn [app]. rewrite <- app_assoc. cbn [app]. rewrite HN by lia.
    destruct (k - c) as [|j] eqn:Ej; [lia|]. cbn [selectors]. rewrite eat_hit. cbn [eat_id]. rewrite (ltac:(assumption) : ident m = true). rewrite eat_hit. rewrite HN1 by lia. replace (k - S c) with j by lia. reflexivity.
  - (* unqualified call *) apply primary_all; auto. apply atom_primary. intros rest F.
    destruct (args_ok args (args_parsed args ltac:(assumption) ltac:(assumption) ltac:(assumption)) rest) as (N1 & HN1).
    exists (S N1). intros [|k] Hk; [lia|]. cbn [p_expr app]. rewrite <- app_assoc. cbn [app parse_atom]. rewrite (ltac:(assumption) : ident m = true). rewrite eat_hit. rewrite HN1 by lia. reflexivity.
  - (* new *) apply primary_all; auto. apply atom_primary. intros rest F.
    destruct (args_ok args (args_parsed args ltac:(assumption) ltac:(assumption) ltac:(assumption)) rest) as (N1 & HN1).
    destruct (made_ok t (T "(" :: sep [T ","] (map p_expr args) ++ T ")" :: rest) ltac:(assumption) eq_refl) as (N2 & HN2).
    exists (S (N1 + N2)). intros [|k] Hk; [lia|]. cbn [p_expr app]. rewrite <- app_assoc. cbn [app]. rewrite <- app_assoc. cbn [app parse_atom]. cbn [ident is_letter String.eqb].
    replace (ident "new") with false by reflexivity. rewrite HN2 by lia. rewrite eat_hit. rewrite HN1 by lia. reflexivity.
  - (* new array *) apply primary_all; auto. apply atom_primary. intros rest F.
    destruct IHe as (_ & _ & _ & IH); auto. destruct (IH (T "]" :: rest) eq_refl) as (N1 & HN1).
    destruct (made_ok t (T "[" :: p_expr e ++ T "]" :: rest) ltac:(assumption) eq_refl) as (N2 & HN2).
    exists (S (N1 + N2)). intros [|k] Hk; [lia|]. cbn [p_expr app]. rewrite <- app_assoc. cbn [app]. rewrite <- app_assoc. cbn [app parse_atom].
    replace (ident "new") with false by reflexivity. cbn [String.eqb Ascii.eqb Bool.eqb]. rewrite HN2 by lia. cbn [eat is String.eqb Ascii.eqb Bool.eqb]. rewrite HN1 by lia. rewrite eat_hit. reflexivity.
  - (* index *) at14. destruct IHe1 as (IH & _); auto. destruct IHe2 as (_ & _ & _ & IH2); auto.
    apply primary_all; auto.
    intros rest F. destruct (IH ltac:(assumption) (T "[" :: p_expr e2 ++ T "]" :: rest)) as (N & c & HN). { left. reflexivity. }
    destruct (IH2 (T "]" :: rest) eq_refl) as (N1 & HN1).
    exists (N + N1 + c + 1), (S c). intros k Hk. cbn [p_expr]. rewrite <- app_assoc. cbn [app]. rewrite <- app_assoc. cbn [app]. rewrite HN by lia.
    destruct (k - c) as [|j] eqn:Ej; [lia|]. cbn [selectors]. cbn [eat is String.eqb Ascii.eqb Bool.eqb]. rewrite HN1 by lia. rewrite eat_hit. replace (k - S c) with j by lia. reflexivity.
  - (* cast *) apply unary_all; [left; reflexivity|]. match goal with H : at_least 12 _ = true |- _ => apply Nat.leb_le in H; destruct IHe as (_ & IH & _); auto; specialize (IH H) end.
    intros rest F. destruct (IH rest F) as (N1 & HN1). destruct (type_ok t (T ")" :: p_expr e ++ rest) ltac:(assumption) eq_refl eq_refl) as (N2 & HN2).
    exists (S (N1 + N2)). intros [|k] Hk; [lia|]. cbn [p_expr app]. rewrite <- app_assoc. cbn [app parse_un]. cbn [eat is String.eqb Ascii.eqb Bool.eqb]. unfold cast_ahead. rewrite eat_hit. rewrite HN2 by lia. rewrite eat_hit. rewrite next_starts by auto. rewrite HN1 by lia. reflexivity.
  - (* parentheses *) apply primary_all; auto. apply atom_primary. intros rest F.
    destruct IHe as (_ & _ & _ & IH); auto. destruct (IH (T ")" :: rest) eq_refl) as (N1 & HN1).
    exists (S N1). intros [|k] Hk; [lia|]. cbn [p_expr app]. rewrite <- app_assoc. cbn [app parse_atom]. replace (ident "(") with false by reflexivity. cbn [String.eqb Ascii.eqb Bool.eqb]. rewrite HN1 by lia. rewrite eat_hit. reflexivity.
  - (* not *) apply unary_all; [left; reflexivity|]. match goal with H : at_least 12 _ = true |- _ => apply Nat.leb_le in H; destruct IHe as (_ & IH & _); auto; specialize (IH H) end.
    intros rest F. destruct (IH rest F) as (N1 & HN1). exists (S N1). intros [|k] Hk; [lia|]. cbn [p_expr app parse_un]. rewrite eat_hit. rewrite HN1 by lia. reflexivity.
  - (* inv *) apply unary_all; [left; reflexivity|]. match goal with H : at_least 12 _ = true |- _ => apply Nat.leb_le in H; destruct IHe as (_ & IH & _); auto; specialize (IH H) end.
    intros rest F. destruct (IH rest F) as (N1 & HN1). exists (S N1). intros [|k] Hk; [lia|]. cbn [p_expr app parse_un]. cbn [eat is String.eqb Ascii.eqb Bool.eqb]. rewrite HN1 by lia. reflexivity.
  - (* binary *)
    repeat match goal with H : at_least _ _ = true |- _ => apply Nat.leb_le in H end. pose proof (level_op_bounds o) as Lo.
    destruct IHe1 as (_ & _ & B1 & _); auto. destruct IHe2 as (_ & _ & B2 & _); auto. specialize (B1 ltac:(lia)). specialize (B2 ltac:(lia)).
    assert (B : binary_ok (EBin o e1 e2)).
    { intros n rest Ln F Lr. cbn [level] in Ln, Lr.
      assert (Op : op_ahead (p_op o ++ p_expr e2 ++ rest) = Some (o, p_expr e2 ++ rest)) by (apply op_ok, next_starts; auto).
      destruct (B1 n (p_op o ++ p_expr e2 ++ rest)) as (N1 & c1 & HN1); [lia|apply op_follow|unfold lead; rewrite Op; lia|].
      destruct (B2 (S (level_op o)) rest) as (N2 & c2 & HN2); [lia|exact F|lia|].
      exists (N1 + N2 + c1 + c2 + 2), (S c1). intros k Hk. cbn [p_expr]. rewrite <- !app_assoc. rewrite HN1 by lia.
      destruct (k - c1) as [|j] eqn:Ej; [lia|]. cbn [operators]. rewrite Op. replace (Nat.leb n (level_op o)) with true by (symmetry; apply Nat.leb_le; lia).
      rewrite HN2 by lia. destruct (j - c2) as [|i] eqn:Ei; [lia|]. cbn [operators].
      replace (match op_ahead rest with Some (o0, r) => if Nat.leb (S (level_op o)) (level_op o0) then match parse_bin i (S (level_op o0)) r with Some (b, r1) => operators i (S (level_op o)) (EBin o0 e2 b) r1 | None => None end else Some (e2, rest) | None => Some (e2, rest) end)
        with (Some (e2, rest)). { replace (k - S c1) with j by lia. reflexivity. }
      unfold lead in Lr. destruct (op_ahead rest) as [(o0, r)|]; auto. destruct (Nat.leb (S (level_op o)) (level_op o0)) eqn:El; auto. apply Nat.leb_le in El. lia. }
    repeat split; auto; cbn [level]; try lia. apply binary_expr; auto. cbn. lia.
  - (* inc *) apply unary_all; [right; reflexivity|]. destruct IHe as (IH & _); auto. pose proof (level_var e ltac:(assumption)) as Le. specialize (IH Le).
    intros rest F. destruct (IH (T "++" :: rest)) as (N & c & HN). { left. reflexivity. }
    exists (S (N + c + 1)). intros [|k] Hk; [lia|]. cbn [p_expr]. rewrite <- app_assoc. cbn [app parse_un].
    destruct (not_unary e (T "++" :: rest) k ltac:(assumption) ltac:(assumption) Le eq_refl) as (-> & -> & ->).
    specialize (HN k ltac:(lia)). unfold prim in HN. destruct (k - c) as [|j] eqn:Ej; [lia|]. cbn [selectors eat is String.eqb Ascii.eqb Bool.eqb] in HN.
    destruct (parse_atom k (p_expr e ++ T "++" :: rest)) as [(a0, r0)|]; [|discriminate]. rewrite HN. rewrite eat_hit. reflexivity.
  - (* dec *) apply unary_all; [right; reflexivity|]. destruct IHe as (IH & _); auto. pose proof (level_var e ltac:(assumption)) as Le. specialize (IH Le).
    intros rest F. destruct (IH (T "--" :: rest)) as (N & c & HN). { left. reflexivity. }
    exists (S (N + c + 1)). intros [|k] Hk; [lia|]. cbn [p_expr]. rewrite <- app_assoc. cbn [app parse_un].
    destruct (not_unary e (T "--" :: rest) k ltac:(assumption) ltac:(assumption) Le eq_refl) as (-> & -> & ->).
    specialize (HN k ltac:(lia)). unfold prim in HN. destruct (k - c) as [|j] eqn:Ej; [lia|]. cbn [selectors eat is String.eqb Ascii.eqb Bool.eqb] in HN.
    destruct (parse_atom k (p_expr e ++ T "--" :: rest)) as [(a0, r0)|]; [|discriminate]. rewrite HN. cbn [eat is String.eqb Ascii.eqb Bool.eqb]. reflexivity.
  - (* assignment *) destruct (p_asg o) as [l|] eqn:Eo; [|discriminate]. pose proof (level_var e1 ltac:(assumption)) as Le.
    destruct IHe1 as (_ & _ & B1 & _); auto. specialize (B1 ltac:(lia)). destruct IHe2 as (_ & _ & _ & IH2); auto.
    repeat split; cbn [level]; try lia. intros rest F. destruct (asg_ok o l (p_expr e2 ++ rest) Eo) as (Ha & Ho & Fa).
    destruct (B1 2 (l ++ p_expr e2 ++ rest)) as (N1 & c & HN1); [lia|exact Fa|unfold lead; rewrite Ho; lia|]. destruct (IH2 rest F) as (N2 & HN2).
    exists (S (N1 + N2 + c + 1)). intros [|k] Hk; [lia|]. cbn [p_expr parse_expr]. rewrite Eo. rewrite <- !app_assoc. rewrite HN1 by lia. destruct (k - c) as [|j] eqn:Ej; [lia|]. cbn [operators]. rewrite Ho, Ha. rewrite HN2 by lia. reflexivity.
  - (* reference *) apply primary_all; auto. apply atom_primary. intros rest F. exists 1. intros [|k] Hk; [lia|]. cbn [p_expr app parse_atom]. rewrite Pe. cbn [eat is String.eqb Ascii.eqb Bool.eqb]. reflexivity.
  - (* class *) apply primary_all; auto. apply atom_primary. intros rest F. exists 1. intros [|k] Hk; [lia|]. cbn [p_expr app parse_atom]. rewrite Pe. cbn [eat is String.eqb Ascii.eqb Bool.eqb]. reflexivity.
Qed.
Lemma expr_done e rest : proper_expr e = true -> wf_expr e = true -> stop rest -> ev (fun k => parse_expr k (p_expr e ++ rest) = Some (e, rest)).
Proof. intros P W S. destruct (expr_parsed e P W) as (_ & _ & _ & H). apply H. exact S. Qed.

(* ---------- statements ---------- *)
Lemma stmt_ind' (P : stmt -> Prop)
  (H0 : forall t x e, P (SLocal t x e)) (H1 : forall e, P (SExpr e)) (H2 : forall e a r, P a -> (forall b, r = Some b -> P b) -> P (SIf e a r))
  (H3 : forall t x i c u a, P a -> P (SFor t x i c u a)) (H4 : forall t x e a, P a -> P (SEach t x e a)) (H5 : forall c a, P a -> P (SWhile c a)) (H6 : forall a c, P a -> P (SDo a c))
  (H7 : forall e, P (SReturn e)) (H8 : forall e, P (SThrow e)) (H9 : forall ss, Forall P ss -> P (SBlock ss)) : forall s, P s.
Proof.
  fix IH 1. intros [t x e|e|e a r|t x i c u a|t x e a|c a|a c|e|e|ss].
  - apply H0. - apply H1. - apply H2; [apply IH|]. destruct r as [b0|]; intros b E; [injection E as <-; apply IH|discriminate].
  - apply H3, IH. - apply H4, IH. - apply H5, IH. - apply H6, IH. - apply H7. - apply H8.
  - apply H9. induction ss as [|s l IHl]; constructor; [apply IH|exact IHl].
Qed.
Lemma tname_is x s : tname x = true -> tname s = false -> is s (T x) = false.
Proof. intros H1 H2. cbn. apply (by_test tname); auto. Qed.
Lemma ty_next_not t rest s : proper_ty t = true -> tname s = false -> String.eqb "?" s = false -> next (is s) (p_ty t ++ rest) = false.
Proof. intros H Hs Hq. destruct (p_ty_first t (or_introl H)) as (x & r & -> & [D| ->]); cbn; [apply (by_test tname); auto|exact Hq]. Qed.
Lemma decl_head x l : tname x = false -> decl_ahead (T x :: l) = false.
Proof. intro H. destruct l; cbn; auto. now rewrite H. Qed.
Definition named (ts : list token) : Prop := (exists x r, ts = T x :: r /\ ident x = true) \/ (exists r, ts = T "[" :: T "]" :: r).
Lemma decl_ok t : proper_ty t = true -> forall ts, named ts -> decl_ahead (p_ty t ++ ts) = true.
Proof.
  induction t as [n args _|n|t IH|] using ty_ind'; intros P ts N; cbn [proper_ty] in P; props.
  - destruct args as [|a l].
    + cbn [p_ty app]. destruct N as [(x & r & -> & E)|(r & ->)]; cbn; rewrite H; [rewrite E|]; reflexivity.
    + cbn [p_ty app]. cbn. rewrite H. reflexivity.
  - cbn. rewrite P. reflexivity.
  - cbn [p_ty]. rewrite <- app_assoc. apply IH; auto. right. exists ts. reflexivity.
  - discriminate.
Qed.
Definition undeclared (ts : list token) : Prop := match ts with b :: r => (match b with T y => ident y | _ => false end) || is "<" b || (is "[" b && next (is "]") r) = false | [] => True end.
Lemma decl_name x ts : undeclared ts -> decl_ahead (T x :: ts) = false.
Proof. destruct ts as [|b r]; cbn; auto. intros ->. apply andb_false_r. Qed.
Lemma not_decl e : proper_expr e = true -> wf_expr e = true -> level e = 14 -> forall rest, undeclared rest -> decl_ahead (p_expr e ++ rest) = false.
Proof.
  induction e using expr_ind'; intros Pe We Le rest U; cbn [proper_expr wf_expr level] in Pe, We, Le; try discriminate; props; cbn [p_expr app]; try at14;
  try (apply decl_head; reflexivity); try reflexivity.
  - destruct b; apply decl_head; reflexivity.
  - apply decl_name. exact U.
  - rewrite <- app_assoc. apply IHe; auto. reflexivity.
  - rewrite <- app_assoc. apply IHe; auto. reflexivity.
  - apply decl_name. reflexivity.
  - rewrite <- app_assoc. apply IHe1; auto. cbn [app undeclared]. rewrite <- app_assoc. rewrite expr_next_not by auto. reflexivity.
  - destruct o; discriminate.
  - apply decl_name. reflexivity.
  - apply decl_name. reflexivity.
Qed.
Lemma does_not_declare e rest : proper_expr e = true -> wf_expr e = true -> does e = true -> decl_ahead (p_expr e ++ T ";" :: rest) = false.
Proof.
  intros Pe We D. destruct e; try discriminate D.
  - apply not_decl; auto; reflexivity.
  - apply not_decl; auto; reflexivity.
  - apply decl_head. reflexivity.
  - cbn [proper_expr wf_expr] in Pe, We. props. cbn [p_expr]. rewrite <- app_assoc. apply not_decl; auto; [apply level_var; auto|reflexivity].
  - cbn [proper_expr wf_expr] in Pe, We. props. cbn [p_expr]. rewrite <- app_assoc. apply not_decl; auto; [apply level_var; auto|reflexivity].
  - cbn [proper_expr wf_expr] in Pe, We. props. destruct (p_asg o) as [l|] eqn:Eo; [|discriminate]. cbn [p_expr]. rewrite Eo. rewrite <- app_assoc. apply not_decl; auto; [apply level_var; auto|].
    destruct o as [|[]]; cbn in Eo; try discriminate; injection Eo as <-; reflexivity.
Qed.

Lemma p_decl_ok t x rest : proper_ty t = true -> ident x = true -> ev (fun k => parse_decl k (p_ty t ++ T x :: rest) = Some ((t, x), rest)).
Proof.
  intros P I. destruct (type_ok t (T x :: rest) P) as (N & HN); [cbn; words; reflexivity|cbn; words; reflexivity|].
  exists N. intros k Hk. unfold parse_decl. rewrite HN by lia. cbn [eat_id]. rewrite I. reflexivity.
Qed.
Lemma expr_then_ok s e rest : proper_expr e = true -> wf_expr e = true -> has_word s stop_syms = true -> ev (fun k => expr_then s k (p_expr e ++ T s :: rest) = Some (e, rest)).
Proof. intros P W S. destruct (expr_done e (T s :: rest) P W S) as (N & HN). exists N. intros k Hk. unfold expr_then. rewrite HN by lia. now rewrite eat_hit. Qed.
Lemma paren_ok e rest : proper_expr e = true -> wf_expr e = true -> ev (fun k => paren_expr k (T "(" :: p_expr e ++ T ")" :: rest) = Some (e, rest)).
Proof. intros P W. destruct (expr_done e (T ")" :: rest) P W eq_refl) as (N & HN). exists N. intros k Hk. unfold paren_expr. rewrite eat_hit, HN by lia. now rewrite eat_hit. Qed.

Lemma p_stmt_first s : proper_stmt s = true -> exists t r, p_stmt s = t :: r /\ is "else" t = false /\ is "}" t = false.
Proof.
  destruct s as [t x e|e|e a r|t x i c u a|t x e a|c a|a c|e|e|ss]; intro P; cbn [proper_stmt] in P; props.
  - destruct (p_ty_first t) as (y & q & E & D); [left; assumption|]. cbn [p_stmt]. destruct e; rewrite E; cbn [app]; do 2 eexists; (split; [reflexivity|]); (destruct D as [D| ->]; [rewrite !tname_is by auto|]; split; reflexivity).
  - destruct (p_expr_starts e ltac:(assumption)) as (t & q & E & S). cbn [p_stmt]. rewrite E. cbn [app]. do 2 eexists. split; [reflexivity|]. split; apply starts_not; auto.
  - destruct r; cbn [p_stmt app]; do 2 eexists; (split; [reflexivity|split; reflexivity]).
  - do 2 eexists; (split; [reflexivity|split; reflexivity]).
  - do 2 eexists; (split; [reflexivity|split; reflexivity]).
  - do 2 eexists; (split; [reflexivity|split; reflexivity]).
  - do 2 eexists; (split; [reflexivity|split; reflexivity]).
  - destruct e; do 2 eexists; (split; [reflexivity|split; reflexivity]).
  - do 2 eexists; (split; [reflexivity|split; reflexivity]).
  - do 2 eexists; (split; [reflexivity|split; reflexivity]).
Qed.
Definition stmt_ok (s : stmt) : Prop := proper_stmt s = true -> wf_stmt s = true ->
  forall rest, closed_stmt s = true \/ next (is "else") rest = false -> ev (fun k => parse_stmt k (p_stmt s ++ rest) = Some (s, rest)).
Lemma stmts_ok ss : Forall stmt_ok ss -> forallb proper_stmt ss = true -> forallb wf_stmt ss = true -> forall rest, ev (fun k => parse_stmts k (flat_map p_stmt ss ++ T "}" :: rest) = Some (ss, rest)).
Proof.
  induction ss as [|s l IH]; intros F P W rest.
  - exists 1. intros [|k] Hk; [lia|]. reflexivity.
  - apply Forall_cons_iff in F. destruct F as (Fs & Fl). cbn in P, W. props. destruct (IH Fl ltac:(assumption) ltac:(assumption) rest) as (N1 & HN1).
    destruct (Fs ltac:(assumption) ltac:(assumption) (flat_map p_stmt l ++ T "}" :: rest)) as (N2 & HN2).
    { right. destruct l as [|s2 l]; [reflexivity|]. match goal with H : forallb proper_stmt (_ :: _) = true |- _ => cbn in H end. props. destruct (p_stmt_first s2 ltac:(assumption)) as (t & r & E & E2 & _). cbn [flat_map]. rewrite E. cbn. exact E2. }
    exists (S (N1 + N2)). intros [|k] Hk; [lia|]. cbn [flat_map parse_stmts]. rewrite <- app_assoc.
    assert (Ec : eat "}" (p_stmt s ++ flat_map p_stmt l ++ T "}" :: rest) = None). { destruct (p_stmt_first s ltac:(assumption)) as (t & r & -> & _ & E2). cbn. now rewrite E2. }
    rewrite Ec, HN2 by lia. rewrite HN1 by lia. reflexivity.
Qed.
Ltac here := cbn [next is String.eqb Ascii.eqb Bool.eqb eat tl].
Lemma stmt_parsed s : stmt_ok s.
Proof.
  induction s as [t x e|e|e a r IHa IHr|t x i c u a IHa|t x e a IHa|c a IHa|a c IHa|e|e|ss IHs] using stmt_ind'; intros P W rest R; pose proof P as P0; cbn [proper_stmt wf_stmt closed_stmt] in P, W, R; props.
  - (* local *)
    assert (D : forall r, decl_ahead (p_ty t ++ T x :: r) = true). { intro r. apply decl_ok; auto. left. eauto. }
    assert (Kw : forall r s, tname s = false -> String.eqb "?" s = false -> next (is s) (p_ty t ++ T x :: r) = false). { intros. apply ty_next_not; auto. }
    destruct e as [e|].
    + destruct (p_decl_ok t x (T "=" :: p_expr e ++ T ";" :: rest) ltac:(assumption) ltac:(assumption)) as (N1 & K1).
      destruct (expr_then_ok ";" e rest ltac:(assumption) ltac:(assumption) eq_refl) as (N2 & K2).
      exists (S (N1 + N2)). intros [|k] Hk; [lia|]. cbn [p_stmt]. rewrite <- app_assoc. cbn [app]. rewrite <- app_assoc. cbn [app parse_stmt].
      rewrite !Kw by reflexivity. rewrite D, K1 by lia. here. rewrite K2 by lia. reflexivity.
    + destruct (p_decl_ok t x (T ";" :: rest) ltac:(assumption) ltac:(assumption)) as (N1 & K1).
      exists (S N1). intros [|k] Hk; [lia|]. cbn [p_stmt]. rewrite <- app_assoc. cbn [app parse_stmt]. rewrite !Kw by reflexivity. rewrite D, K1 by lia. here. reflexivity.
  - (* expression *)
    destruct (expr_then_ok ";" e rest ltac:(assumption) ltac:(assumption) eq_refl) as (N2 & K2).
    exists (S N2). intros [|k] Hk; [lia|]. cbn [p_stmt]. rewrite <- app_assoc. cbn [app parse_stmt]. rewrite !expr_next_not by auto. rewrite does_not_declare by auto. rewrite K2 by lia. reflexivity.
  - (* if *)
    destruct R as [R|R]; [discriminate|]. destruct r as [b|].
    + props. destruct (IHr b eq_refl ltac:(assumption) ltac:(assumption) rest (or_intror R)) as (N1 & K1).
      destruct (IHa ltac:(assumption) ltac:(assumption) (T "else" :: p_stmt b ++ rest) (or_introl (ltac:(assumption) : closed_stmt a = true))) as (N2 & K2).
      destruct (paren_ok e (p_stmt a ++ T "else" :: p_stmt b ++ rest) ltac:(assumption) ltac:(assumption)) as (N3 & K3).
      exists (S (N1 + N2 + N3)). intros [|k] Hk; [lia|]. cbn [p_stmt app]. rewrite <- app_assoc. cbn [app]. rewrite <- app_assoc. cbn [app parse_stmt]. here. rewrite K3 by lia. rewrite K2 by lia. here. rewrite K1 by lia. reflexivity.
    + props. destruct (IHa ltac:(assumption) ltac:(assumption) rest (or_intror R)) as (N2 & K2).
      destruct (paren_ok e (p_stmt a ++ rest) ltac:(assumption) ltac:(assumption)) as (N3 & K3).
      exists (S (N2 + N3)). intros [|k] Hk; [lia|]. cbn [p_stmt app]. rewrite <- app_assoc. cbn [app parse_stmt]. here. rewrite K3 by lia. rewrite K2 by lia. rewrite (not_next _ _ R). reflexivity.
  - (* for *)
    destruct R as [R|R]; [discriminate|].
    destruct (IHa ltac:(assumption) ltac:(assumption) rest (or_intror R)) as (N1 & K1).
    destruct (expr_then_ok ")" u (p_stmt a ++ rest) ltac:(assumption) ltac:(assumption) eq_refl) as (N2 & K2).
    destruct (expr_then_ok ";" c (p_expr u ++ T ")" :: p_stmt a ++ rest) ltac:(assumption) ltac:(assumption) eq_refl) as (N3 & K3).
    destruct (expr_then_ok ";" i (p_expr c ++ T ";" :: p_expr u ++ T ")" :: p_stmt a ++ rest) ltac:(assumption) ltac:(assumption) eq_refl) as (N4 & K4).
    destruct (p_decl_ok t x (T "=" :: p_expr i ++ T ";" :: p_expr c ++ T ";" :: p_expr u ++ T ")" :: p_stmt a ++ rest) ltac:(assumption) ltac:(assumption)) as (N5 & K5).
    exists (S (N1 + N2 + N3 + N4 + N5)). intros [|k] Hk; [lia|]. cbn [p_stmt app]. repeat (rewrite <- app_assoc; cbn [app]). cbn [parse_stmt]. here. rewrite K5 by lia. here. rewrite K4 by lia. rewrite K3 by lia. rewrite K2 by lia. rewrite K1 by lia. reflexivity.
  - (* for each *)
    destruct R as [R|R]; [discriminate|].
    destruct (IHa ltac:(assumption) ltac:(assumption) rest (or_intror R)) as (N1 & K1).
    destruct (expr_then_ok ")" e (p_stmt a ++ rest) ltac:(assumption) ltac:(assumption) eq_refl) as (N2 & K2).
    destruct (p_decl_ok t x (T ":" :: p_expr e ++ T ")" :: p_stmt a ++ rest) ltac:(assumption) ltac:(assumption)) as (N5 & K5).
    exists (S (N1 + N2 + N5)). intros [|k] Hk; [lia|]. cbn [p_stmt app]. repeat (rewrite <- app_assoc; cbn [app]). cbn [parse_stmt]. here. rewrite K5 by lia. here. rewrite K2 by lia. rewrite K1 by lia. reflexivity.
  - (* while *)
    destruct R as [R|R]; [discriminate|].
    destruct (IHa ltac:(assumption) ltac:(assumption) rest (or_intror R)) as (N1 & K1).
    destruct (paren_ok c (p_stmt a ++ rest) ltac:(assumption) ltac:(assumption)) as (N3 & K3).
    exists (S (N1 + N3)). intros [|k] Hk; [lia|]. cbn [p_stmt app]. repeat (rewrite <- app_assoc; cbn [app]). cbn [parse_stmt]. here. rewrite K3 by lia. rewrite K1 by lia. reflexivity.
  - (* do *)
    destruct (paren_ok c (T ";" :: rest) ltac:(assumption) ltac:(assumption)) as (N3 & K3).
    destruct (IHa ltac:(assumption) ltac:(assumption) (T "while" :: T "(" :: p_expr c ++ T ")" :: T ";" :: rest) (or_intror eq_refl)) as (N1 & K1).
    exists (S (N1 + N3)). intros [|k] Hk; [lia|]. cbn [p_stmt app]. repeat (rewrite <- app_assoc; cbn [app]). cbn [parse_stmt]. here. rewrite K1 by lia. here. rewrite K3 by lia. here. reflexivity.
  - (* return *)
    destruct e as [e|].
    + destruct (expr_then_ok ";" e rest ltac:(assumption) ltac:(assumption) eq_refl) as (N2 & K2).
      exists (S N2). intros [|k] Hk; [lia|]. cbn [p_stmt app]. rewrite <- app_assoc. cbn [app parse_stmt]. here. rewrite (not_next ";") by (apply expr_next_not; auto). rewrite K2 by lia. reflexivity.
    + exists 1. intros [|k] Hk; [lia|]. reflexivity.
  - (* throw *)
    destruct (expr_then_ok ";" e rest ltac:(assumption) ltac:(assumption) eq_refl) as (N2 & K2).
    exists (S N2). intros [|k] Hk; [lia|]. cbn [p_stmt app]. rewrite <- app_assoc. cbn [app parse_stmt]. here. rewrite K2 by lia. reflexivity.
  - (* block *)
    destruct (stmts_ok ss IHs P W rest) as (N1 & HN1). exists (S N1). intros [|k] Hk; [lia|]. cbn [p_stmt app]. rewrite <- app_assoc. cbn [app parse_stmt]. here. rewrite HN1 by lia. reflexivity.
Qed.
Lemma block_ok ss rest : forallb proper_stmt ss = true -> forallb wf_stmt ss = true -> ev (fun k => parse_block k (p_block ss ++ rest) = Some (ss, rest)).
Proof.
  intros P W. destruct (stmts_ok ss) with (rest := rest) as (N & HN); auto. { apply Forall_forall. intros s _. apply stmt_parsed. }
  exists N. intros k Hk. unfold p_block, parse_block. cbn [app]. rewrite <- app_assoc. cbn [app]. rewrite eat_hit. apply HN. exact Hk.
Qed.

(* ---------- classes ---------- *)
Section MEMBERS.
  Variable P : member -> Prop.
  Variable Q : jclass -> Prop.
  Hypothesis HF : forall mods t x e, P (MField mods t x e).
  Hypothesis HM : forall notes mods tps t m ps body, P (MMethod notes mods tps t m ps body).
  Hypothesis HK : forall mods c ps body, P (MCtor mods c ps body).
  Hypothesis HS : forall body, P (MStatic body).
  Hypothesis HC : forall c, Q c -> P (MClass c).
  Hypothesis HQ : forall mods kind name tps supers consts ms, Forall P ms -> Q (Class mods kind name tps supers consts ms).
  Fixpoint member_all (m : member) : P m :=
    match m with
    | MField mods t x e => HF mods t x e
    | MMethod notes mods tps t m ps body => HM notes mods tps t m ps body
    | MCtor mods c ps body => HK mods c ps body
    | MStatic body => HS body
    | MClass c => HC c (class_all c)
    end
  with class_all (c : jclass) : Q c :=
    match c with
    | Class mods kind name tps supers consts ms =>
        HQ mods kind name tps supers consts ms ((fix all (l : list member) : Forall P l := match l with [] => Forall_nil P | x :: r => Forall_cons x (member_all x) (all r) end) ms)
    end.
End MEMBERS.

Definition plain (s : string) : bool := tname s || has_word s kinds || String.eqb s "<".
Definition begins (rest : list token) : Prop := exists x r, rest = T x :: r /\ plain x = true.
Lemma plain_tname x : tname x = true -> plain x = true. Proof. unfold plain. intros ->. reflexivity. Qed.
Lemma plain_ident x : ident x = true -> plain x = true. Proof. intro H. apply plain_tname, ident_tname, H. Qed.
Lemma begins_ty t rest : proper_ty t = true -> begins (p_ty t ++ rest).
Proof.
  revert rest. induction t as [n args _|n|t IH|] using ty_ind'; intros rest H; cbn [proper_ty] in H; props.
  - destruct args; cbn [p_ty app]; exists n; eexists; (split; [reflexivity|]); apply plain_tname; auto.
  - exists n. eexists. split; [reflexivity|]. apply plain_tname; auto.
  - cbn [p_ty]. rewrite <- app_assoc. apply IH. exact H.
  - discriminate.
Qed.
Lemma begins_tps tps rest : begins rest -> begins (p_tps tps ++ rest).
Proof. destruct tps as [|x l]; [auto|]. intros _. exists "<". eexists. split; reflexivity. Qed.
Lemma begins_not rest s : begins rest -> plain s = false -> next (is s) rest = false.
Proof. intros (x & r & -> & H) Hs. cbn. apply (by_test plain); auto. Qed.
Lemma not_modifier x : plain x = true -> has_word x modifiers = false.
Proof. intro H. unfold has_word, modifiers. cbn [existsb]. rewrite !(by_test plain x _ H) by reflexivity. reflexivity. Qed.
Lemma modifier_not x s : has_word x modifiers = true -> has_word s modifiers = false -> String.eqb x s = false.
Proof. intros H1 H2. destruct (String.eqb x s) eqn:E; auto. apply String.eqb_eq in E. congruence. Qed.
Lemma mods_ok mods rest : proper_mods mods = true -> begins rest -> parse_mods (map T mods ++ rest) = (mods, rest).
Proof.
  intros P (x & r & -> & B). induction mods as [|m l IH]; cbn [map app parse_mods].
  - rewrite not_modifier by auto. reflexivity.
  - cbn [proper_mods forallb] in P. props. rewrite H, IH by auto. reflexivity.
Qed.
Lemma mods_next mods rest s : proper_mods mods = true -> begins rest -> plain s = false -> has_word s modifiers = false -> next (is s) (map T mods ++ rest) = false.
Proof. intros P B Hs Hm. destruct mods as [|m l]; [apply begins_not; auto|]. cbn [proper_mods forallb] in P. props. cbn [map app next is]. apply modifier_not; auto. Qed.
Lemma not_static mods rest : proper_mods mods = true -> begins rest -> next (is "static") (map T mods ++ rest) && next (is "{") (tl (map T mods ++ rest)) = false.
Proof.
  intros P B. destruct mods as [|m l]; cbn [map app tl].
  - now rewrite (begins_not rest "static" B eq_refl).
  - cbn [proper_mods forallb] in P. props. rewrite (mods_next l rest "{") by auto. apply andb_false_r.
Qed.
Lemma notes_none k rest : next (is "@") rest = false -> parse_notes (S k) rest = Some ([], rest).
Proof. intro H. cbn [parse_notes]. now rewrite (not_next _ _ H). Qed.
Definition p_notes (notes : list (string * option string)) : list token :=
  flat_map (fun n => [T "@"; T (fst n)] ++ match snd n with None => [] | Some s => [T "("; TLit s; T ")"] end) notes.
Lemma notes_ok notes rest : forallb (fun n => ident (fst n)) notes = true -> next (is "@") rest = false -> next (is "(") rest = false -> ev (fun k => parse_notes k (p_notes notes ++ rest) = Some (notes, rest)).
Proof.
  intros P H1 H2. induction notes as [|(n, o) l IH]; cbn in P; props.
  - exists 1. intros [|k] Hk; [lia|]. apply notes_none. exact H1.
  - destruct IH as (N & HN); auto. exists (S N). intros [|k] Hk; [lia|]. change (p_notes ((n, o) :: l)) with (T "@" :: T n :: match o with None => [] | Some s => [T "("; TLit s; T ")"] end ++ p_notes l). cbn [app fst] in *. destruct o as [s|].
    + cbn [app parse_notes]. rewrite eat_hit. cbn [eat_id]. rewrite H. rewrite !eat_hit. rewrite HN by lia. reflexivity.
    + cbn [app parse_notes]. rewrite eat_hit. cbn [eat_id]. rewrite H.
      assert (E : eat "(" (p_notes l ++ rest) = None). { apply not_next. destruct l as [|(n1, o1) l]; [exact H2|reflexivity]. }
      rewrite E, HN by lia. reflexivity.
Qed.
Lemma tps_ok tps rest : forallb ident tps = true -> next (is "<") rest = false -> ev (fun k => parse_tps k (p_tps tps ++ rest) = Some (tps, rest)).
Proof.
  intros P H. destruct tps as [|x l].
  - exists 0. intros k _. unfold parse_tps. cbn [p_tps app]. now rewrite (not_next _ _ H).
  - destruct (several_ok (fun _ => eat_id) (fun y : string => [T y]) (fun _ => True) (fun _ => Logic.I) (x :: l) ltac:(congruence)) with (rest := T ">" :: rest) as (N & HN); auto.
    { intros y I r _. exists 0. intros k _. cbn [app eat_id]. rewrite forallb_forall in P. rewrite (P y I). reflexivity. }
    exists N. intros k Hk. unfold parse_tps, p_tps. rewrite <- !app_assoc. cbn [app]. rewrite eat_hit. rewrite (HN k k) by lia. rewrite eat_hit. reflexivity.
Qed.
Lemma params_ok ps rest : proper_params ps = true -> ev (fun k => parse_params k (p_params ps ++ rest) = Some (ps, rest)).
Proof.
  intro P. unfold proper_params in P. rewrite forallb_forall in P.
  destruct (enclosed_ok parse_decl (fun p : ty * string => p_ty (fst p) ++ [T (snd p)]) (fun _ => True) (fun _ => Logic.I) ps) with (rest := rest) as (N & HN); auto.
  - intros x I. specialize (P x I). props. destruct (begins_ty (fst x) [T (snd x)] ltac:(assumption)) as (y & r & -> & B). split; [cbn; apply (by_test plain); auto|congruence].
  - intros (t, x) I r _. specialize (P _ I). cbn [fst snd] in *. props. destruct (p_decl_ok t x r ltac:(assumption) ltac:(assumption)) as (N & HN). exists N. intros k Hk. rewrite <- app_assoc. cbn [app]. apply HN. exact Hk.
  - exists N. intros k Hk. unfold parse_params, p_params. cbn [app]. rewrite <- app_assoc. cbn [app]. rewrite eat_hit. apply HN; exact Hk.
Qed.
Lemma method_ok ps body rest : proper_params ps = true -> match body with Some ss => forallb proper_stmt ss && forallb wf_stmt ss | None => true end = true ->
  ev (fun k => parse_method k (p_params ps ++ match body with None => [T ";"] | Some ss => p_block ss end ++ rest) = Some ((ps, body), rest)).
Proof.
  intros P B. destruct (params_ok ps (match body with None => [T ";"] | Some ss => p_block ss end ++ rest) P) as (N & HN). destruct body as [ss|].
  - props. destruct (block_ok ss rest ltac:(assumption) ltac:(assumption)) as (N1 & HN1). exists (N + N1). intros k Hk. unfold parse_method. rewrite HN by lia. change (eat ";" (p_block ss ++ rest)) with (@None (list token)). rewrite HN1 by lia. reflexivity.
  - exists N. intros k Hk. unfold parse_method. rewrite HN by lia. reflexivity.
Qed.
Lemma init_ok e rest : proper_opt e = true -> wf_opt e = true -> ev (fun k => parse_init k (match e with None => [T ";"] | Some x => [T "="] ++ p_expr x ++ [T ";"] end ++ rest) = Some (e, rest)).
Proof.
  destruct e as [e|]; cbn [proper_opt wf_opt]; intros P W.
  - destruct (expr_then_ok ";" e rest P W eq_refl) as (N & HN). exists N. intros k Hk. cbn [app]. rewrite <- app_assoc. cbn [app]. unfold parse_init. here. rewrite HN by lia. reflexivity.
  - exists 0. reflexivity.
Qed.
(* what a declaration looks like is not a constructor *)
Lemma not_ctor t x q : proper_ty t = true -> ident x = true -> forall c r1, eat_id (p_ty t ++ T x :: q) = Some (c, r1) -> next (is "(") r1 = false.
Proof.
  intros P I. assert (G : forall ts, (exists y r, ts = T y :: r /\ String.eqb y "(" = false) -> forall c r1, eat_id (p_ty t ++ ts) = Some (c, r1) -> next (is "(") r1 = false).
  { clear x q I. induction t as [n args _|n|t IH|] using ty_ind'; cbn [proper_ty] in P; props; intros ts (y & r & -> & Hy) c r1 E.
    - destruct args; cbn [p_ty app eat_id] in E; destruct (ident n); try discriminate; injection E as <- <-; [exact Hy|reflexivity].
    - cbn [p_ty app eat_id] in E; destruct (ident n); try discriminate; injection E as <- <-; reflexivity.
    - cbn [p_ty] in E. rewrite <- app_assoc in E. eapply (IH P ([T "["; T "]"] ++ T y :: r)); [|exact E]. exists "[". eexists. split; reflexivity.
    - discriminate. }
  intros c r1 E. eapply G; [|exact E]. exists x, q. split; [reflexivity|]. words. reflexivity.
Qed.
Lemma kind_not x : tname x = true -> has_word x kinds = false.
Proof. intro H. unfold has_word, kinds. cbn [existsb]. words. reflexivity. Qed.
Lemma ty_tname t rest : proper_ty t = true -> exists x r, p_ty t ++ rest = T x :: r /\ tname x = true.
Proof.
  revert rest. induction t as [n args _|n|t IH|] using ty_ind'; intros rest H; cbn [proper_ty] in H; props.
  - destruct args; cbn [p_ty app]; eauto.
  - cbn [p_ty app]; eauto.
  - cbn [p_ty]. rewrite <- app_assoc. apply IH. exact H.
  - discriminate.
Qed.

Definition member_ok (m : member) : Prop := proper_member m = true -> wf_member m = true -> forall rest, ev (fun k => parse_member k (p_member m ++ rest) = Some (m, rest)).
Definition class_ok (c : jclass) : Prop := proper_class c = true -> wf_class c = true -> forall rest, ev (fun k => parse_class k (p_class c ++ rest) = Some (c, rest)).
(* a member that declares: notes, modifiers, type parameters, type, name *)
Lemma declares notes mods tps t x q m rest :
  forallb (fun n => ident (fst n)) notes = true -> proper_mods mods = true -> proper_ty t = true -> ident x = true ->
  ev (fun k => parse_rest k notes mods (p_tps tps ++ p_ty t ++ T x :: q) = Some (m, rest)) ->
  ev (fun k => parse_member k (p_notes notes ++ map T mods ++ p_tps tps ++ p_ty t ++ T x :: q) = Some (m, rest)).
Proof.
  intros Pn Pm Pt Px (N & HN). set (r := p_tps tps ++ p_ty t ++ T x :: q) in *.
  assert (B : begins r) by (apply begins_tps, begins_ty; auto).
  destruct (notes_ok notes (map T mods ++ r) Pn) as (N1 & HN1); [apply mods_next; auto|apply mods_next; auto|].
  exists (S (N + N1)). intros [|k] Hk; [lia|]. cbn [parse_member].
  assert (S0 : next (is "static") (p_notes notes ++ map T mods ++ r) && next (is "{") (tl (p_notes notes ++ map T mods ++ r)) = false).
  { destruct notes as [|(n, o) l]; [apply not_static; auto|reflexivity]. }
  rewrite S0, HN1 by lia. rewrite mods_ok by auto.
  assert (K : kind_ahead r = false /\ forall c r1, eat_id r = Some (c, r1) -> next (is "(") r1 = false).
  { unfold r. destruct tps as [|y l].
    - cbn [p_tps app]. split; [|apply not_ctor; auto]. destruct (ty_tname t (T x :: q) Pt) as (z & r0 & -> & Hz). cbn [kind_ahead]. apply kind_not. exact Hz.
    - cbn [p_tps app]. split; [reflexivity|]. intros c r1 E. discriminate. }
  destruct K as (-> & K). destruct (eat_id r) as [(c, r1)|] eqn:E; [rewrite (K c r1 eq_refl)|]; apply HN; lia.
Qed.
Lemma member_field mods t x e : member_ok (MField mods t x e).
Proof.
  intros P W rest. cbn [proper_member wf_member] in P, W. props.
  set (q := match e with None => [T ";"] | Some y => [T "="] ++ p_expr y ++ [T ";"] end ++ rest).
  destruct (init_ok e rest ltac:(assumption) W) as (N1 & HN1). destruct (p_decl_ok t x q ltac:(assumption) ltac:(assumption)) as (N2 & HN2).
  destruct (declares [] mods [] t x q (MField mods t x e) rest) as (N & HN); auto.
  { exists (N1 + N2). intros k Hk. unfold parse_rest. cbn [p_tps app]. destruct (ty_tname t (T x :: q) ltac:(assumption)) as (z & r0 & Ez & Hz).
    assert (E : parse_tps k (p_ty t ++ T x :: q) = Some ([], p_ty t ++ T x :: q)). { unfold parse_tps. rewrite Ez. cbn [eat]. rewrite tname_is by auto. reflexivity. }
    rewrite E, HN2 by lia. replace (next (is "(") q) with false by (unfold q; destruct e; reflexivity). unfold q. rewrite HN1 by lia. reflexivity. }
  exists N. intros k Hk. rewrite <- (HN k Hk). f_equal. unfold q, p_notes. cbn [p_member flat_map p_tps app]. destruct e; rewrite <- !app_assoc; cbn [app]; rewrite <- ?app_assoc; reflexivity.
Qed.
Lemma member_method notes mods tps t m ps body : member_ok (MMethod notes mods tps t m ps body).
Proof.
  intros P W rest. cbn [proper_member wf_member] in P, W. props.
  set (q := p_params ps ++ match body with None => [T ";"] | Some ss => p_block ss end ++ rest).
  destruct (method_ok ps body rest ltac:(assumption)) as (N1 & HN1). { destruct body; auto. now rewrite W, andb_true_r. }
  destruct (p_decl_ok t m q ltac:(assumption) ltac:(assumption)) as (N2 & HN2). destruct (tps_ok tps (p_ty t ++ T m :: q) ltac:(assumption)) as (N3 & HN3). { apply ty_next_not; auto. }
  destruct (declares notes mods tps t m q (MMethod notes mods tps t m ps body) rest) as (N & HN); auto.
  { exists (N1 + N2 + N3). intros k Hk. unfold parse_rest. rewrite HN3 by lia. rewrite HN2 by lia. replace (next (is "(") q) with true by reflexivity. unfold q. rewrite HN1 by lia. reflexivity. }
  exists N. intros k Hk. rewrite <- (HN k Hk). f_equal. unfold q, p_notes. cbn [p_member]. rewrite <- !app_assoc. reflexivity.
Qed.
Lemma member_ctor mods c ps body : member_ok (MCtor mods c ps body).
Proof.
  intros P W rest. cbn [proper_member wf_member] in P, W. props. set (q := p_params ps ++ p_block body ++ rest).
  assert (B : begins (T c :: q)). { exists c, q. split; [reflexivity|]. apply plain_ident. auto. }
  destruct (params_ok ps (p_block body ++ rest) ltac:(assumption)) as (N1 & HN1). destruct (block_ok body rest ltac:(assumption) W) as (N2 & HN2).
  exists (S (S (N1 + N2))). intros [|k] Hk; [lia|]. cbn [p_member]. rewrite <- !app_assoc. cbn [app]. change (p_params ps ++ p_block body ++ rest) with q. cbn [parse_member].
  rewrite not_static by auto. destruct k as [|k]; [lia|]. rewrite notes_none by (apply mods_next; auto). rewrite mods_ok by auto.
  cbn [kind_ahead]. rewrite kind_not by (apply ident_tname; auto). cbn [eat_id]. rewrite (ltac:(assumption) : ident c = true). replace (next (is "(") q) with true by reflexivity.
  unfold q. rewrite HN1 by lia. rewrite HN2 by lia. reflexivity.
Qed.
Lemma member_static body : member_ok (MStatic body).
Proof.
  intros P W rest. cbn [proper_member wf_member] in P, W. destruct (block_ok body rest P W) as (N2 & HN2).
  exists (S N2). intros [|k] Hk; [lia|]. cbn [p_member app parse_member]. cbn [next is String.eqb Ascii.eqb Bool.eqb tl]. replace (next (is "{") (p_block body ++ rest)) with true by reflexivity. cbn [andb]. rewrite HN2 by lia. reflexivity.
Qed.
Lemma class_begins mods kind name tps supers consts ms rest : has_word kind kinds = true -> exists q, p_class (Class mods kind name tps supers consts ms) ++ rest = map T mods ++ T kind :: q /\ begins (T kind :: q).
Proof. intro H. cbn [p_class]. eexists. split; [rewrite <- !app_assoc; cbn [app]; reflexivity|]. exists kind. eexists. split; [reflexivity|]. unfold plain. now rewrite H, orb_true_r. Qed.
Lemma member_class c : class_ok c -> member_ok (MClass c).
Proof.
  intros IH P W rest. cbn [proper_member wf_member] in P, W. destruct (IH P W rest) as (N & HN). destruct c as [mods kind name tps supers consts ms]. cbn [proper_class] in P. props.
  destruct (class_begins mods kind name tps supers consts ms rest ltac:(assumption)) as (q & E & B).
  exists (S (S N)). intros [|k] Hk; [lia|]. specialize (HN k ltac:(lia)). cbn [p_member]. rewrite E in *. cbn [parse_member]. rewrite not_static by auto. destruct k as [|k]; [lia|]. rewrite notes_none by (apply mods_next; auto). rewrite mods_ok by auto.
  cbn [kind_ahead]. rewrite (ltac:(assumption) : has_word kind kinds = true). rewrite HN. reflexivity.
Qed.
Lemma p_member_first m rest : proper_member m = true -> eat "}" (p_member m ++ rest) = None.
Proof.
  intro P. apply not_next. destruct m as [mods t x e|notes mods tps t m ps body|mods c ps body|body|[mods kind name tps supers consts ms]]; cbn [proper_member proper_class] in P; props.
  - destruct e; cbn [p_member]; rewrite <- !app_assoc; apply mods_next; auto; apply begins_ty; auto.
  - cbn [p_member]. rewrite <- !app_assoc. destruct notes as [|(n, o) l]; [|reflexivity]. apply mods_next; auto. apply begins_tps, begins_ty; auto.
  - cbn [p_member]. rewrite <- !app_assoc. apply mods_next; auto. exists c. eexists. split; [reflexivity|]. apply plain_ident. auto.
  - reflexivity.
  - cbn [p_member]. destruct (class_begins mods kind name tps supers consts ms rest ltac:(assumption)) as (q & -> & B). apply mods_next; auto.
Qed.
Lemma members_ok ms : Forall member_ok ms -> forallb proper_member ms = true -> forallb wf_member ms = true -> forall rest, ev (fun k => parse_members k (flat_map p_member ms ++ T "}" :: rest) = Some (ms, rest)).
Proof.
  induction ms as [|m l IH]; intros F P W rest.
  - exists 1. intros [|k] Hk; [lia|]. reflexivity.
  - apply Forall_cons_iff in F. destruct F as (Fm & Fl). cbn [forallb] in P, W. props. destruct (IH Fl ltac:(assumption) ltac:(assumption) rest) as (N1 & HN1).
    destruct (Fm ltac:(assumption) ltac:(assumption) (flat_map p_member l ++ T "}" :: rest)) as (N2 & HN2).
    exists (S (N1 + N2)). intros [|k] Hk; [lia|]. cbn [flat_map parse_members]. rewrite <- app_assoc. rewrite p_member_first by auto. rewrite HN2 by lia. rewrite HN1 by lia. reflexivity.
Qed.
Lemma supers_ok supers rest : forallb proper_ty supers = true ->
  ev (fun k => parse_supers k (match supers with [] => [] | _ => [T "implements"] ++ sep [T ","] (map p_ty supers) end ++ T "{" :: rest) = Some (supers, T "{" :: rest)).
Proof.
  intro P. destruct supers as [|t l]; [exists 0; reflexivity|].
  destruct (several_ok parse_ty p_ty (fun r => next (is ",") r = true \/ next (is "{") r = true) (fun r => or_introl eq_refl) (t :: l) ltac:(congruence)) with (rest := T "{" :: rest) as (N & HN); auto.
  { intros x I r Fr. rewrite forallb_forall in P. apply type_ok; auto; destruct Fr as [H|H]; apply next_is in H; destruct H as (q & ->); reflexivity. }
  exists N. intros k Hk. unfold parse_supers. rewrite <- app_assoc. cbn [app]. rewrite eat_hit. apply HN; exact Hk.
Qed.
Definition p_const (k : string * list expr) : list token := T (fst k) :: match snd k with [] => [] | args => [T "("] ++ sep [T ","] (map p_expr args) ++ [T ")"] end.
Lemma const_ok k rest : ident (fst k) = true -> forallb proper_expr (snd k) = true -> forallb wf_expr (snd k) = true -> next (is "(") rest = false -> ev (fun j => parse_const j (p_const k ++ rest) = Some (k, rest)).
Proof.
  intros P A W R. destruct k as (x, args). cbn [fst snd] in *. unfold p_const, parse_const. cbn [fst snd app eat_id]. rewrite P. destruct args as [|a l].
  - exists 0. intros j _. cbn [app]. rewrite (not_next _ _ R). reflexivity.
  - destruct (args_ok (a :: l)) with (rest := rest) as (N & HN).
    { intros y I. rewrite !forallb_forall in *. split; auto. apply (expr_parsed y); auto. }
    exists N. intros j Hj. cbn [app]. rewrite <- ?app_assoc. cbn [app]. rewrite eat_hit. rewrite HN by lia. reflexivity.
Qed.
Lemma consts_ok kind consts rest : (String.eqb kind "enum" || match consts with [] => true | _ => false end) = true ->
  forallb (fun k => ident (fst k) && forallb proper_expr (snd k)) consts = true -> forallb (fun k => forallb wf_expr (snd k)) consts = true ->
  ev (fun k => parse_consts k kind ((if String.eqb kind "enum" then sep [T ","] (map p_const consts) ++ [T ";"] else []) ++ rest) = Some (consts, rest)).
Proof.
  intros E P W. unfold parse_consts. destruct (String.eqb kind "enum").
  - destruct consts as [|c l]; [exists 0; reflexivity|].
    destruct (several_ok parse_const p_const (fun r => next (is ",") r = true \/ next (is ";") r = true) (fun r => or_introl eq_refl) (c :: l) ltac:(congruence)) with (rest := T ";" :: rest) as (N & HN); auto.
    { intros x I r Fr. rewrite forallb_forall in P, W. specialize (P x I). specialize (W x I). props. apply const_ok; auto. destruct Fr as [H1|H1]; apply next_is in H1; destruct H1 as (q & ->); reflexivity. }
    exists N. intros k Hk. rewrite <- app_assoc. cbn [app].
    assert (Es : eat ";" (sep [T ","] (map p_const (c :: l)) ++ T ";" :: rest) = None).
    { cbn [map]. destruct (sep_app_first [T ","] (p_const c) (map p_const l) (T ";" :: rest)) as (r & ->). cbn [forallb] in P. props. unfold p_const. cbn [app eat is]. words. reflexivity. }
    rewrite Es, HN by lia. rewrite eat_hit. reflexivity.
  - destruct consts; [|discriminate]. exists 0. reflexivity.
Qed.
Lemma class_parsed mods kind name tps supers consts ms : Forall member_ok ms -> class_ok (Class mods kind name tps supers consts ms).
Proof.
  intros F P W rest. cbn [proper_class wf_class] in P, W. props.
  destruct (members_ok ms F ltac:(assumption) ltac:(assumption) rest) as (N1 & K1). set (q1 := flat_map p_member ms ++ T "}" :: rest) in *.
  destruct (consts_ok kind consts q1 ltac:(assumption) ltac:(assumption) ltac:(assumption)) as (N2 & K2). set (q2 := (if String.eqb kind "enum" then sep [T ","] (map p_const consts) ++ [T ";"] else []) ++ q1) in *.
  destruct (supers_ok supers q2 ltac:(assumption)) as (N3 & K3). set (q3 := match supers with [] => [] | _ => [T "implements"] ++ sep [T ","] (map p_ty supers) end ++ T "{" :: q2) in *.
  destruct (tps_ok tps q3 ltac:(assumption)) as (N4 & K4). { unfold q3. destruct supers; reflexivity. }
  exists (S (N1 + N2 + N3 + N4)). intros [|k] Hk; [lia|].
  assert (E : p_class (Class mods kind name tps supers consts ms) ++ rest = map T mods ++ T kind :: T name :: p_tps tps ++ q3).
  { unfold q3, q2, q1. cbn [p_class]. fold p_const. rewrite <- !app_assoc. cbn [app]. rewrite <- ?app_assoc. reflexivity. }
  rewrite E. cbn [parse_class]. rewrite mods_ok; auto. 2: { exists kind. eexists. split; [reflexivity|]. unfold plain. rewrite (ltac:(assumption) : has_word kind kinds = true). now rewrite orb_true_r. }
  rewrite (ltac:(assumption) : has_word kind kinds = true). cbn [eat_id]. rewrite (ltac:(assumption) : ident name = true). rewrite K4 by lia. rewrite K3 by lia. rewrite eat_hit. rewrite K2 by lia. rewrite K1 by lia. reflexivity.
Qed.
Lemma all_classes_ok : forall c, class_ok c.
Proof.
  apply (class_all member_ok class_ok).
  - apply member_field. - apply member_method. - apply member_ctor. - apply member_static. - apply member_class. - apply class_parsed.
Qed.

(* ---------- files ---------- *)
Lemma path_ok l rest : l <> [] -> forallb ident l = true -> ev (fun k => parse_path k (p_path l ++ T ";" :: rest) = Some (l, rest)).
Proof.
  induction l as [|x l IH]; intros NE P; [congruence|]. cbn [forallb] in P. props. destruct l as [|y l].
  - exists 1. intros [|k] Hk; [lia|]. cbn [p_path map sep app parse_path eat_id]. rewrite H. reflexivity.
  - destruct IH as (N & HN); [congruence|auto|]. exists (S N). intros [|k] Hk; [lia|]. change (p_path (x :: y :: l)) with (T x :: T "." :: p_path (y :: l)). cbn [app parse_path eat_id]. rewrite H, eat_hit. rewrite HN by lia. reflexivity.
Qed.
Lemma imports_ok is rest : forallb (fun i => match i with [] => false | p => forallb ident p end) is = true -> eat "import" rest = None ->
  ev (fun k => parse_imports k (flat_map (fun i => [T "import"] ++ p_path i ++ [T ";"]) is ++ rest) = Some (is, rest)).
Proof.
  intros P R. induction is as [|i l IH].
  - exists 1. intros [|k] Hk; [lia|]. cbn [flat_map app parse_imports]. rewrite R. reflexivity.
  - cbn [forallb] in P. props. destruct IH as (N & HN); auto. destruct (path_ok i (flat_map (fun i => [T "import"] ++ p_path i ++ [T ";"]) l ++ rest)) as (N1 & HN1); [destruct i; congruence|destruct i; auto|].
    exists (S (N + N1)). intros [|k] Hk; [lia|]. cbn [flat_map]. rewrite <- !app_assoc. cbn [app parse_imports]. rewrite eat_hit. rewrite HN1 by lia. rewrite HN by lia. reflexivity.
Qed.
Theorem file_parsed f : proper f = true -> ev (fun k => parse_file k (p_file f) = Some f).
Proof.
  intro P. unfold proper in P. props. destruct f as [pkg imps c]. cbn [f_package f_imports f_class] in *.
  destruct (all_classes_ok c ltac:(assumption) ltac:(assumption) []) as (N1 & K1). rewrite app_nil_r in K1.
  destruct (imports_ok imps (p_class c) ltac:(assumption)) as (N2 & K2).
  { destruct c as [mods kind name tps supers consts ms]. cbn [proper_class] in *. props. rewrite <- (app_nil_r (p_class _)). destruct (class_begins mods kind name tps supers consts ms [] ltac:(assumption)) as (q & -> & B). apply not_next, mods_next; auto. }
  destruct (path_ok pkg (flat_map (fun i => [T "import"] ++ p_path i ++ [T ";"]) imps ++ p_class c)) as (N3 & K3); [destruct pkg; congruence|destruct pkg; auto; discriminate|].
  exists (N1 + N2 + N3). intros k Hk. unfold parse_file, p_file. cbn [f_package f_imports f_class app]. rewrite eat_hit. rewrite K3 by lia. rewrite K2 by lia. rewrite K1 by lia. reflexivity.
Qed.
Theorem one_tree f g : proper f = true -> proper g = true -> p_file f = p_file g -> f = g.
Proof.
  intros Pf Pg E. destruct (file_parsed f Pf) as (N & HN). destruct (file_parsed g Pg) as (M & HM). specialize (HN (N + M) ltac:(lia)). specialize (HM (N + M) ltac:(lia)). rewrite E in HN. congruence.
Qed.
