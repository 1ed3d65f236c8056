(* Larger bounds change nothing: where the interpreter of Java/Sem.v answers, it answers the same with more loop iterations and calls allowed,
   and, unless the stack overflowed, with more frames. *)
From Coq Require Import ZArith List Bool String Lia.
From Verif.Model Require Import JavaPrim ByteBuf Ast Show Heap.
From Verif.Java Require Import Lex Syntax Sem.
From Verif.Proofs Require Import ParseFacts.
Import ListNotations.
Open Scope list_scope.

(* [w]: a stack overflow may become something else *)
Definition below (w : bool) {A} (r r' : res A) : Prop := r = Bad \/ (w = true /\ exists s, r = Exc SOE s) \/ r = r'.
Lemma below_refl w {A} (r : res A) : below w r r. Proof. right. right. reflexivity. Qed.
Lemma below_bad w {A} (r : res A) : below w Bad r. Proof. left. reflexivity. Qed.
Lemma below_soe {A} s (r : res A) : below true (Exc SOE s) r. Proof. right. left. eauto. Qed.
Lemma below_bind w {A B} (r r' : res A) (f f' : A -> st -> res B) :
  below w r r' -> (forall a s, below w (f a s) (f' a s)) -> below w (bind r f) (bind r' f').
Proof.
  intros [-> |[(W & s & ->)| ->]] F.
  - apply below_bad.
  - subst. cbn. apply below_soe.
  - destruct r' as [a s|e s|]; cbn; [apply F|apply below_refl|apply below_bad].
Qed.
Lemma below_num w {A} v s (f f' : ty -> Z -> res A) : (forall t z, below w (f t z) (f' t z)) -> below w (num v s f) (num v s f').
Proof. intros F. unfold num. destruct v as [t [| | | |]| | | | | | | | | | | | |]; try apply below_refl; apply F. Qed.
Lemma below_conv w {A} t v s (f f' : jval -> res A) : (forall x, below w (f x) (f' x)) -> below w (conv t v s f) (conv t v s f').
Proof. intros F. unfold conv. destruct v as [u [| | | |]| | | | | | | | | | | | |]; try apply F. destruct (is_prim t); [apply below_refl|apply F]. Qed.
Lemma below_scoped w s r r' : below w r r' -> below w (scoped s r) (scoped s r').
Proof. intros [-> |[(W & s' & ->)| ->]]; [apply below_bad|subst; apply below_soe|apply below_refl]. Qed.

Ltac mono :=
  repeat (intros; cbv beta zeta;
    match goal with
    | |- below _ ?x ?x => apply below_refl
    | |- below _ Bad _ => apply below_bad
    | H : context [below] |- _ => solve [apply H]
    | |- below _ (bind _ _) (bind _ _) => apply below_bind
    | |- below _ (num _ _ _) (num _ _ _) => apply below_num
    | |- below _ (conv _ _ _ _) (conv _ _ _ _) => apply below_conv
    | |- below _ (scoped _ _) (scoped _ _) => apply below_scoped
    | |- below _ (match ?x with _ => _ end) (match ?x with _ => _ end) => destruct x
    end).

Section Mono.
  Variable w : bool.
  Variable P : program.
  Variable pr : printers.
  Variable v1 v2 : string -> nat -> list jval -> st -> res jval.
  Hypothesis V : forall m l args s, below w (v1 m l args s) (v2 m l args s).

  Lemma mono_eq_item t a b s : below w (jeq_item v1 t a b s) (jeq_item v2 t a b s).
  Proof. unfold jeq_item. mono. Qed.
  Lemma mono_eq_items t : forall x y s, below w (jeq_items v1 t x y s) (jeq_items v2 t x y s).
  Proof.
    induction x as [|u x IH]; intros [|v y] s; cbn [jeq_items]; mono.
    destruct (mono_eq_item t u v s) as [-> |[(W & s' & ->)| ->]]; [apply below_bad|subst; apply below_soe|].
    destruct (jeq_item v2 t u v s) as [[| [|] | | | | | | | | | | | |]| |]; mono.
  Qed.
  Lemma mono_eq t a b s : below w (jeq v1 t a b s) (jeq v2 t a b s).
  Proof. pose proof mono_eq_item. pose proof mono_eq_items. unfold jeq. mono. Qed.
  Lemma mono_hash_item t a s : below w (jhash_item v1 t a s) (jhash_item v2 t a s).
  Proof. unfold jhash_item. mono. Qed.
  Lemma mono_hash_items t : forall l z s, below w (jhash_items v1 t l z s) (jhash_items v2 t l z s).
  Proof. pose proof mono_hash_item. induction l as [|x l IH]; intros; cbn [jhash_items]; mono. Qed.
  Lemma mono_hash t a s : below w (jhash v1 t a s) (jhash v2 t a s).
  Proof. pose proof mono_hash_item. pose proof mono_hash_items. unfold jhash. mono. Qed.
  Lemma mono_hash_args : forall args z s, below w (jhash_args v1 args z s) (jhash_args v2 args z s).
  Proof. pose proof mono_hash. induction args as [|x l IH]; intros; cbn [jhash_args]; mono. Qed.
  Lemma mono_show_item t a s : below w (jshow_item pr v1 t a s) (jshow_item pr v2 t a s).
  Proof. unfold jshow_item. mono. Qed.
  Lemma mono_show_items t : forall l s, below w (jshow_items pr v1 t l s) (jshow_items pr v2 t l s).
  Proof.
    pose proof mono_show_item. induction l as [|x l IH]; intros; [apply below_refl|]. destruct l as [|y l]; [cbn [jshow_items]; mono|].
    change (jshow_items pr v1 t (x :: y :: l) s) with (do a s' <- jshow_item pr v1 t x s; do b s'' <- jshow_items pr v1 t (y :: l) s'; Ret (a ++ chars ", " ++ b) s'').
    change (jshow_items pr v2 t (x :: y :: l) s) with (do a s' <- jshow_item pr v2 t x s; do b s'' <- jshow_items pr v2 t (y :: l) s'; Ret (a ++ chars ", " ++ b) s''). mono.
  Qed.
  Lemma mono_show v s : below w (jshow pr v1 v s) (jshow pr v2 v s).
  Proof. pose proof mono_show_item. pose proof mono_show_items. unfold jshow. mono. Qed.
  Lemma mono_lib c m args s : below w (lib_call v1 c m args s) (lib_call v2 c m args s).
  Proof. pose proof mono_eq. pose proof mono_hash_args. unfold lib_call. mono. Qed.

  Section Body.
    Variable c1 c2 : option nat -> string -> string -> list jval -> st -> res jval.
    Hypothesis C : forall t c m args s, below w (c1 t c m args s) (c2 t c m args s).
    Variable k1 k2 : nat.
    Hypothesis K : (k1 <= k2)%nat.

    Lemma mono_dispatch x0 x v m args s : below w (dispatch P v1 c1 x0 x v m args s) (dispatch P v2 c2 x0 x v m args s).
    Proof. pose proof mono_lib. unfold dispatch. mono. Qed.
    Lemma mono_binary o a b s : below w (binary pr v1 o a b s) (binary pr v2 o a b s).
    Proof. pose proof mono_show. unfold binary. destruct o; mono. Qed.
    Notation ev1 := (eval P pr v1 c1). Notation ev2 := (eval P pr v2 c2).
    Lemma mono_args x0 : forall l, Forall (fun e => forall s, below w (ev1 x0 e s) (ev2 x0 e s)) l -> forall s, below w (eval_args P pr v1 c1 x0 l s) (eval_args P pr v2 c2 x0 l s).
    Proof. induction 1 as [|e l He _ IH]; intros s; cbn [eval_args]; [apply below_refl|]. apply below_bind; [apply He|]. intros a s'. apply below_bind; [apply IH|]. mono. Qed.
    Lemma eval_args_eq vc ca x0 l s :
      (fix go (l : list expr) (s : st) : res (list jval) :=
        match l with [] => Ret [] s | a :: r => do v s' <- eval P pr vc ca x0 a s; do vs s'' <- go r s'; Ret (v :: vs) s'' end) l s = eval_args P pr vc ca x0 l s.
    Proof. reflexivity. Qed.
    Lemma mono_eval' x0 : forall e, (forall s, below w (ev1 x0 e s) (ev2 x0 e s)) /\ forall a i, e = EIndex a i -> forall s, below w (ev1 x0 i s) (ev2 x0 i s).
    Proof.
      pose proof mono_dispatch as D. pose proof mono_binary as Bi.
      assert (FA : forall l, Forall (fun e => (forall s, below w (ev1 x0 e s) (ev2 x0 e s)) /\ forall a i, e = EIndex a i -> forall s, below w (ev1 x0 i s) (ev2 x0 i s)) l ->
        forall s, below w (eval_args P pr v1 c1 x0 l s) (eval_args P pr v2 c2 x0 l s)).
      { intros l F. apply mono_args. eapply Forall_impl; [|exact F]. intros e [H _]. exact H. }
      induction e using expr_ind'; (split; [intro; cbn [eval]; rewrite ?eval_args_eq|intros a0 i0 E; try discriminate E]);
        repeat match goal with H : _ /\ _ |- _ => destruct H end; try solve [mono].
      - apply below_bind; [auto|]. intros v s'. apply below_bind; [apply FA; auto|]. mono.
      - apply below_bind; [apply FA; auto|]. mono.
      - apply below_bind; [apply FA; auto|]. mono.
      - injection E as <- <-. auto.
      - destruct o as [|o].
        + destruct e1 as [ | | | | | | | |e1 x| | | | |a i| | | | | | | | | |]; try solve [mono].
          destruct a; try apply below_bad. apply below_bind; [eauto|]. mono.
        + destruct e1; mono.
    Qed.
    Lemma mono_eval x0 e s : below w (ev1 x0 e s) (ev2 x0 e s). Proof. apply mono_eval'. Qed.

    Lemma mono_loop (f1 f2 : st -> res jval) (b1 b2 : st -> res (option jval)) (u1 u2 : st -> res jval) :
      (forall s, below w (f1 s) (f2 s)) -> (forall s, below w (b1 s) (b2 s)) -> (forall s, below w (u1 s) (u2 s)) ->
      forall n m s, (n <= m)%nat -> below w (loop n f1 b1 u1 s) (loop m f2 b2 u2 s).
    Proof.
      intros Hf Hb Hu. induction n as [|n IH]; intros m s L; [apply below_bad|]. destruct m as [|m]; [lia|]. cbn [loop]. apply le_S_n in L.
      assert (IH' : forall s, below w (loop n f1 b1 u1 s) (loop m f2 b2 u2 s)) by (intros; apply IH; exact L). clear IH. mono.
    Qed.
    Lemma mono_each (b1 b2 : jval -> st -> res (option jval)) : (forall v s, below w (b1 v s) (b2 v s)) -> forall vs s, below w (each b1 vs s) (each b2 vs s).
    Proof. intros Hb. induction vs as [|v vs IH]; intros s; cbn [each]; mono. Qed.
    Lemma mono_exec x0 : forall c s, below w (exec P pr v1 c1 k1 x0 c s) (exec P pr v2 c2 k2 x0 c s).
    Proof.
      pose proof mono_eval as Ev. pose proof mono_loop as L. pose proof mono_each as Ea.
      induction c as [t x e|e|e a r IHa IHr|t x i c u a IHa|t x e a IHa|c a IHa|a c IHa|e|e|ss IHs] using stmt_ind'; intros s; cbn [exec].
      - destruct e; mono.
      - mono.
      - apply below_bind; [apply Ev|]. intros v s'. destruct v as [| [|] | | | | | | | | | | | |]; try apply below_bad; [apply below_scoped, IHa|].
        destruct r as [d|]; [|apply below_refl]. apply below_scoped, IHr. reflexivity.
      - apply below_scoped. apply below_bind; [apply Ev|]. intros v s'. apply below_bind; [apply below_refl|]. intros v' s''. apply L; [apply Ev|mono|apply Ev|exact K].
      - apply below_bind; [apply Ev|]. intros v s'. destruct v; try apply below_bad. apply Ea. mono.
      - apply below_scoped. apply L; [apply Ev|mono|mono|exact K].
      - apply below_scoped. apply below_bind; [mono|]. intros r s'. destruct r; [apply below_refl|]. apply L; [apply Ev|mono|mono|exact K].
      - destruct e; mono.
      - destruct e; try apply below_bad. destruct t; try apply below_bad. destruct args0; try apply below_bad. mono.
      - apply below_scoped. revert s. induction IHs as [|c l Hc _ IH]; intros s; [apply below_refl|]. apply below_bind; [apply Hc|]. intros [v|] s'; [apply below_refl|apply IH].
    Qed.
    Lemma mono_exec_all x0 : forall l s, below w (exec_all P pr v1 c1 k1 x0 l s) (exec_all P pr v2 c2 k2 x0 l s).
    Proof. pose proof mono_exec. induction l as [|c l IH]; intros s; cbn [exec_all]; [apply below_refl|]. apply below_bind; [apply mono_exec|]. intros [v|] s'; [apply below_refl|apply IH]. Qed.
  End Body.

  Lemma mono_run : forall k1 k2, (k1 <= k2)%nat -> forall this c m args s, below w (run P pr v1 k1 this c m args s) (run P pr v2 k2 this c m args s).
  Proof.
    induction k1 as [|k1 IH]; intros k2 L this c m args s; [apply below_bad|]. destruct k2 as [|k2]; [lia|]. apply le_S_n in L. cbn [run].
    destruct (find_method P c m (List.length args)) as [[ps body]|]; [|apply below_bad]. apply below_bind; [apply below_refl|]. intros ls s1.
    destruct (mono_exec_all (run P pr v1 k1) (run P pr v2 k2) (IH k2 L) k1 k2 L {| x_this := this; x_class := c |} body (set_loc s1 ls)) as [-> |[(W & s' & ->)| ->]].
    - apply below_bad.
    - subst. apply below_soe.
    - apply below_refl.
  Qed.
End Mono.

(* more iterations and calls *)
Lemma mono_vcalls P pr k1 k2 : (k1 <= k2)%nat -> forall d m l args s, below false (vcalls P pr k1 d m l args s) (vcalls P pr k2 d m l args s).
Proof.
  intros L. induction d as [|d IH]; intros m l args s; cbn [vcalls]; [apply below_refl|]. destruct (nth_error (s_h s) l) as [[|]|]; try apply below_bad. apply mono_run; auto.
Qed.
(* more frames *)
Lemma mono_frames P pr k1 k2 : (k1 <= k2)%nat -> forall d1 d2, (d1 <= d2)%nat -> forall m l args s, below true (vcalls P pr k1 d1 m l args s) (vcalls P pr k2 d2 m l args s).
Proof.
  intros L. induction d1 as [|d1 IH]; intros d2 D m l args s; cbn [vcalls]; [apply below_soe|]. destruct d2 as [|d2]; [lia|]. apply le_S_n in D. cbn [vcalls].
  destruct (nth_error (s_h s) l) as [[|]|]; try apply below_bad. apply mono_run; auto.
Qed.
Lemma mono_static P pr k1 k2 : (k1 <= k2)%nat -> forall d this c m args s, below false (run P pr (vcalls P pr k1 d) k1 this c m args s) (run P pr (vcalls P pr k2 d) k2 this c m args s).
Proof. intros L d this c m args s. apply mono_run; auto. apply mono_vcalls, L. Qed.
Lemma mono_static_frames P pr k1 k2 d1 d2 : (k1 <= k2)%nat -> (d1 <= d2)%nat -> forall this c m args s,
  below true (run P pr (vcalls P pr k1 d1) k1 this c m args s) (run P pr (vcalls P pr k2 d2) k2 this c m args s).
Proof. intros L D this c m args s. apply mono_run; auto. apply mono_frames; auto. Qed.
