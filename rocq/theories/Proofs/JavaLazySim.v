(* Running the library's text with classes initialised when they are first used, beside running it with all classes initialised at the start. *)
From Coq Require Import ZArith List Bool String Ascii Lia.
From Verif.Model Require Import JavaPrim ByteBuf Ast Interp Show Heap Library.
From Verif.Java Require Import Lex Syntax Source Sources Sem CodecTrees Init Lazy Program.
From Verif.Spec Require Import JavaState JavaRun JavaWorld JavaLazy.
From Verif.Proofs Require Import RegistryFacts ParseFacts JavaSem JavaClasses JavaNames JavaStart JavaLazyInit JavaLazy.
Import ListNotations.
Open Scope Z_scope.
Open Scope list_scope.

Notation P := lib_program.

(* ---------- static fields ---------- *)
Definition writable (x : string) : Prop := forall q, owner P x = Some q -> ~ In q final_classes.
Lemma dotless_dot c y : dotless (c ++ "." ++ y)%string = false.
Proof. induction c as [|a c IH]; cbn; [reflexivity|]. cbn in IH. rewrite IH. apply andb_false_r. Qed.
Lemma marks_dotless : forallb dotless (marks P) = true. Proof. vm_compute. reflexivity. Qed.
Lemma spine_split : spine = marks P ++ stat_keys P. Proof. unfold spine, all_untouched. rewrite map_app, !map_map. cbn [fst]. now rewrite !map_id. Qed.
Lemma dotted_spine c y : In (c ++ "." ++ y)%string spine -> In (c ++ "." ++ y)%string (stat_keys P).
Proof.
  rewrite spine_split. intros I. apply in_app_or in I. destruct I as [I|I]; [|exact I]. apply (check _ _ _ marks_dotless) in I. rewrite dotless_dot in I. congruence.
Qed.
Lemma put_none {A} x (v : A) l : assoc x l = None -> put_assoc x v l = l.
Proof. induction l as [|[k a] l IH]; cbn; [reflexivity|]. destruct (String.eqb x k); [discriminate|]. intros H. now rewrite (IH H). Qed.
(* the library's code assigns none of the final fields *)
Lemma parent_from_dotless : forall y acc cur, dotless y = true -> parent_from y acc cur = acc.
Proof. induction y as [|a y IH]; intros acc cur D; [reflexivity|]. cbn in D. apply andb_true_iff in D. destruct D as [D1 D2]. cbn [parent_from]. apply negb_true_iff in D1. rewrite D1. apply IH, D2. Qed.
Lemma parent_from_dot : forall c y acc cur, dotless y = true -> parent_from (c ++ String "." y) acc cur = (cur ++ c)%string.
Proof.
  induction c as [|a c IH]; intros y acc cur D.
  - cbn [append parent_from]. change (Ascii.eqb "." ".") with true. cbv iota. rewrite parent_from_dotless by exact D. induction cur as [|b cur IHc]; cbn; congruence.
  - cbn [append parent_from]. destruct (Ascii.eqb a "."); rewrite IH by exact D; rewrite append_assoc; reflexivity.
Qed.
Lemma parent_dot c y : dotless y = true -> parent (c ++ "." ++ y)%string = c. Proof. intros D. exact (parent_from_dot c y "" "" D). Qed.
Definition has_method (c : string) : Prop := exists m n r, find_method P c m n = Some r.
Definition no_methods (d : jclass) : bool := forallb (fun m => match m with MMethod _ _ _ _ _ _ (Some _) => false | _ => true end) (members d) && match supers d with [] => true | _ => false end.
Lemma finals_checked : forallb (fun x => match owner P x with Some q => negb (is_in q final_classes) || match assoc (parent x) P with Some d => no_methods d | None => true end | None => true end) (stat_keys P) = true. Proof. vm_compute. reflexivity. Qed.
Lemma no_method c d : assoc c P = Some d -> no_methods d = true -> ~ has_method c.
Proof.
  intros A N (m & n & r & F). unfold find_method in F. rewrite A in F. unfold no_methods in N. apply andb_true_iff in N. destruct N as [N S]. destruct (supers d); [|discriminate S]. cbn [inherited] in F.
  assert (Q : method_in (members d) m n = None); [|rewrite Q in F; discriminate F]. unfold method_in. destruct (find _ (members d)) as [x|] eqn:X; [|reflexivity]. apply find_some in X. destruct X as [I E].
  apply (check _ _ _ N) in I. destruct x as [|? ? ? ? ? ? b| | |]; try reflexivity; destruct b; [discriminate I|reflexivity].
Qed.
Lemma can_write c y : has_method c -> dotless y = true -> writable (c ++ "." ++ y)%string.
Proof.
  intros H D q O F. pose proof (check _ _ _ finals_checked (owner_key _ _ O)) as K. cbv beta in K. rewrite O, (parent_dot c y D) in K. apply is_in_iff in F. rewrite F in K. cbn [negb orb] in K.
  destruct (assoc c P) as [d|] eqn:A; [exact (no_method c d A K H)|]. destruct H as (m & n & r & E). unfold find_method in E. rewrite A in E. discriminate E.
Qed.

(* ---------- results ---------- *)
Section Lag.
Variable first : list (string * jval).
Notation beh := (behind first).
Notation lag := (same_end first).
Lemma put_behind c y v stat ls : let x := (c ++ "." ++ y)%string in beh stat ls -> writable x -> (forall q, owner P x = Some q -> ~ untouched q ls) -> beh (put_assoc x v stat) (put_assoc x v ls).
Proof.
  intros x B W U. destruct (owner P x) as [o|] eqn:O.
  2: { assert (N : ~ In x (stat_keys P)) by (intros I; destruct (key_owner x I) as (q & Q); congruence). rewrite !put_none; [exact B| |]; apply assoc_not_in.
       - rewrite (bh_spine _ _ _ B). intros I. apply N, dotted_spine, I.
       - rewrite (bh_keys _ _ _ B). exact N. }
  assert (MK : forall q, In q (map fst P) -> assoc (mark q) (put_assoc x v ls) = assoc (mark q) ls).
  { intros q I. rewrite assoc_put. destruct (String.eqb_spec (mark q) x) as [E|]; [|reflexivity]. exfalso. exact (key_no_mark x q (owner_key _ _ O) I (eq_sym E)). }
  assert (OI : forall z q, owner P z = Some q -> untouched q (put_assoc x v ls) -> untouched q ls).
  { intros z q Oz. unfold untouched. destruct (owner_inv _ _ Oz) as (c' & A & _). rewrite (MK q (in_names _ _ A)). auto. }
  split.
  - rewrite put_fst. exact (bh_keys _ _ _ B).
  - rewrite put_fst. exact (bh_spine _ _ _ B).
  - intros q c' A F. unfold untouched. rewrite (MK q (in_names _ _ A)). exact (bh_marks _ _ _ B q c' A F).
  - intros z q Oz Uz. pose proof (OI z q Oz Uz) as Uz'. rewrite assoc_put. destruct (String.eqb_spec z x) as [->|]; [|exact (bh_yet _ _ _ B z q Oz Uz')]. exfalso. assert (q = o) by congruence. subst q. exact (U o eq_refl Uz').
  - intros z q Oz Uz. assert (Uz' : ~ untouched q ls). { intros Z. apply Uz. unfold untouched. destruct (owner_inv _ _ Oz) as (c' & A & _). rewrite (MK q (in_names _ _ A)). exact Z. }
    rewrite !assoc_put, (bh_same _ _ _ B z q Oz Uz'). reflexivity.
  - intros z q Oz Fz. rewrite assoc_put. destruct (String.eqb_spec z x) as [->|]; [|exact (bh_final _ _ _ B z q Oz Fz)]. exfalso. exact (W q Oz Fz).
Qed.

Lemma lag_bind {A B} (r r' : res A) (f f' : A -> st -> res B) : lag r r' -> (forall a s ls, beh (s_stat s) ls -> lag (f a s) (f' a (set_stat s ls))) -> lag (bind r f) (bind r' f').
Proof. intros H F. destruct r as [a s|e s|]; cbn in H; [destruct H as (ls & -> & H); exact (F a s ls H)|destruct H as (ls & -> & H); exists ls; auto|exact I]. Qed.
Lemma lag_num {A} v s ls (f f' : ty -> Z -> res A) : beh (s_stat s) ls -> (forall t z, lag (f t z) (f' t z)) -> lag (num v s f) (num v (set_stat s ls) f').
Proof. intros B F. unfold num. destruct v as [t [| | | |]| | | | | | | | | | | | |]; try exact I; [exists ls; auto|apply F]. Qed.
Lemma lag_conv {A} t v s ls (f f' : jval -> res A) : beh (s_stat s) ls -> (forall x, lag (f x) (f' x)) -> lag (conv t v s f) (conv t v (set_stat s ls) f').
Proof. intros B F. unfold conv. destruct v as [u [| | | |]| | | | | | | | | | | | |]; try apply F. destruct (is_prim t); [exists ls; auto|apply F]. Qed.
Lemma lag_scoped s ls r r' : lag r r' -> lag (scoped s r) (scoped (set_stat s ls) r').
Proof. intros H. destruct r as [a t|e t|]; cbn in H; [| |exact I]; destruct H as (l' & -> & H); exists l'; split; auto. Qed.

Ltac norm := repeat match goal with
  | |- context [s_h (set_stat ?s ?l)] => change (s_h (set_stat s l)) with (s_h s)
  | |- context [s_b (set_stat ?s ?l)] => change (s_b (set_stat s l)) with (s_b s)
  | |- context [s_loc (set_stat ?s ?l)] => change (s_loc (set_stat s l)) with (s_loc s)
  | |- context [s_stat (set_stat ?s ?l)] => change (s_stat (set_stat s l)) with l
  | |- context [set_h (set_stat ?s ?l) ?x] => change (set_h (set_stat s l) x) with (set_stat (set_h s x) l)
  | |- context [set_b (set_stat ?s ?l) ?x] => change (set_b (set_stat s l) x) with (set_stat (set_b s x) l)
  | |- context [set_loc (set_stat ?s ?l) ?x] => change (set_loc (set_stat s l) x) with (set_stat (set_loc s x) l)
  end.
Ltac fin := match goal with
  | |- lag Bad _ => exact I
  | B : behind _ _ ?ls |- lag (Ret _ _) (Ret _ _) => solve [exists ls; split; [reflexivity|exact B]]
  | B : behind _ _ ?ls |- lag (Exc _ _) (Exc _ _) => solve [exists ls; split; [reflexivity|exact B]]
  | B : behind _ ?x ?ls |- behind _ ?y ?ls => exact B
  end.
Ltac go := repeat (intros; cbv beta zeta; norm;
    match goal with
    | |- _ => fin
    | H : context [same_end] |- _ => solve [apply H; first [fin|assumption]]
    | |- lag (bind _ _) (bind _ _) => apply lag_bind
    | |- lag (num _ _ _) (num _ _ _) => apply lag_num; [fin|]
    | |- lag (conv _ _ _ _) (conv _ _ _ _) => apply lag_conv; [fin|]
    | |- lag (scoped _ _) (scoped _ _) => apply lag_scoped
    | |- lag (match ?x with _ => _ end) (match ?x with _ => _ end) => destruct x
    end).

Lemma lag_done s ls r : beh (s_stat s) ls -> lag (done s r) (done (set_stat s ls) r). Proof. unfold done. go. Qed.
Lemma lag_got s ls {A} (r : (exn + A) * bytebuf) f : beh (s_stat s) ls -> lag (got s r f) (got (set_stat s ls) r f). Proof. unfold got. go. Qed.
Lemma lag_buf m args s ls : beh (s_stat s) ls -> lag (buf_call m args s) (buf_call m args (set_stat s ls)).
Proof. pose proof lag_done as D. pose proof @lag_got as G. intros B. unfold buf_call. go. Qed.
Lemma lag_str u m args s ls : beh (s_stat s) ls -> lag (str_call u m args s) (str_call u m args (set_stat s ls)). Proof. unfold str_call. go. Qed.
Lemma lag_list t l vs m args s ls : beh (s_stat s) ls -> lag (list_call t l vs m args s) (list_call t l vs m args (set_stat s ls)). Proof. unfold list_call. go. Qed.
Lemma lag_new c s ls : beh (s_stat s) ls -> lag (new_object P c s) (new_object P c (set_stat s ls)). Proof. unfold new_object. go. Qed.
Lemma lag_map x f m args s ls : beh (s_stat s) ls -> (forall v, beh (put_assoc x v (s_stat s)) (put_assoc x v ls)) -> lag (map_call x f m args s) (map_call x f m args (set_stat s ls)).
Proof.
  intros B W. assert (R : forall (a : jval) v, lag (Ret a (put_stat s x v)) (Ret a (put_stat (set_stat s ls) x v))) by (intros a v; exists (put_assoc x v ls); split; [reflexivity|exact (W v)]). unfold map_call. go.
Qed.

Lemma lag_declare t x v s ls : beh (s_stat s) ls -> lag (declare t x v s) (declare t x v (set_stat s ls)). Proof. unfold declare. go. Qed.
Lemma lag_params : forall ps args s ls acc, beh (s_stat s) ls -> lag (bind_params ps args s acc) (bind_params ps args (set_stat s ls) acc).
Proof. induction ps as [|[t x] ps IH]; intros [|v args] s ls acc B; cbn [bind_params]; go. Qed.
Lemma lag_field x0 x v s ls : beh (s_stat s) ls -> lag (assign_field P x0 x v s) (assign_field P x0 x v (set_stat s ls)). Proof. unfold assign_field. go. Qed.

Section Sim.
  Variable pr : printers.
  Variable v1 v2 : string -> nat -> list jval -> st -> res jval.
  Hypothesis V : forall m l args s ls, beh (s_stat s) ls -> lag (v1 m l args s) (v2 m l args (set_stat s ls)).
  Variable touch : string -> st -> res unit.
  Hypothesis T : forall q s ls, beh (s_stat s) ls -> exists ls', touch q (set_stat s ls) = Ret tt (set_stat s ls') /\ beh (s_stat s) ls' /\ (assoc q P <> None -> ~ untouched q ls').

  Lemma lag_touch {A} q s ls (r : res A) f : beh (s_stat s) ls -> (forall ls', beh (s_stat s) ls' -> lag r (f tt (set_stat s ls'))) -> lag r (bind (touch q (set_stat s ls)) f).
  Proof. intros B H. destruct (T q s ls B) as (ls' & E & B' & _). rewrite E. exact (H ls' B'). Qed.
  Lemma owner_here c y q : owner P (c ++ "." ++ y)%string = Some q -> assoc q P <> None.
  Proof. intros O. destruct (owner_inv _ _ O) as (d & A & _). congruence. Qed.
  Lemma lag_use {A} c y s ls (r : res A) f : beh (s_stat s) ls -> let x := (c ++ "." ++ y)%string in
    (forall ls', beh (s_stat s) ls' -> assoc x ls' = assoc x (s_stat s) -> (writable x -> forall v, beh (put_assoc x v (s_stat s)) (put_assoc x v ls')) -> lag r (f tt (set_stat s ls'))) -> lag r (bind (use P touch x (set_stat s ls)) f).
  Proof.
    intros B x H. unfold use. destruct (owner P x) as [q|] eqn:O.
    - destruct (T q s ls B) as (ls' & E & B' & U). rewrite E. specialize (U (owner_here c y q O)). cbn [bind]. apply H; [exact B'|exact (bh_same _ _ _ B' x q O U)|].
      intros W v. apply (put_behind c y v); [exact B'|exact W|]. intros q' O'. unfold x in O. rewrite O in O'. injection O' as <-. exact U.
    - cbn [bind]. apply H; [exact B| |].
      + rewrite !(assoc_not_in x); [reflexivity| |]; [rewrite (bh_keys _ _ _ B)|rewrite (bh_spine _ _ _ B)]; intros I; [|apply dotted_spine in I]; destruct (key_owner x I) as (q & Q); congruence.
      + intros W v. apply (put_behind c y v); [exact B|exact W|]. intros q' O'. unfold x in O. rewrite O in O'. discriminate O'.
  Qed.

  Lemma lag_eq_item t a b s ls : beh (s_stat s) ls -> lag (jeq_item v1 t a b s) (jeq_item v2 t a b (set_stat s ls)).
  Proof. unfold jeq_item. go. Qed.
  Lemma lag_eq_items t : forall x y s ls, beh (s_stat s) ls -> lag (jeq_items v1 t x y s) (jeq_items v2 t x y (set_stat s ls)).
  Proof.
    induction x as [|u x IH]; intros [|v y] s ls B; cbn [jeq_items]; go.
    pose proof (lag_eq_item t u v s ls B) as H. destruct (jeq_item v1 t u v s) as [a s'|e s'|]; [destruct H as (l' & -> & H)|destruct H as (l' & -> & H)|exact I]; go.
  Qed.
  Lemma lag_eq t a b s ls : beh (s_stat s) ls -> lag (jeq v1 t a b s) (jeq v2 t a b (set_stat s ls)).
  Proof. pose proof lag_eq_item. pose proof lag_eq_items. unfold jeq. go. Qed.
  Lemma lag_hash_item t a s ls : beh (s_stat s) ls -> lag (jhash_item v1 t a s) (jhash_item v2 t a (set_stat s ls)).
  Proof. unfold jhash_item. go. Qed.
  Lemma lag_hash_items t : forall l z s ls, beh (s_stat s) ls -> lag (jhash_items v1 t l z s) (jhash_items v2 t l z (set_stat s ls)).
  Proof. pose proof lag_hash_item. induction l as [|x l IH]; intros; cbn [jhash_items]; go. Qed.
  Lemma lag_hash t a s ls : beh (s_stat s) ls -> lag (jhash v1 t a s) (jhash v2 t a (set_stat s ls)).
  Proof. pose proof lag_hash_item. pose proof lag_hash_items. unfold jhash. go. Qed.
  Lemma lag_hash_args : forall args z s ls, beh (s_stat s) ls -> lag (jhash_args v1 args z s) (jhash_args v2 args z (set_stat s ls)).
  Proof. pose proof lag_hash. induction args as [|x l IH]; intros; cbn [jhash_args]; go. Qed.
  Lemma lag_show_item t a s ls : beh (s_stat s) ls -> lag (jshow_item pr v1 t a s) (jshow_item pr v2 t a (set_stat s ls)).
  Proof. unfold jshow_item. go. Qed.
  Lemma lag_show_items t : forall l s ls, beh (s_stat s) ls -> lag (jshow_items pr v1 t l s) (jshow_items pr v2 t l (set_stat s ls)).
  Proof.
    pose proof lag_show_item. induction l as [|x l IH]; intros s ls B; [cbn [jshow_items]; go|]. destruct l as [|y l]; [cbn [jshow_items]; go|].
    change (jshow_items pr v1 t (x :: y :: l) s) with (do a s' <- jshow_item pr v1 t x s; do b s'' <- jshow_items pr v1 t (y :: l) s'; Ret (a ++ chars ", " ++ b) s'').
    change (jshow_items pr v2 t (x :: y :: l) (set_stat s ls)) with (do a s' <- jshow_item pr v2 t x (set_stat s ls); do b s'' <- jshow_items pr v2 t (y :: l) s'; Ret (a ++ chars ", " ++ b) s''). go.
  Qed.
  Lemma lag_show v s ls : beh (s_stat s) ls -> lag (jshow pr v1 v s) (jshow pr v2 v (set_stat s ls)).
  Proof. pose proof lag_show_item. pose proof lag_show_items. unfold jshow. go. Qed.
  Lemma lag_lib c m args s ls : beh (s_stat s) ls -> lag (lib_call v1 c m args s) (lib_call v2 c m args (set_stat s ls)).
  Proof. pose proof lag_eq. pose proof lag_hash_args. unfold lib_call. go. Qed.
  Lemma lag_binary o a b s ls : beh (s_stat s) ls -> lag (binary pr v1 o a b s) (binary pr v2 o a b (set_stat s ls)).
  Proof. pose proof lag_show. unfold binary. destruct o; go. Qed.

  Section Body.
    Variable c1 c2 : option nat -> string -> string -> list jval -> st -> res jval.
    Hypothesis C : forall t c m args s ls, beh (s_stat s) ls -> lag (c1 t c m args s) (c2 t c m args (set_stat s ls)).
    Variable k : nat.
    Variable x0 : cx.
    Hypothesis X : has_method (x_class x0).

    Ltac lazily := go; repeat (
      match goal with
      | B : behind _ _ ?ls |- lag _ (bind (touch _ (set_stat _ ?ls)) _) => apply lag_touch; [exact B|]; clear B; intros ? B
      | B : behind _ _ ?ls |- lag _ (bind (use _ touch _ (set_stat _ ?ls)) _) => apply lag_use; [exact B|]; clear B; let E := fresh "E" in let W := fresh "W" in intros ? B E W; cbv beta zeta; norm; try rewrite E
      end; go).
    Lemma lag_name x s ls : beh (s_stat s) ls -> lag (name_val P x0 x s) (lname_val P touch x0 x (set_stat s ls)).
    Proof. intros B. unfold name_val, lname_val. lazily. Qed.
    Lemma lag_field_val v x s ls : beh (s_stat s) ls -> lag (field_val P v x s) (lfield_val P touch v x (set_stat s ls)).
    Proof. intros B. unfold field_val, lfield_val. lazily. Qed.
    Lemma lag_const c n m args s ls : beh (s_stat s) ls -> lag (const_call P c n m args s) (lconst_call P touch c n m args (set_stat s ls)).
    Proof. intros B. unfold const_call, lconst_call. lazily. Qed.
    Lemma lag_dispatch x v m args s ls : dotless x = true -> beh (s_stat s) ls -> lag (dispatch P v1 c1 x0 x v m args s) (ldispatch P v2 touch c2 x0 x v m args (set_stat s ls)).
    Proof.
      intros D B. pose proof lag_lib. pose proof lag_const. pose proof lag_buf. pose proof lag_str. pose proof lag_list. pose proof lag_new. unfold dispatch, ldispatch.
      destruct v; try solve [lazily]. apply lag_use; [exact B|]. intros ls' B' E W. apply lag_map; [exact B'|]. apply W, can_write; assumption.
    Qed.
    Lemma lag_put {A} (a : A) s ls x v : beh (put_assoc x v (s_stat s)) (put_assoc x v ls) -> lag (Ret a (put_stat s x v)) (Ret a (put_stat (set_stat s ls) x v)).
    Proof. intros B. exists (put_assoc x v ls). split; [reflexivity|exact B]. Qed.
    Lemma lag_assign x v s ls : dotless x = true -> beh (s_stat s) ls -> lag (assign P x0 x v s) (lassign P touch x0 x v (set_stat s ls)).
    Proof.
      intros D B. assert (K : writable (x_class x0 ++ "." ++ x)) by (apply can_write; assumption). unfold assign, lassign. lazily; apply lag_put, W, K.
    Qed.
    Lemma lag_assign_index x i v s ls : dotless x = true -> beh (s_stat s) ls -> lag (assign_index x0 x i v s) (lassign_index P touch x0 x i v (set_stat s ls)).
    Proof.
      intros D B. assert (K : writable (x_class x0 ++ "." ++ x)) by (apply can_write; assumption). unfold assign_index, lassign_index. lazily; apply lag_put, W, K.
    Qed.
    Lemma var_plain a : plain a = true -> dotless (var_of a) = true.
    Proof. destruct a; try reflexivity; cbn; auto. Qed.

    Notation ev1 := (eval P pr v1 c1 x0). Notation ev2 := (leval P pr v2 touch c2 x0).
    Definition step_ok (e : expr) : Prop := forall s ls, beh (s_stat s) ls -> lag (ev1 e s) (ev2 e (set_stat s ls)).
    Lemma lag_args : forall l, Forall step_ok l -> forall s ls, beh (s_stat s) ls -> lag (eval_args P pr v1 c1 x0 l s) (leval_args P pr v2 touch c2 x0 l (set_stat s ls)).
    Proof. induction 1 as [|e l He _ IH]; intros s ls B; cbn [eval_args leval_args]; [go|]. apply lag_bind; [apply He, B|]. intros a s' ls' B'. apply lag_bind; [apply IH, B'|]. go. Qed.
    Lemma eval_args_eq vc ca l s :
      (fix go (l : list expr) (s : st) : res (list jval) :=
        match l with [] => Ret [] s | a :: r => do v s' <- eval P pr vc ca x0 a s; do vs s'' <- go r s'; Ret (v :: vs) s'' end) l s = eval_args P pr vc ca x0 l s.
    Proof. reflexivity. Qed.
    Lemma leval_args_eq vc ca l s :
      (fix go (l : list expr) (s : st) : res (list jval) :=
        match l with [] => Ret [] s | a :: r => do v s' <- leval P pr vc touch ca x0 a s; do vs s'' <- go r s'; Ret (v :: vs) s'' end) l s = leval_args P pr vc touch ca x0 l s.
    Proof. reflexivity. Qed.
    Lemma lag_eval' : forall e, plain e = true -> step_ok e /\ forall a i, e = EIndex a i -> step_ok i.
    Proof.
      pose proof lag_dispatch as D. pose proof lag_binary as Bi. pose proof lag_name as Na. pose proof lag_field_val as Fi. pose proof lag_assign as As. pose proof lag_assign_index as Ai. pose proof lag_field as Af. pose proof lag_new as Ne.
      assert (FA : forall l, Forall (fun e => plain e = true -> step_ok e /\ forall a i, e = EIndex a i -> step_ok i) l -> forallb plain l = true ->
        forall s ls, beh (s_stat s) ls -> lag (eval_args P pr v1 c1 x0 l s) (leval_args P pr v2 touch c2 x0 l (set_stat s ls))).
      { intros l F Q. apply lag_args. induction F as [|e l He _ IH]; [constructor|]. cbn in Q. apply andb_true_iff in Q. destruct Q as [Q1 Q2]. constructor; [apply He, Q1|apply IH, Q2]. }
      induction e using expr_ind'; intros Q; cbn [plain] in Q; repeat match goal with H : _ && _ = true |- _ => apply andb_true_iff in H; destruct H end;
        repeat match goal with H : ?p = true, I : ?p = true -> _ |- _ => specialize (I H) end;
        (split; [intros s1 ls1 B; cbn [eval leval]; rewrite ?eval_args_eq, ?leval_args_eq|intros a0 i0 E; try discriminate E]);
        repeat match goal with H : step_ok _ /\ _ |- _ => destruct H end; unfold step_ok in *; try solve [lazily].
      - apply lag_bind; [auto|]. intros v s' ls' B'. apply lag_bind; [apply FA; auto|]. intros vs s2 ls2 B2. apply D; [|exact B2]. apply var_plain. assumption.
      - injection E as <- <-. assumption.
      - destruct o as [|o].
        + destruct e1 as [ | | | | | | | |e1 x| | | | |a i| | | | | | | | | |]; try exact I.
          * cbn in H. lazily.
          * destruct e1; try exact I. lazily.
          * destruct a; try exact I. cbn in H. apply andb_true_iff in H. destruct H as [H _]. apply lag_bind; [eauto|]. lazily.
        + destruct e1; try exact I. cbn in H. unfold lvalue_type. lazily.
    Qed.
    Lemma lag_eval e : plain e = true -> step_ok e. Proof. intros Q. apply lag_eval', Q. Qed.

    Lemma lag_loop (f1 f2 : st -> res jval) (b1 b2 : st -> res (option jval)) (u1 u2 : st -> res jval) :
      (forall s ls, beh (s_stat s) ls -> lag (f1 s) (f2 (set_stat s ls))) -> (forall s ls, beh (s_stat s) ls -> lag (b1 s) (b2 (set_stat s ls))) -> (forall s ls, beh (s_stat s) ls -> lag (u1 s) (u2 (set_stat s ls))) ->
      forall n s ls, beh (s_stat s) ls -> lag (loop n f1 b1 u1 s) (loop n f2 b2 u2 (set_stat s ls)).
    Proof. intros Hf Hb Hu. induction n as [|n IH]; intros s ls B; cbn [loop]; go. Qed.
    Lemma lag_each (b1 b2 : jval -> st -> res (option jval)) : (forall v s ls, beh (s_stat s) ls -> lag (b1 v s) (b2 v (set_stat s ls))) ->
      forall vs s ls, beh (s_stat s) ls -> lag (each b1 vs s) (each b2 vs (set_stat s ls)).
    Proof. intros Hb. induction vs as [|v vs IH]; intros s ls B; cbn [each]; go. Qed.
    Lemma lag_exec : forall c, plain_stmt c = true -> forall s ls, beh (s_stat s) ls -> lag (exec P pr v1 c1 k x0 c s) (lexec P pr v2 touch c2 k x0 c (set_stat s ls)).
    Proof.
      pose proof lag_eval as Ev. unfold step_ok in Ev. pose proof lag_loop as L. pose proof lag_each as Ea. pose proof lag_declare as De.
      induction c as [t x e|e|e a r IHa IHr|t x i c u a IHa|t x e a IHa|c a IHa|a c IHa|e|e|ss IHs] using stmt_ind'; intros Q s ls B; cbn [exec lexec]; cbn [plain_stmt] in Q;
        repeat match goal with H : _ && _ = true |- _ => apply andb_true_iff in H; destruct H end.
      - destruct e; [|go]. apply lag_bind; [apply Ev; assumption|]. go.
      - apply lag_bind; [apply Ev; assumption|]. go.
      - apply lag_bind; [apply Ev; assumption|]. intros v s' ls' B'. destruct v as [| [|] | | | | | | | | | | | |]; try exact I; [apply lag_scoped, IHa; assumption|].
        destruct r as [d|]; [|go]. apply lag_scoped. apply (IHr d eq_refl); assumption.
      - apply lag_scoped. apply lag_bind; [apply Ev; assumption|]. intros v s' ls' B'. apply lag_bind; [apply De; assumption|]. intros v' s2 ls2 B2.
        apply L; [intros; apply Ev; assumption|intros; apply lag_scoped, IHa; assumption|intros; apply Ev; assumption|exact B2].
      - apply lag_bind; [apply Ev; assumption|]. intros v s' ls' B'. destruct v; try exact I. apply Ea; [|exact B']. intros v s2 ls2 B2. apply lag_scoped. apply lag_bind; [apply De; assumption|]. intros v' s3 ls3 B3. apply IHa; assumption.
      - apply lag_scoped. apply L; [intros; apply Ev; assumption|intros; apply lag_scoped, IHa; assumption|intros; go|exact B].
      - apply lag_scoped. apply lag_bind; [apply lag_scoped, IHa; assumption|]. intros r s' ls' B'. destruct r; [go|]. apply L; [intros; apply Ev; assumption|intros; apply lag_scoped, IHa; assumption|intros; go|exact B'].
      - destruct e; [|go]. apply lag_bind; [apply Ev; assumption|]. go.
      - destruct e; try exact I. destruct t as [c cs|c|c|] eqn:Et; try exact I. destruct cs; try exact I. destruct args as [|a0 [|a1 args]]; try exact I. destruct (String.eqb c "IllegalArgumentException"); [|exact I].
        cbn in Q. apply andb_true_iff in Q. destruct Q as [_ Q]. apply andb_true_iff in Q. destruct Q as [Q _]. apply lag_bind; [apply Ev; assumption|]. go.
      - apply lag_scoped. revert Q s ls B. induction IHs as [|c l Hc _ IH]; intros Q s ls B; [go|]. cbn [forallb] in Q. apply andb_true_iff in Q. destruct Q as [Q1 Q2].
        apply lag_bind; [apply Hc; assumption|]. intros [v|] s' ls' B'; [go|apply IH; assumption].
    Qed.
    Lemma lag_exec_all : forall l, forallb plain_stmt l = true -> forall s ls, beh (s_stat s) ls -> lag (exec_all P pr v1 c1 k x0 l s) (lexec_all P pr v2 touch c2 k x0 l (set_stat s ls)).
    Proof.
      induction l as [|c l IH]; intros Q s ls B; cbn [exec_all lexec_all]; [go|]. cbn [forallb] in Q. apply andb_true_iff in Q. destruct Q as [Q1 Q2].
      apply lag_bind; [apply lag_exec; assumption|]. intros [v|] s' ls' B'; [go|apply IH; assumption].
    Qed.
  End Body.

  Lemma method_plain ms m n ps b : forallb plain_member ms = true -> method_in ms m n = Some (ps, b) -> forallb plain_stmt b = true.
  Proof.
    intros H. unfold method_in. destruct (find _ ms) as [d|] eqn:Fd; [|discriminate]. apply find_some in Fd. destruct Fd as [I _]. rewrite forallb_forall in H. specialize (H _ I).
    destruct d; try discriminate. destruct body; try discriminate. intros [= <- <-]. exact H.
  Qed.
  Lemma members_plain d : plain_class d = true -> forallb plain_member (members d) = true.
  Proof. destruct d. cbn. intros H. apply andb_true_iff in H. apply H. Qed.
  Lemma found_plain c m n ps b : find_method P c m n = Some (ps, b) -> forallb plain_stmt b = true.
  Proof.
    unfold find_method. destruct (assoc c P) as [d|] eqn:A; [|discriminate]. destruct (library_class c d A) as [L Pd]. intros E.
    destruct (method_in (members d) m n) as [x|] eqn:M; [injection E as ->; eapply method_plain; [|exact M]; now apply members_plain|].
    clear M A Pd. revert E. induction (supers d) as [|t ss IH]; cbn [inherited]; [discriminate|]. destruct t; auto. destruct (assoc n0 P) as [d'|] eqn:A; [|auto].
    destruct (method_in (members d') m n) as [x|] eqn:M; [|auto]. intros [= ->]. eapply method_plain; [|exact M]. apply members_plain. apply (library_class _ _ A).
  Qed.
  Lemma lag_run : forall k this c m args s ls, beh (s_stat s) ls -> lag (run P pr v1 k this c m args s) (lrun P pr v2 touch k this c m args (set_stat s ls)).
  Proof.
    induction k as [|k IH]; intros this c m args s ls B; [exact I|]. cbn [run lrun]. destruct (find_method P c m (List.length args)) as [[ps body]|] eqn:M; [|exact I].
    apply lag_bind; [apply lag_params, B|]. intros l s1 ls1 B1. norm.
    assert (X : has_method (x_class {| x_this := this; x_class := c |})) by (exists m, (List.length args), (ps, body); exact M).
    pose proof (lag_exec_all (run P pr v1 k) (lrun P pr v2 touch k) IH k {| x_this := this; x_class := c |} X body (found_plain _ _ _ _ _ M) (set_loc s1 l) ls1 B1) as R.
    destruct (exec_all P pr v1 (run P pr v1 k) k {| x_this := this; x_class := c |} body (set_loc s1 l)) as [v s2|e s2|]; [| |exact I]; destruct R as (ls2 & R & B2); rewrite R; exists ls2; (split; [reflexivity|exact B2]).
  Qed.
End Sim.

Lemma lag_vcalls pr touch k : (forall q s ls, beh (s_stat s) ls -> exists ls', touch q (set_stat s ls) = Ret tt (set_stat s ls') /\ beh (s_stat s) ls' /\ (assoc q P <> None -> ~ untouched q ls')) ->
  forall d m l args s ls, beh (s_stat s) ls -> lag (vcalls P pr k d m l args s) (lvcalls P pr touch k d m l args (set_stat s ls)).
Proof.
  intros T. induction d as [|d IH]; intros m l args s ls B; cbn [vcalls lvcalls]; [go|]. norm. destruct (nth_error (s_h s) l) as [[c|]|]; try exact I. apply lag_run; assumption.
Qed.
End Lag.
