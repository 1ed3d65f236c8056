(* The library's class initialisers in a larger program; the caller's locals; what the rest of the program may do; the library's part of a state. *)
From Coq Require Import ZArith List Bool String Ascii Lia.
From Verif.Model Require Import JavaPrim ByteBuf Ast Interp Show Heap.
From Verif.Java Require Import Lex Syntax Sem Init.
From Verif.Spec Require Import JavaWorld.
From Verif.Proofs Require Import HeapFacts JavaNames JavaEmbed.
Import ListNotations.
Open Scope Z_scope.
Open Scope list_scope.

Section InitIn.
  Variable P Q : program.
  Variable pr : printers.
  Variable ext : list (string * jval).
  Hypothesis same_class : forall c, known c = true -> assoc c P = assoc c Q.
  Hypothesis lib_class : forall c d, assoc c Q = Some d -> library_name c = true /\ plain_class d = true.
  Hypothesis apart : foreign ext.
  Variable vp vq : string -> nat -> list jval -> st -> res jval.
  Hypothesis V : forall m f l l' args args' s t, nth_error f l = Some l' -> Forall2 (jval_in f) args args' -> inside ext f s t -> ends_in jval_in ext f (s_h t) (vq m l args s) (vp m l' args' t).
  Variable k : nat.
  Notation uends := (ends_in (@eqr unit) ext).

  Lemma over_in {A} (g g' : A -> st -> res unit) (ok : A -> Prop) f0 : (forall x f s t, longer f0 f -> ok x -> inside ext f s t -> uends f (s_h t) (g x s) (g' x t)) ->
    forall l, Forall ok l -> forall f s t, longer f0 f -> inside ext f s t -> uends f (s_h t) (over g l s) (over g' l t).
  Proof.
    intros H l. induction 1 as [|x l Ox _ IH]; intros f s t L I; cbn [over]; [apply ret_in; auto; reflexivity|]. eapply ends_bind; [apply H; auto|]. intros f1 u u' s1 t1 G1 I1 _.
    apply IH; [|exact I1]. eapply longer_trans; [exact L|]. eapply grown_longer; exact G1.
  Qed.
  Lemma empty_in f s t : inside ext f s t -> inside ext f (set_loc s []) (set_loc t []).
  Proof. intros I. apply in_loc; [exact I|constructor]. Qed.
  Lemma back_in f f1 s t s1 t1 : longer f f1 -> inside ext f s t -> inside ext f1 s1 t1 -> inside ext f1 (set_loc s1 (s_loc s)) (set_loc t1 (s_loc t)).
  Proof. intros L I I1. apply in_loc; auto. eapply loc_mono; [exact L|]. apply I. Qed.
  Lemma static_cx f q : library_name q = true -> cx_in f {| x_this := None; x_class := q |} {| x_this := None; x_class := q |}.
  Proof. intros L. split; [exact Logic.I|]. split; [reflexivity|exact L]. Qed.
  Let R := run_in P Q pr ext same_class lib_class apart vp vq V k.
  Lemma field_init_in f s t q x e : library_name q = true -> plain e = true -> inside ext f s t -> uends f (s_h t) (init_field Q pr vq k q x e s) (init_field P pr vp k q x e t).
  Proof.
    intros L Pe I. unfold init_field.
    eapply ends_bind; [exact (evals P Q pr ext same_class lib_class apart vp vq V _ _ R e Pe f _ _ _ _ (empty_in _ _ _ I) (static_cx f q L))|].
    intros f1 v w s1 t1 G1 I1 J1. apply ret_in; [|reflexivity|reflexivity]. apply put_stat_in; [|exact (proj1 apart q x L)|exact J1]. eapply back_in; eauto. eapply grown_longer; exact G1.
  Qed.
  Let ex (P0 : program) vc (q : string) (l : list stmt) (s : st) : res unit :=
    do v s' <- exec_all P0 pr vc (run P0 pr vc k) k {| x_this := None; x_class := q |} l (set_loc s []); Ret tt (set_loc s' (s_loc s)).
  Lemma block_in f s t q l : library_name q = true -> forallb plain_stmt l = true -> inside ext f s t -> uends f (s_h t) (ex Q vq q l s) (ex P vp q l t).
  Proof.
    intros L Pl I. unfold ex.
    eapply ends_bind; [exact (execs P Q pr ext same_class lib_class apart vp vq V _ _ R k l Pl f _ _ _ _ (empty_in _ _ _ I) (static_cx f q L))|].
    intros f1 v w s1 t1 G1 I1 J1. apply ret_in; [|reflexivity|reflexivity]. eapply back_in; eauto. eapply grown_longer; exact G1.
  Qed.
  Lemma plain_members d : plain_class d = true -> Forall (fun m => plain_member m = true) (members d).
  Proof. intros H. apply Forall_forall. intros m I. pose proof (members_plain _ H) as B. rewrite forallb_forall in B. auto. Qed.
  Lemma one_init_in f s t q d : library_name q = true -> plain_class d = true -> inside ext f s t -> uends f (s_h t) (init_one Q pr vq k q d s) (init_one P pr vp k q d t).
  Proof.
    intros L Pd I. unfold init_one. pose proof (plain_members d Pd) as Pm.
    eapply ends_bind; [eapply over_in; [|exact Pm|apply longer_refl|exact I]|].
    - intros m f1 s1 t1 _ Om I1. destruct m; try (apply ret_in; auto; reflexivity). destruct e; [|apply ret_in; auto; reflexivity]. destruct (is_static mods); [apply ret_in; auto; reflexivity|]. cbn in Om. apply andb_true_iff in Om. apply field_init_in; tauto.
    - intros f1 u u' s1 t1 G1 I1 _. eapply over_in; [|exact Pm|apply longer_refl|exact I1].
      intros m f2 s2 t2 _ Om I2. destruct m; try (apply ret_in; auto; reflexivity). destruct ps; [|exact Logic.I]. cbn in Om. now apply block_in.
  Qed.
  Lemma const_init_in f s t q d na : library_name q = true -> plain_class d = true -> forallb plain (snd na) = true -> inside ext f s t -> uends f (s_h t) (init_const Q pr vq k q d na s) (init_const P pr vp k q d na t).
  Proof.
    intros L Pd Pa I. destruct na as [n args]. unfold init_const. pose proof (plain_members d Pd) as Pm.
    eapply ends_bind.
    - refine (args_in P Q pr ext vp vq _ _ args _ Pa f _ _ _ _ (empty_in _ _ _ I) (static_cx f q L)). apply Forall_forall. intros e _. exact (evals P Q pr ext same_class lib_class apart vp vq V _ _ R e).
    - intros f1 vs ws s1 t1 G1 I1 J1. cbn beta in J1. pose proof (grown_longer _ _ _ _ G1) as L1. pose proof (back_in _ _ _ _ _ _ L1 I I1) as I1'.
      change (s_h t1) with (s_h (set_loc t1 (s_loc t))). eapply (over_in _ _ (fun _ => True)); [|apply Forall_forall; auto|apply longer_refl|exact I1'].
      intros m f2 s2 t2 L2 _ I2. destruct m; try (apply ret_in; auto; reflexivity).
      eapply ends_bind; [apply params_in; [exact I2|eapply args_mono; eauto|constructor]|]. intros f3 ls ls' s3 t3 G3 I3 A3. cbn beta in A3.
      eapply (over_in _ _ (fun _ => True) f3); [|apply Forall_forall; auto|apply longer_refl|exact I3]. intros st0 f4 s4 t4 L4 _ I4.
      destruct st0; try exact Logic.I. destruct e; try exact Logic.I. destruct o; try exact Logic.I. destruct e1; try exact Logic.I. destruct e1; try exact Logic.I. destruct e2; try exact Logic.I.
      pose proof (assoc_named _ x0 _ _ A3) as O. destruct (assoc x0 ls) as [[u v]|], (assoc x0 ls') as [[u' v']|]; cbn in O; try contradiction; [|exact Logic.I].
      apply ret_in; [|reflexivity|reflexivity]. apply put_stat_in; [exact I4|exact (proj1 apart q _ L)|]. eapply jval_mono; [exact L4|apply O].
  Qed.
  Lemma class_init_in f s t q d : library_name q = true -> plain_class d = true -> inside ext f s t -> uends f (s_h t) (init_class Q pr vq k (q, d) s) (init_class P pr vp k (q, d) t).
  Proof.
    intros L Pd I. unfold init_class. pose proof (plain_members d Pd) as Pm. eapply ends_bind.
    - instantiate (1 := @eqr unit). destruct (String.eqb (kind_of d) "enum"); [|apply ret_in; auto; reflexivity]. destruct (has_args d); [|now apply one_init_in].
      eapply (over_in _ _ (fun na => forallb plain (snd na) = true)); [|..|apply longer_refl|exact I].
      + intros na f1 s1 t1 _ Pa I1. now apply const_init_in.
      + destruct d as [? ? ? ? ? cs ?]. cbn in *. apply andb_true_iff in Pd. destruct Pd as [Pd _]. apply andb_true_iff in Pd. destruct Pd as [_ Pc]. apply Forall_forall. intros na In. rewrite forallb_forall in Pc. specialize (Pc na In). apply andb_true_iff in Pc. apply Pc.
    - intros f1 u u' s1 t1 G1 I1 _. eapply over_in; [|exact Pm|apply longer_refl|exact I1].
      intros m f2 s2 t2 _ Om I2. destruct m; try (apply ret_in; auto; reflexivity).
      + destruct e; [|apply ret_in; auto; reflexivity]. destruct (_ || _); [|apply ret_in; auto; reflexivity]. cbn in Om. apply andb_true_iff in Om. apply field_init_in; tauto.
      + cbn in Om. now apply block_in.
  Qed.
  Lemma all_init_in l : Forall (fun qc => library_name (fst qc) = true /\ plain_class (snd qc) = true) l -> forall f s t, inside ext f s t -> uends f (s_h t) (over (init_class Q pr vq k) l s) (over (init_class P pr vp k) l t).
  Proof. intros F f s t I. eapply over_in; [|exact F|apply longer_refl|exact I]. intros [q d] f1 s1 t1 _ [L Pd] I1. now apply class_init_in. Qed.
  Hypothesis members_ok : Forall (fun qc => library_name (fst qc) = true /\ plain_class (snd qc) = true) Q.
  Notation rest h b st := {| s_h := h; s_b := b; s_loc := []; s_stat := st |}.
  Lemma start_in H b stat : init_all Q pr vq k (rest [] b (start_stat Q)) = Ret tt (rest [] b stat) ->
    exists own, over (init_class P pr vp k) (init_order Q) (rest H b (start_stat Q ++ ext)) = Ret tt (rest H b (own ++ ext)) /\ inside ext [] (rest [] b stat) (rest H b (own ++ ext)).
  Proof.
    intros E.
    assert (I : inside ext [] (rest [] b (start_stat Q)) (rest H b (start_stat Q ++ ext))).
    { split; [|split; [reflexivity|split; [constructor|]]].
      - split; [reflexivity|]. split; [constructor|]. intros [|] m N; discriminate N.
      - exists (start_stat Q). split; [reflexivity|]. cbn [s_stat]. unfold start_stat. induction (stat_keys Q); constructor; auto. split; [reflexivity|]. now apply in_plain. }
    assert (FA : Forall (fun qc => library_name (fst qc) = true /\ plain_class (snd qc) = true) (init_order Q)).
    { apply Forall_forall. intros qc In. rewrite Forall_forall in members_ok. apply members_ok. unfold init_order in In. apply in_app_or in In. destruct In as [In|In]; [|apply in_rev in In]; apply filter_In in In; apply In. }
    pose proof (all_init_in _ FA _ _ _ I) as J. unfold init_all in E. rewrite E in J. destruct J as (f' & u & t & Et & G & It & _). destruct u.
    pose proof It as ((Le & _) & B & L & own & S & N). cbn in Le, B. destruct f'; [|discriminate]. destruct G as (G1 & G2 & G3). cbn [s_h] in *.
    assert (Z : s_h t = H).
    { assert (Z : (List.length (s_h t) - List.length H)%nat = O). { destruct (List.length (s_h t) - List.length H)%nat; [reflexivity|discriminate]. }
      apply nth_ext with (d := CList []) (d' := CList []); [lia|]. intros i Hi. specialize (G3 i ltac:(lia) (fun x => x)). apply nth_error_nth' with (d := CList []) in Hi. rewrite G3 in Hi. symmetry. exact (nth_error_nth _ _ _ Hi). }
    exists own. destruct t as [hx bx lx sx]. cbn [s_h s_b s_loc s_stat] in *. subst. inversion L; subst. split; [exact Et|exact It].
  Qed.
End InitIn.

(* ---------- the caller's locals ---------- *)
Definition with_loc {A} (L : list (string * (ty * jval))) (r : res A) : res A := match r with Ret a s => Ret a (set_loc s L) | Exc e s => Exc e (set_loc s L) | Bad => Bad end.
Lemma conv_loc {A} L u v s (g g' : jval -> res A) : (forall w, g' w = with_loc L (g w)) -> conv u v (set_loc s L) g' = with_loc L (conv u v s g).
Proof. intros H. unfold conv. destruct v; auto. destruct v; auto. destruct (is_prim u); auto. Qed.
Lemma params_loc L s : forall ps args acc, bind_params ps args (set_loc s L) acc = with_loc L (bind_params ps args s acc).
Proof. induction ps as [|[u x] ps IH]; intros [|v args] acc; cbn [bind_params]; try reflexivity. apply conv_loc. intros w. apply IH. Qed.
Lemma run_loc P pr vc L k this c m args s : run P pr vc k this c m args (set_loc s L) = with_loc L (run P pr vc k this c m args s).
Proof.
  destruct k; [reflexivity|]. cbn [run]. destruct (find_method P c m (List.length args)) as [[ps body]|]; [|reflexivity]. rewrite params_loc. destruct (bind_params ps args s []) as [ls s1|e s1|]; try reflexivity.
  cbn [with_loc bind]. change (set_loc (set_loc s1 L) ls) with (set_loc s1 ls). destruct (exec_all P pr vc (run P pr vc k) k _ body (set_loc s1 ls)); reflexivity.
Qed.
Lemma vcalls_loc P pr k d m l args s L : vcalls P pr k d m l args (set_loc s L) = with_loc L (vcalls P pr k d m l args s).
Proof. destruct d; [reflexivity|]. cbn [vcalls]. cbn [set_loc s_h]. destruct (nth_error (s_h s) l) as [[|]|]; try reflexivity. apply run_loc. Qed.

(* ---------- the library's part of a heap ---------- *)
Fixpoint place (f : list nat) (m : nat) : option nat := match f with [] => None | x :: r => if Nat.eqb m x then Some O else option_map S (place r m) end.
Lemma place_at f : forall m, In m f -> exists l, place f m = Some l /\ nth_error f l = Some m.
Proof.
  induction f as [|x f IH]; intros m; cbn; [tauto|]. destruct (Nat.eqb_spec m x) as [->|N]; [exists O; auto|]. intros [E|H]; [congruence|]. destruct (IH m H) as (l & -> & E). exists (S l). auto.
Qed.
Definition move (f : list nat) (v : hval) : hval := match v with HRef m => match place f m with Some l => HRef l | None => HNull end | _ => v end.
Definition move_cell (f : list nat) (c : cell) : cell := match c with CObj n fs => CObj n (map (fun x => (fst x, move f (snd x))) fs) | CList vs => CList (map (move f) vs) end.
Lemma move_in f v : (forall m, v = HRef m -> In m f) -> hval_in f (move f v) v.
Proof. intros H. destruct v; try reflexivity. cbn. destruct (place_at f l (H l eq_refl)) as (j & -> & E). exact E. Qed.
Lemma heap_view f H : whole f H -> exists h, heap_in f h H.
Proof.
  intros (ND & C). exists (map (fun m => match nth_error H m with Some c => move_cell f c | None => CList [] end) f). split; [now rewrite map_length|]. split; [exact ND|].
  intros l m N. destruct (C m (nth_error_In _ _ N)) as (c & E & W). exists (move_cell f c), c. split; [|split; [exact E|]].
  - rewrite nth_error_map, N. cbn. now rewrite E.
  - clear E. destruct c as [n fs|vs]; cbn in *.
    + destruct W as [K W]. split; [reflexivity|]. split; [exact K|]. induction W as [|x fs Wx _ IH]; constructor; auto. cbn. split; [reflexivity|]. now apply move_in.
    + induction W as [|x vs Wx _ IH]; constructor; auto. now apply move_in.
Qed.
