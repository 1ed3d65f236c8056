(* A class is initialised when it is first used: the state stays [behind] that of a JVM that initialised all classes at the start. *)
From Coq Require Import ZArith List Bool String Ascii Lia.
From Verif.Model Require Import JavaPrim ByteBuf Ast Interp Show Heap Library.
From Verif.Java Require Import Lex Syntax Source Sources Sem CodecTrees Init Lazy Program.
From Verif.Spec Require Import JavaState JavaRun JavaWorld JavaLazy.
From Verif.Proofs Require Import RegistryFacts JavaSem JavaClasses JavaNames JavaStart JavaLazyInit.
Import ListNotations.
Open Scope Z_scope.
Open Scope list_scope.

(* ---------- what is computed on the names ---------- *)
Lemma spine_nodup : NoDup spine. Proof. apply nodupb_ok. vm_compute. reflexivity. Qed.
Lemma marks_nodup : NoDup (map mark (map fst lib_program)). Proof. apply nodupb_ok. vm_compute. reflexivity. Qed.
Lemma keys_not_marks : forallb (fun x => negb (is_in x (map mark (map fst lib_program)))) (stat_keys lib_program) = true. Proof. vm_compute. reflexivity. Qed.
Lemma keys_in_spine : forallb (fun x => is_in x spine) (stat_keys lib_program) = true. Proof. vm_compute. reflexivity. Qed.
Lemma marks_in_spine : forallb (fun qc => is_interface qc || is_in (mark (fst qc)) spine) lib_program = true. Proof. vm_compute. reflexivity. Qed.
Lemma marks_of_interfaces : forallb (fun qc => negb (is_interface qc) || negb (is_in (mark (fst qc)) spine)) lib_program = true. Proof. vm_compute. reflexivity. Qed.
Definition inert (qc : string * jclass) : bool :=
  negb (String.eqb (kind_of (snd qc)) "enum") && match stat_names qc with [] => true | _ => false end && negb (existsb (fun m => match m with MStatic _ => true | _ => false end) (members (snd qc))).
Lemma classes_known : forallb (fun qc => is_interface qc || inert qc || is_in (fst qc) (registry_class :: sse_place :: alone)) lib_program = true. Proof. vm_compute. reflexivity. Qed.
Lemma names_there : forallb (fun q => match assoc q lib_program with Some c => negb (is_interface (q, c)) | None => false end) (registry_class :: sse_place :: alone) = true. Proof. vm_compute. reflexivity. Qed.

Lemma check {A} (f : A -> bool) l x : forallb f l = true -> In x l -> f x = true.
Proof. intros H. rewrite forallb_forall in H. apply H. Qed.
Lemma mark_inj q q' : In q (map fst lib_program) -> In q' (map fst lib_program) -> mark q = mark q' -> q = q'.
Proof.
  generalize marks_nodup. generalize (map fst lib_program). intros l N. induction l as [|a l IH]; intros I J Q; [destruct I|]. cbn in N. inversion N as [|y m Na N']; subst.
  destruct I as [->|I], J as [->|J]; auto; exfalso; apply Na; [rewrite Q|rewrite <- Q]; now apply List.in_map.
Qed.
Lemma in_names q c : assoc q lib_program = Some c -> In q (map fst lib_program).
Proof. intros A. apply assoc_in in A. exact (List.in_map fst _ _ A). Qed.
Lemma owner_inv x q : owner lib_program x = Some q -> exists c, assoc q lib_program = Some c /\ In x (stat_names (q, c)).
Proof.
  unfold owner. destruct (find _ lib_program) as [[q' c]|] eqn:F; [|discriminate]. intros [= <-]. apply find_some in F. destruct F as [I E]. exists c. split; [apply lib_assoc, I|]. now apply is_in_iff.
Qed.
Lemma owner_key x q : owner lib_program x = Some q -> In x (stat_keys lib_program).
Proof. intros H. destruct (owner_inv x q H) as (c & A & I). apply in_flat_map. exists (q, c). split; [apply assoc_in, A|exact I]. Qed.
Lemma key_owner x : In x (stat_keys lib_program) -> exists q, owner lib_program x = Some q.
Proof.
  intros H. apply in_flat_map in H. destruct H as (qc & I & J). unfold owner. destruct (find _ lib_program) as [qc'|] eqn:F; [cbn; eauto|]. exfalso. apply (find_none _ _ F) in I. apply is_in_iff in J. unfold is_in in J. congruence.
Qed.
Lemma key_spine x : In x (stat_keys lib_program) -> In x spine.
Proof. intros H. apply (check _ _ _ keys_in_spine) in H. apply is_in_iff. exact H. Qed.
Lemma key_no_mark x q : In x (stat_keys lib_program) -> In q (map fst lib_program) -> x <> mark q.
Proof. intros H I ->. apply (check _ _ _ keys_not_marks) in H. cbv beta in H. apply negb_true_iff in H. apply (List.in_map mark) in I. apply is_in_iff in I. rewrite I in H. discriminate H. Qed.
Lemma mark_spine q c : assoc q lib_program = Some c -> is_interface (q, c) = false -> In (mark q) spine.
Proof. intros A F. apply assoc_in in A. apply (check _ _ _ marks_in_spine) in A. cbv beta in A. rewrite F, orb_false_l in A. apply is_in_iff. exact A. Qed.
Lemma interface_mark q c : assoc q lib_program = Some c -> is_interface (q, c) = true -> ~ In (mark q) spine.
Proof. intros A F I. apply assoc_in in A. apply (check _ _ _ marks_of_interfaces) in A. cbv beta in A. rewrite F in A. apply is_in_iff in I. cbn [fst] in A. rewrite I in A. discriminate A. Qed.

(* ---------- static states as functions on the spine ---------- *)
Definition val (ls : list (string * jval)) (x : string) : jval := match assoc x ls with Some v => v | None => JVoid end.
Lemma assoc_not_in {A} x (l : list (string * A)) : ~ In x (map fst l) -> assoc x l = None.
Proof. induction l as [|[k a] l IH]; cbn; [reflexivity|]. intros N. destruct (String.eqb_spec x k) as [->|]; [exfalso; auto|auto]. Qed.
Lemma assoc_there {A} x (l : list (string * A)) : In x (map fst l) -> exists a, assoc x l = Some a.
Proof. induction l as [|[k a] l IH]; cbn; [intros []|]. intros I. destruct (String.eqb_spec x k) as [->|N]; [eauto|]. apply IH. destruct I as [->|I]; [congruence|exact I]. Qed.
Lemma assoc_map x K (w : string -> jval) : In x K -> assoc x (map (fun y => (y, w y)) K) = Some (w x).
Proof. induction K as [|y K IH]; [intros []|]. cbn. intros I. destruct (String.eqb_spec x y) as [->|N]; [reflexivity|]. apply IH. destruct I as [->|I]; [congruence|exact I]. Qed.
Lemma assoc_spine x w : In x spine -> assoc x (over_spine w) = Some (w x). Proof. apply assoc_map. Qed.
Lemma spine_of ls : map fst ls = spine -> ls = over_spine (val ls).
Proof.
  intros Q. unfold over_spine. rewrite <- Q. pose proof spine_nodup as N. rewrite <- Q in N. clear Q. revert N. unfold val.
  induction ls as [|[k a] l IH]; intros N; [reflexivity|]. cbn [map fst]. inversion N as [|y m Nk N']; subst. cbn [assoc]. rewrite String.eqb_refl. f_equal. etransitivity; [exact (IH N')|].
  apply map_ext_in. intros x I. destruct (String.eqb_spec x k) as [->|]; [contradiction|reflexivity].
Qed.
Lemma over_ext w w' : (forall x, In x spine -> w x = w' x) -> over_spine w = over_spine w'.
Proof. intros H. unfold over_spine. apply map_ext_in. intros x I. now rewrite (H x I). Qed.
Lemma put_map x v K (w : string -> jval) : NoDup K -> put_assoc x v (map (fun y => (y, w y)) K) = map (fun y => (y, if String.eqb y x then v else w y)) K.
Proof.
  induction 1 as [|y K Ny N IH]; [reflexivity|]. cbn. destruct (String.eqb_spec x y) as [->|D].
  - rewrite String.eqb_refl. f_equal. apply map_ext_in. intros z I. destruct (String.eqb_spec z y) as [->|]; [contradiction|reflexivity].
  - rewrite IH. destruct (String.eqb_spec y x) as [->|]; [congruence|reflexivity].
Qed.
Lemma put_fst x v (l : list (string * jval)) : map fst (put_assoc x v l) = map fst l.
Proof. induction l as [|[k a] l IH]; cbn; [reflexivity|]. destruct (String.eqb x k); cbn; congruence. Qed.
Lemma assoc_put x y v (l : list (string * jval)) : assoc y (put_assoc x v l) = if String.eqb y x then option_map (fun _ => v) (assoc y l) else assoc y l.
Proof.
  induction l as [|[k a] l IH]; cbn; [destruct (String.eqb y x); reflexivity|]. destruct (String.eqb_spec x k) as [->|N]; cbn.
  - destruct (String.eqb y k); reflexivity.
  - rewrite IH. destruct (String.eqb_spec y x) as [->|M]; [|reflexivity]. destruct (String.eqb_spec x k); [congruence|reflexivity].
Qed.
Lemma after_key x : In x (stat_keys lib_program) -> assoc x after_start = Some (start_value x). Proof. apply assoc_map. Qed.

Section Touch.
  Variable stat : list (string * jval).
  Notation behind := (behind after_start stat).
  Lemma turn_mark N w q : In q (map fst lib_program) -> (forall q', In q' N -> In q' (map fst lib_program)) -> turn N w (mark q) = if is_in q N then JB true else w (mark q).
  Proof.
    intros I H. unfold turn. assert (Q : is_in (mark q) (map mark N) = is_in q N).
    { apply eq_true_iff_eq. rewrite !is_in_iff. split; [|apply List.in_map]. intros J. apply in_map_iff in J. destruct J as (q' & E & J). rewrite <- (mark_inj q' q (H q' J) I E). exact J. }
    rewrite Q. destruct (is_in q N); [reflexivity|]. destruct (owner lib_program (mark q)) as [o|] eqn:O; [|reflexivity]. exfalso. exact (key_no_mark _ q (owner_key _ _ O) I eq_refl).
  Qed.
  Lemma turn_key N w x q : owner lib_program x = Some q -> (forall q', In q' N -> In q' (map fst lib_program)) -> turn N w x = if is_in q N then start_value x else w x.
  Proof.
    intros O H. unfold turn. destruct (is_in x (map mark N)) eqn:M; [|rewrite O; reflexivity]. exfalso. apply is_in_iff in M. apply in_map_iff in M. destruct M as (q' & E & J). exact (key_no_mark x q' (owner_key _ _ O) (H q' J) (eq_sym E)).
  Qed.
  (* what was touched stays touched *)
  Definition later (ls ls' : list (string * jval)) : Prop := forall q c, assoc q lib_program = Some c -> ~ untouched q ls -> ~ untouched q ls'.
  Lemma turned ls N : behind ls -> (forall q, In q N -> (exists c, assoc q lib_program = Some c /\ is_interface (q, c) = false) /\ untouched q ls) -> behind (over_spine (turn N (val ls))) /\ later ls (over_spine (turn N (val ls))).
  Proof.
    intros B HN. assert (H : forall q', In q' N -> In q' (map fst lib_program)) by (intros q' I; destruct (HN q' I) as ((c & A & _) & _); eapply in_names; eauto).
    assert (UT : forall q c, assoc q lib_program = Some c -> (untouched q (over_spine (turn N (val ls))) <-> untouched q ls /\ is_in q N = false)).
    { intros q c A. unfold untouched. destruct (is_interface (q, c)) eqn:F.
      - rewrite !assoc_not_in; [split; [discriminate|intros [Q _]; discriminate Q]|rewrite (bh_spine _ _ _ B); eapply interface_mark; eauto|]. unfold over_spine. rewrite map_map. cbn [fst]. rewrite map_id. eapply interface_mark; eauto.
      - pose proof (mark_spine q c A F) as I. rewrite (assoc_spine _ _ I), (turn_mark N _ q (in_names _ _ A) H). unfold val. assert (I' : In (mark q) (map fst ls)) by (rewrite (bh_spine _ _ _ B); exact I).
        destruct (assoc_there _ _ I') as (v & ->). destruct (is_in q N); split; [discriminate|intros [_ Q]; discriminate Q|intros [= ->]; auto|intros [[= ->] _]; reflexivity]. }
    split; [|intros q c A U Z; apply U, (UT q c A), Z].
    split.
    - exact (bh_keys _ _ _ B).
    - unfold over_spine. rewrite map_map. cbn [fst]. apply map_id.
    - intros q c A F. destruct (is_in q N) eqn:I.
      + right. rewrite (assoc_spine _ _ (mark_spine q c A F)), (turn_mark N _ q (in_names _ _ A) H), I. reflexivity.
      + destruct (bh_marks _ _ _ B q c A F) as [U|U]; [left; apply (UT q c A); auto|right]. rewrite (assoc_spine _ _ (mark_spine q c A F)), (turn_mark N _ q (in_names _ _ A) H), I. unfold val. now rewrite U.
    - intros x q O U. destruct (owner_inv x q O) as (c & A & _). apply (bh_yet _ _ _ B x q O). apply (UT q c A), U.
    - intros x q O U. destruct (owner_inv x q O) as (c & A & _). rewrite (assoc_spine _ _ (key_spine _ (owner_key _ _ O))), (turn_key N _ x q O H). destruct (is_in q N) eqn:I.
      + rewrite (bh_yet _ _ _ B x q O); [|apply HN, is_in_iff, I]. now rewrite (after_key x (owner_key _ _ O)).
      + assert (U' : ~ untouched q ls) by (intros Z; apply U, (UT q c A); auto). rewrite <- (bh_same _ _ _ B x q O U'). unfold val. assert (I' : In x (map fst ls)) by (rewrite (bh_spine _ _ _ B); apply key_spine, (owner_key _ _ O)). destruct (assoc_there _ _ I') as (v & ->). reflexivity.
    - exact (bh_final _ _ _ B).
  Qed.
  Lemma now_touched ls N q : behind ls -> In q N -> (exists c, assoc q lib_program = Some c /\ is_interface (q, c) = false) -> (forall q', In q' N -> In q' (map fst lib_program)) -> ~ untouched q (over_spine (turn N (val ls))).
  Proof. intros B I (c & A & F) H. unfold untouched. rewrite (assoc_spine _ _ (mark_spine q c A F)), (turn_mark N _ q (in_names _ _ A) H). apply is_in_iff in I. rewrite I. discriminate. Qed.
  Lemma seen_at ls N D : behind ls -> (forall q, In q N -> untouched q ls) -> (forall q, In q D -> assoc (mark q) ls = Some (JB true)) -> forall x, In x spine -> val ls x = seen N D (val ls) x.
  Proof.
    intros B HN HD x Ix. unfold seen. destruct (is_in x (map mark N)) eqn:M1.
    { apply is_in_iff, in_map_iff in M1. destruct M1 as (q & <- & I). unfold val. now rewrite (HN q I). }
    destruct (is_in x (map mark D)) eqn:M2. { apply is_in_iff, in_map_iff in M2. destruct M2 as (q & <- & I). unfold val. now rewrite (HD q I). }
    destruct (owner lib_program x) as [q|] eqn:O; [|reflexivity]. destruct (_ || _) eqn:T; [|reflexivity].
    assert (V : ~ untouched q ls /\ In q final_classes).
    { apply orb_true_iff in T. destruct T as [T|T]; [apply andb_true_iff in T; destruct T as [T1 T2]|]; apply String.eqb_eq in T + apply String.eqb_eq in T2; subst q; (split; [|cbn; auto]).
      - unfold untouched. rewrite (HD type_place) by now apply is_in_iff. discriminate.
      - unfold untouched. rewrite assoc_not_in; [discriminate|]. rewrite (bh_spine _ _ _ B). intros Z. apply is_in_iff in Z. revert Z. vm_compute. discriminate. }
    unfold val. rewrite (bh_same _ _ _ B x q O (proj1 V)), (bh_final _ _ _ B x q O (proj2 V)), (after_key x (owner_key _ _ O)). reflexivity.
  Qed.
  Lemma seen_val ls N D : behind ls -> (forall q, In q N -> untouched q ls) -> (forall q, In q D -> assoc (mark q) ls = Some (JB true)) -> ls = over_spine (seen N D (val ls)).
  Proof. intros B HN HD. etransitivity; [exact (spine_of ls (bh_spine _ _ _ B))|]. apply over_ext. exact (seen_at ls N D B HN HD). Qed.
  Definition state h b L ls := {| s_h := h; s_b := b; s_loc := L; s_stat := ls |}.
  Lemma inits_ok q N D pr k d n h b L ls : inits q N D -> (304 <= k)%nat -> behind ls -> In q N -> (forall q', In q' N -> In q' (registry_class :: sse_place :: alone) /\ untouched q' ls) -> (forall q', In q' D -> assoc (mark q') ls = Some (JB true)) ->
    exists ls', touches lib_program pr k d (S (S (S n))) q (state h b L ls) = Ret tt (state h b L ls') /\ (behind ls' /\ later ls ls') /\ ~ untouched q ls'.
  Proof.
    intros IN K B I HN HD. assert (CL : forall q', In q' N -> exists c, assoc q' lib_program = Some c /\ is_interface (q', c) = false).
    { intros q' J. pose proof names_there as T. rewrite forallb_forall in T. specialize (T q' (proj1 (HN q' J))). destruct (assoc q' lib_program) as [c|]; [|discriminate]. exists c. split; [reflexivity|]. now apply negb_true_iff. }
    assert (H : forall q', In q' N -> In q' (map fst lib_program)) by (intros q' J; destruct (CL q' J) as (c & A & _); eapply in_names; eauto).
    exists (over_spine (turn N (val ls))). split.
    - transitivity (touches lib_program pr (304 + (k - 304)) d (S (S (S n))) q (state h b L (over_spine (seen N D (val ls))))).
      { replace (304 + (k - 304))%nat with k by lia. rewrite <- (seen_val ls N D B (fun q' J => proj2 (HN q' J)) HD). reflexivity. }
      unfold state. rewrite (IN pr (k - 304)%nat d n h b L (val ls)). do 2 f_equal. apply over_ext. intros x Ix. pose proof (seen_at ls N D B (fun q' J => proj2 (HN q' J)) HD x Ix) as Q. unfold turn. rewrite <- Q. reflexivity.
    - split; [apply turned; [exact B|intros q' J; split; [apply CL, J|apply HN, J]]|apply now_touched; auto].
  Qed.
  (* a class without static fields and initialisers *)
  Lemma over_nothing {A} (f : A -> st -> res unit) l s : (forall x s, In x l -> f x s = Ret tt s) -> over f l s = Ret tt s.
  Proof. induction l as [|x l IH]; intros H; [reflexivity|]. cbn [over]. rewrite (H x s) by (left; reflexivity). cbn [bind]. apply IH. intros y s' I. apply H. right. exact I. Qed.
  Lemma inert_init pr vc to k q c s : inert (q, c) = true -> is_interface (q, c) = false -> linit_class lib_program pr vc to k (q, c) s = Ret tt s.
  Proof.
    intros I F. unfold inert in I. cbn [snd] in I. apply andb_true_iff in I. destruct I as [I1 I3]. apply andb_true_iff in I1. destruct I1 as [I1 I2]. apply negb_true_iff in I1, I3. unfold is_interface in F. cbn [snd] in F.
    unfold linit_class. rewrite I1. cbn [bind]. apply over_nothing. intros m s' J. destruct m as [mods t x [e|]| | | |]; try reflexivity.
    - destruct (is_static mods || String.eqb (kind_of c) "interface") eqn:Q; [|reflexivity]. exfalso. unfold stat_names in I2. assert (Z : In (q ++ "." ++ x)%string []).
      { destruct (flat_map _ (members c)) as [|a r] eqn:Y in I2; [|discriminate I2]. rewrite <- Y. apply in_flat_map. exists (MField mods t x (Some e)). split; [exact J|]. rewrite Q. left. reflexivity. }
      destruct Z.
    - exfalso. assert (Z : existsb (fun m => match m with MStatic _ => true | _ => false end) (members c) = true) by (apply existsb_exists; eexists; split; [exact J|reflexivity]). congruence.
  Qed.
  Lemma inert_ok q c pr k d n h b L ls : assoc q lib_program = Some c -> is_interface (q, c) = false -> inert (q, c) = true -> behind ls -> untouched q ls ->
    exists ls', touches lib_program pr k d (S n) q (state h b L ls) = Ret tt (state h b L ls') /\ (behind ls' /\ later ls ls') /\ ~ untouched q ls'.
  Proof.
    intros A F I B U. exists (over_spine (turn [q] (val ls))). assert (H : forall q', In q' [q] -> In q' (map fst lib_program)) by (intros q' [<-|[]]; eapply in_names; eauto). split; [|split].
    - cbn [touches]. unfold state at 1. cbn [s_stat]. rewrite U, A. rewrite inert_init by assumption. unfold put_stat, set_stat, state. cbn [s_h s_b s_loc s_stat]. do 2 f_equal.
      rewrite (spine_of ls (bh_spine _ _ _ B)) at 1. unfold over_spine at 1. rewrite put_map by exact spine_nodup. apply over_ext. intros x Ix. destruct (String.eqb_spec x (mark q)) as [->|N].
      + rewrite turn_mark; [|eapply in_names; eauto|exact H]. cbn. rewrite String.eqb_refl. reflexivity.
      + unfold turn. assert (M : is_in x (map mark [q]) = false) by (cbn; apply String.eqb_neq in N; rewrite N; reflexivity). rewrite M. destruct (owner lib_program x) as [q'|] eqn:O; [|reflexivity].
        destruct (is_in q' [q]) eqn:Z; [|reflexivity]. exfalso. apply is_in_iff in Z. destruct Z as [<-|[]]. destruct (owner_inv x q O) as (c' & A' & J). rewrite A in A'. injection A' as <-.
        unfold inert in I. apply andb_true_iff in I. destruct I as [I _]. apply andb_true_iff in I. destruct I as [_ I]. destruct (stat_names (q, c)); [destruct J|discriminate I].
    - apply turned; [exact B|]. intros q' [<-|[]]. split; [eauto|exact U].
    - apply now_touched; [exact B|left; reflexivity|eauto|exact H].
  Qed.

  Theorem touch_ok pr k d n q h b L ls : (304 <= k)%nat -> behind ls ->
    exists ls', touches lib_program pr k d (S (S (S n))) q (state h b L ls) = Ret tt (state h b L ls') /\ (behind ls' /\ later ls ls') /\ (assoc q lib_program <> None -> ~ untouched q ls').
  Proof.
    intros K B. assert (LT : later ls ls) by (intros q' c' _ U; exact U). destruct (assoc q lib_program) as [c|] eqn:A.
    2: { exists ls. split; [|split; [auto|congruence]]. cbn [touches]. rewrite A. destruct (assoc (mark q) _) as [[]|]; reflexivity. }
    assert (DN : ~ untouched q ls -> touches lib_program pr k d (S (S (S n))) q (state h b L ls) = Ret tt (state h b L ls)).
    { intros U. unfold untouched in U. cbn [touches]. unfold state at 1. cbn [s_stat]. destruct (assoc (mark q) ls) as [[]|]; try reflexivity. congruence. }
    destruct (is_interface (q, c)) eqn:F.
    { exists ls. assert (U : ~ untouched q ls). { unfold untouched. rewrite assoc_not_in; [discriminate|]. rewrite (bh_spine _ _ _ B). eapply interface_mark; eauto. } auto. }
    destruct (bh_marks _ _ _ B q c A F) as [U|T].
    2: { exists ls. assert (U : ~ untouched q ls) by (unfold untouched; rewrite T; discriminate). auto. }
    pose proof classes_known as CK. rewrite forallb_forall in CK. specialize (CK _ (assoc_in _ _ _ A)). cbv beta in CK. rewrite F, orb_false_l in CK. apply orb_true_iff in CK. destruct CK as [I|I].
    { destruct (inert_ok q c pr k d (S (S n)) h b L ls A F I B U) as (ls' & E & B' & U'). eauto 6. }
    assert (Fin : (exists ls', touches lib_program pr k d (S (S (S n))) q (state h b L ls) = Ret tt (state h b L ls') /\ (behind ls' /\ later ls ls') /\ ~ untouched q ls') -> exists ls', touches lib_program pr k d (S (S (S n))) q (state h b L ls) = Ret tt (state h b L ls') /\ (behind ls' /\ later ls ls') /\ (Some c <> None -> ~ untouched q ls')).
    { intros (ls' & E & B' & U'). eauto 6. }
    apply Fin. clear Fin DN. assert (MK : forall q', In q' (registry_class :: sse_place :: alone) -> untouched q' ls \/ assoc (mark q') ls = Some (JB true)).
    { intros q' J. pose proof names_there as NT. rewrite forallb_forall in NT. specialize (NT q' J). destruct (assoc q' lib_program) as [c'|] eqn:A'; [|discriminate]. apply negb_true_iff in NT. exact (bh_marks _ _ _ B q' c' A' NT). }
    cbn [fst] in I. apply is_in_iff in I. destruct I as [<-|[<-|I]].
    - assert (I0 : In registry_class (registry_class :: sse_place :: alone)) by (left; reflexivity). assert (I1 : In crc16_class (registry_class :: sse_place :: alone)) by (cbn; tauto). assert (I2 : In crc32_class (registry_class :: sse_place :: alone)) by (cbn; tauto).
      destruct (MK _ I1) as [U1|U1], (MK _ I2) as [U2|U2].
      + apply (inits_ok _ _ _ pr k d n h b L ls init_registry0 K B); [left; reflexivity| |]; cbn [In]; intuition (subst; auto).
      + apply (inits_ok _ _ _ pr k d n h b L ls init_registry1 K B); [left; reflexivity| |]; cbn [In]; intuition (subst; auto).
      + apply (inits_ok _ _ _ pr k d n h b L ls init_registry2 K B); [left; reflexivity| |]; cbn [In]; intuition (subst; auto).
      + apply (inits_ok _ _ _ pr k d n h b L ls init_registry3 K B); [left; reflexivity| |]; cbn [In]; intuition (subst; auto).
    - assert (I1 : In type_place (registry_class :: sse_place :: alone)) by (cbn; tauto). destruct (MK _ I1) as [U1|U1].
      + apply (inits_ok _ _ _ pr k d n h b L ls init_sse0 K B); [left; reflexivity| |]; cbn [In]; intuition (subst; auto).
      + apply (inits_ok _ _ _ pr k d n h b L ls init_sse1 K B); [left; reflexivity| |]; cbn [In]; intuition (subst; auto).
    - pose proof init_alone as IA. rewrite Forall_forall in IA. apply (inits_ok _ _ _ pr k d n h b L ls (IA q I) K B); [left; reflexivity| |intros q' []]. intros q' [<-|[]]. split; [right; right; exact I|exact U].
  Qed.
End Touch.

(* ---------- before anything ran ---------- *)
Lemma untouched_checked : forallb (fun qc => is_interface qc || match assoc (mark (fst qc)) (all_untouched lib_program) with Some JVoid => true | _ => false end) lib_program = true. Proof. vm_compute. reflexivity. Qed.
Lemma start_untouched q c : assoc q lib_program = Some c -> is_interface (q, c) = false -> untouched q (all_untouched lib_program).
Proof.
  intros A F. pose proof (check _ _ _ untouched_checked (assoc_in _ _ _ A)) as Q. cbv beta in Q. rewrite F, orb_false_l in Q. cbn [fst] in Q. unfold untouched. destruct (assoc (mark q) (all_untouched lib_program)) as [[]|]; discriminate Q || reflexivity.
Qed.
Definition ready : list string := filter (fun x => match owner lib_program x with Some q => match assoc q lib_program with Some c => is_interface (q, c) | None => false end | None => false end) (stat_keys lib_program).
Lemma ready_checked : map (fun x => assoc x (all_untouched lib_program)) ready = map (fun x => assoc x after_start) ready. Proof. vm_compute. reflexivity. Qed.
Lemma map_eq {A B} (f g : A -> B) l x : map f l = map g l -> In x l -> f x = g x.
Proof. induction l as [|y l IH]; intros E []; injection E as E1 E2; [congruence|auto]. Qed.
Lemma start_behind : behind after_start after_start (all_untouched lib_program).
Proof.
  split.
  - unfold after_start. rewrite map_map. cbn [fst]. apply map_id.
  - reflexivity.
  - intros q c A F. left. eapply start_untouched; eauto.
  - reflexivity.
  - intros x q O U. destruct (owner_inv x q O) as (c & A & _). destruct (is_interface (q, c)) eqn:F; [|destruct U; eapply start_untouched; eauto].
    apply (map_eq _ _ ready x ready_checked). unfold ready. apply filter_In. split; [exact (owner_key _ _ O)|]. rewrite O, A. exact F.
  - reflexivity.
Qed.
