(* C98: encode while other threads register and remove checksum services. *)
From Coq Require Import ZArith List Bool String Lia.
From Verif.Model Require Import JavaPrim ByteBuf Utf8 Codec Checksum Ast Interp Factory Library Heap EncodeThreads Threads RegistryThreads.
From Verif.Spec Require Import Bytes Buffers Wire Layouts LayoutSample Sharing Together Private Registries.
From Verif.Proofs Require Import HeapFacts HeapFrame SameBytes EncodeThreadFacts EncodeSteps EncodeRace EncodeEnds RegistryFacts RegistryRace.
From Verif.Props Require Import Samples MessageProps HeapProps EncodeThreadProps.
Import ListNotations.
Open Scope Z_scope.
Open Scope list_scope.

Notation world := (env_of lib_classes).

(* ---- the classes of the library ---- *)
Fixpoint lateb (L : layout) (ss : list estmt) : bool :=
  match ss with
  | [] => true
  | ESum a _ :: r => existsb (fun fw => match snd fw with WSum _ _ a' => String.eqb a' a | _ => false end) L && forallb simple r
  | _ :: r => lateb L r
  end.
Lemma library_late : forall E c cd, classes E = lib_classes -> find_class E c = Some cd -> late (checksummed Y c) (c_enc cd).
Proof.
  intros E c cd HE K. assert (Q : forallb (fun ccd => match find (fst ccd) Y with Some L => lateb L (c_enc (snd ccd)) | None => false end) lib_classes = true) by (vm_compute; reflexivity).
  rewrite forallb_forall in Q. specialize (Q (c, cd)). cbn [fst snd] in Q. unfold find_class in K. rewrite HE in K. assert (IN : In (c, cd) lib_classes).
  { clear - K. revert K. generalize lib_classes. induction l as [|[k a] l IH]; cbn [assoc]; intros A; [discriminate|]. destruct (String.eqb_spec c k) as [->|]; [injection A as ->; left; auto|right; auto]. }
  specialize (Q IN). destruct (find c Y) as [L|] eqn:FL; [|discriminate]. revert Q. generalize (c_enc cd). induction l as [|s ss IH]; cbn [lateb late]; [auto|].
  destruct s; cbn [lateb late]; auto. rewrite andb_true_iff. intros [X S]. split; [|exact S]. apply existsb_exists in X. destruct X as ((g & w) & I & M). cbn in M. destruct w; try discriminate. apply String.eqb_eq in M. subst. exists L, g, n, o. auto.
Qed.
Lemma begin_before E h l d b cs : classes E = lib_classes -> (forall c fs, nth_error h l = Some (CObj c fs) -> c = cs) -> before h l (checksummed Y cs) (begin E h (HRef l) d b).
Proof.
  intros HE HC. unfold begin, enter, before. cbn [room out]. destruct d as [|d]; [left; reflexivity|]. destruct (nth_error h l) as [[c fs|vs]|] eqn:Q; try (left; reflexivity). destruct (find_class E c) as [cd|] eqn:K; [|left; reflexivity].
  right. exists [], (c_enc cd), []. split; [reflexivity|]. split; [constructor|]. rewrite <- (HC c fs eq_refl). eapply library_late; eauto.
Qed.
Definition kind (h : heap) (l : nat) : string := match nth_error h l with Some (CObj c _) => c | _ => EmptyString end.
Lemma kind_is h l c fs : nth_error h l = Some (CObj c fs) -> c = kind h l.
Proof. unfold kind. intros ->. reflexivity. Qed.
Lemma outcome_begin E h v d b : outcome E h (begin E h v d b) = hencode E d h v b.
Proof. unfold begin. rewrite outcome_enter. cbn [room out]. destruct (hencode E d h v b) as [[[e|] g] y]; reflexivity. Qed.
Lemma begin_any W c c' h v d b : begin (world W c) h v d b = begin (world W c') h v d b.
Proof. reflexivity. Qed.

(* ---- C98 ---- *)
(* the thread that encodes sees one state of the registry, one that there was at one of its turns, and does to buffer and objects what encode alone does with it *)
Theorem C98_one_registry : forall W sched c0 ts h l d b c' ts' h' t' e, plain_below Y h l ->
  mixed_run lib_classes W sched c0 ts h (begin (world W c0) h (HRef l) d b) = (c', ts', h', t') -> ended t' = Some e ->
  exists c, In c (seen_registries sched c0 ts) /\ hencode (world W c) d h (HRef l) b = (e, h', out t').
Proof.
  intros W sched c0 ts h l d b c' ts' h' t' e P R EN.
  assert (CP : calm_parts (world W c0) h l) by (apply plain_calm; [reflexivity|exact P]).
  set (v0 := fun (r : option exn * heap * bytebuf) (c : cache) => r = hencode (world W c) d h (HRef l) b).
  assert (S : stage lib_classes W h l (checksummed Y (kind h l)) v0 (seen_registries sched c0 ts) h (begin (world W c0) h (HRef l) d b)).
  { left. split; [apply tidy0|]. split; [apply begin_before; [reflexivity|intros c fs Q; eapply kind_is; eauto]|]. intros c. unfold v0. rewrite (begin_any W c0 c). apply outcome_begin. }
  assert (SR : incl (registries sched c0 ts) (seen_registries sched c0 ts)) by (unfold seen_registries; destruct (registries sched c0 ts); [intros x []|intros x; auto]).
  assert (S' := stage_run lib_classes W c0 h l CP (checksummed Y (kind h l)) v0 sched (seen_registries sched c0 ts) c0 ts h _ c' ts' h' t' S SR R).
  destruct S' as [(_ & _ & O)|(_ & c & I & O)].
  - assert (NE : exists c, In c (seen_registries sched c0 ts)) by (unfold seen_registries; destruct (registries sched c0 ts) as [|x xs]; [exists c0|exists x]; left; reflexivity).
    destruct NE as (c & I). exists c. split; [exact I|]. specialize (O c). unfold v0, outcome in O. rewrite EN in O. symmetry. exact O.
  - exists c. split; [exact I|]. specialize (O c0). unfold v0, outcome in O. rewrite EN in O. symmetry. exact O.
Qed.
(* it ends, whatever the others do: after a number of its own turns *)
Theorem C98_ends : forall W h v d b, exists n, forall sched c0 ts c' ts' h' t', (n <= List.length (registries sched c0 ts))%nat ->
  mixed_run lib_classes W sched c0 ts h (begin (world W c0) h v d b) = (c', ts', h', t') -> ended t' <> None.
Proof.
  intros W h v d b. exists (weight (world W []) h (begin (world W []) h v d b)). intros sched c0 ts c' ts' h' t' N R. eapply mixed_ends; [exact R| |exact N]. apply le_n.
Qed.

(* ---- threads that do not concern a service ---- *)
Definition away (alg : string) (t : thread) : Prop := (forall o, In o (todo t) -> ~ touches alg o) /\ (forall s, mid t = Some s -> algorithm s <> alg).
Lemma away_step alg c t c' t' : away alg t -> thread_step c t = (c', t') -> away alg t' /\ get_service c' alg = get_service c alg.
Proof.
  intros [A1 A2] S. unfold thread_step in S. unfold get_service. destruct (mid t) as [s|] eqn:M.
  - injection S as <- <-. split; [split; [exact A1|discriminate]|]. rewrite get_put. destruct (String.eqb_spec (algorithm s) alg) as [Q|]; [|reflexivity]. destruct (A2 s eq_refl Q).
  - destruct (todo t) as [|o r] eqn:T; [injection S as <- <-; split; [split; [rewrite T; exact A1|rewrite M; discriminate]|reflexivity]|].
    assert (Ar : forall o, In o r -> ~ touches alg o) by (intros x I; apply A1; right; exact I). pose proof (A1 o (or_introl eq_refl)) as Ao. destruct o as [s|n| |n]; cbn in Ao.
    + destruct (cache_get c (algorithm s)); injection S as <- <-; (split; [split; [exact Ar|]|reflexivity]); cbn; [discriminate|]. intros x X. injection X as <-. exact Ao.
    + injection S as <- <-. split; [split; [exact Ar|discriminate]|]. unfold remove_service. rewrite get_remove. destruct (String.eqb_spec n alg) as [Q|]; [destruct (Ao Q)|reflexivity].
    + destruct (Ao Logic.I).
    + injection S as <- <-. split; [split; [exact Ar|discriminate]|reflexivity].
Qed.
Lemma away_steps alg : forall ts i c c' ts', Forall (away alg) ts -> step i c ts = (c', ts') -> Forall (away alg) ts' /\ get_service c' alg = get_service c alg.
Proof.
  induction ts as [|t ts IH]; intros i c c' ts' F S; [destruct i; injection S as <- <-; auto|]. inversion F as [|? ? F1 F2]; subst. destruct i as [|i]; cbn [step] in S.
  - destruct (thread_step c t) as [d u] eqn:TS. injection S as <- <-. destruct (away_step alg c t d u F1 TS) as [X Y0]. split; [constructor; auto|exact Y0].
  - destruct (step i c ts) as [d us] eqn:TS. injection S as <- <-. destruct (IH i c d us F2 TS) as [X Y0]. split; [constructor; auto|exact Y0].
Qed.
Lemma away_registries alg : forall sched c ts x, Forall (away alg) ts -> In x (registries sched c ts) -> get_service x alg = get_service c alg.
Proof.
  induction sched as [|[|i] sched IH]; intros c ts x F I; cbn [registries] in I; [destruct I| |].
  - destruct I as [<-|I]; [reflexivity|]. eapply IH; eauto.
  - destruct (step i c ts) as [d us] eqn:S. cbn [fst snd] in I. destruct (away_steps alg ts i c d us F S) as [F' G]. rewrite <- G. eapply IH; eauto.
Qed.
(* calls about other services change nothing: ps, what the other threads call *)
Theorem C98_unconcerned : forall W sched c0 ps h l d b c' ts' h' t' e, plain_below Y h l ->
  (forall c fs alg p o, nth_error h l = Some (CObj c fs) -> checksummed Y c alg -> In p ps -> In o p -> ~ touches alg o) ->
  mixed_run lib_classes W sched c0 (map start ps) h (begin (world W c0) h (HRef l) d b) = (c', ts', h', t') -> ended t' = Some e ->
  hencode (world W c0) d h (HRef l) b = (e, h', out t').
Proof.
  intros W sched c0 ps h l d b c' ts' h' t' e P AW R EN.
  assert (CP : calm_parts (world W c0) h l) by (apply plain_calm; [reflexivity|exact P]).
  set (P0 := fun alg => (exists c fs, nth_error h l = Some (CObj c fs)) /\ checksummed Y (kind h l) alg).
  assert (B : before h l P0 (begin (world W c0) h (HRef l) d b)).
  { destruct (begin_before (world W c0) h l d b (kind h l) eq_refl (fun c fs Q => kind_is h l c fs Q)) as [X|(k & ss & loc & X & F & L)]; [left; exact X|right]. exists k, ss, loc. split; [exact X|]. split; [exact F|].
    assert (EX : exists c fs, nth_error h l = Some (CObj c fs)).
    { unfold begin, enter in X. cbn [room] in X. destruct d; [destruct k; discriminate X|]. destruct (nth_error h l) as [[c fs|vs]|] eqn:Q; [eauto|destruct k; discriminate X..]. }
    clear - L EX. induction ss as [|s ss IH]; cbn [late] in *; [exact L|]. destruct s; auto. destruct L as [L1 L2]. split; [split; auto|exact L2]. }
  assert (O : outcome (world W c0) h' t' = outcome (world W c0) h (begin (world W c0) h (HRef l) d b)).
  { apply (same_run lib_classes W c0 h l CP P0 sched c0 (map start ps) h _ c' ts' h' t'); [left; split; [apply tidy0|exact B]| |exact R].
    intros x a I ((c & fs & Q) & CS). apply (away_registries a sched c0 (map start ps)); [|exact I]. apply Forall_forall. intros t It. apply in_map_iff in It. destruct It as (p & <- & Ip). split; [|discriminate].
    intros o Io. rewrite <- (kind_is h l c fs Q) in CS. apply (AW c fs a p o Q CS Ip Io). }
  rewrite outcome_begin in O. unfold outcome in O. rewrite EN in O. symmetry. exact O.
Qed.

(* neither the registry at the start nor the one at the end need be the one seen: a service registered and removed while encode runs *)
Definition seven : service := {| algorithm := "CRC32"; calc := fun _ => 7 |}.
Definition short_lived : list turn := repeat Mine 20 ++ [Theirs 0; Theirs 0] ++ repeat Mine 30 ++ [Theirs 0].
Theorem C98_start_or_end_refuted : exists sched c0 ps h l d b c' ts' h' t', plain_below Y h l
  /\ mixed_run lib_classes lib_factories sched c0 (map start ps) h (begin (world lib_factories c0) h (HRef l) d b) = (c', ts', h', t') /\ ended t' = Some None
  /\ hencode (world lib_factories c0) d h (HRef l) b <> (None, h', out t') /\ hencode (world lib_factories c') d h (HRef l) b <> (None, h', out t').
Proof.
  exists short_lived, [], [[CReg seven; CRem "CRC32"]], h_alias, 4%nat, 3%nat, empty_buf. eexists _, _, _, _.
  split; [apply (plainb_plain _ _ [0; 1; 2; 3]%nat); vm_compute; reflexivity|]. split; [vm_compute; reflexivity|]. split; [reflexivity|]. split; vm_compute; discriminate.
Qed.
(* a frame inside a frame: each of the two asks the registry, and they may see different ones *)
Definition h_inside : heap := h_alias ++ [obj "sample.RootPacket" [("msgType", HInt 1); ("payload", HRef 4)]]%string.
Theorem C98_frame_in_frame_refuted : exists sched c0 ps h l d b c' ts' h' t',
  mixed_run lib_classes lib_factories sched c0 (map start ps) h (begin (world lib_factories c0) h (HRef l) d b) = (c', ts', h', t') /\ ended t' = Some None
  /\ forall c, In c (c0 :: c' :: registries sched c0 (map start ps)) -> hencode (world lib_factories c) d h (HRef l) b <> (None, h', out t').
Proof.
  exists (repeat Mine 34 ++ [Theirs 0; Theirs 0] ++ repeat Mine 10), [], [[CReg seven]], h_inside, 5%nat, 4%nat, empty_buf. eexists _, _, _, _.
  split; [vm_compute; reflexivity|]. split; [reflexivity|]. intros c I. assert (D : c = [] \/ c = [("CRC32"%string, seven)]).
  { vm_compute in I. repeat (destruct I as [<-|I]; [auto|]). contradiction. }
  destruct D as [->| ->]; vm_compute; discriminate.
Qed.

(* the schedule above: the registry at the turns of encode is empty, then not; and a thread that changes another service *)
Example C98_meets : plain_below Y h_alias 4 /\ checksummed Y "sample.RootPacket" "CRC32"
  /\ List.length (registries short_lived [] [start [CReg seven; CRem "CRC32"]]) = 50%nat
  /\ (forall p o, In p [[CReg {| algorithm := "CRC16"; calc := fun _ => 7 |}; CRem "SSE_BIN"]] -> In o p -> ~ touches "CRC32" o)
  /\ (let '(_, _, h', t') := mixed_run lib_classes lib_factories short_lived [] [start [CReg seven; CRem "CRC32"]] h_alias (begin (world lib_factories []) h_alias (HRef 4) 3 empty_buf) in
      ended t' = Some None /\ Heap.field h' 4 "checksum" = HInt 7)
  /\ (let '(_, _, h', t') := mixed_run lib_classes lib_factories short_lived [] [start [CReg {| algorithm := "CRC16"; calc := fun _ => 7 |}; CRem "SSE_BIN"]] h_alias (begin (world lib_factories []) h_alias (HRef 4) 3 empty_buf) in
      ended t' = Some None /\ Heap.field h' 4 "checksum" = HInt 0).
Proof.
  split; [apply (plainb_plain _ _ [0; 1; 2; 3]%nat); vm_compute; reflexivity|].
  split; [exists sample_RootPacket_layout, "checksum"%string, 4%nat, LE; split; [vm_compute; reflexivity|]; right; right; right; left; reflexivity|].
  split; [reflexivity|]. split; [intros p o [<-|[]] [<-|[<-|[]]]; cbn; discriminate|]. split; vm_compute; split; reflexivity.
Qed.

Print Assumptions C98_one_registry.
Print Assumptions C98_ends.
Print Assumptions C98_unconcerned.
Print Assumptions C98_start_or_end_refuted.
Print Assumptions C98_frame_in_frame_refuted.
