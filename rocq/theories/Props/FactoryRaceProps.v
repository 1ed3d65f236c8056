(* C99: decode while other threads register and remove message types. *)
From Coq Require Import ZArith List Bool String Lia.
From Verif.Model Require Import JavaPrim ByteBuf Utf8 Codec Checksum Ast Interp Factory Library Heap EncodeThreads DecodeThreads FactoryRace.
From Verif.Spec Require Import Bytes Buffers Wire Layouts Sharing Worlds.
From Verif.Proofs Require Import HeapFacts HeapCheck DecodeThreadFacts SeenFacts FactoryRaceFacts DecodeEnds.
From Verif.Props Require Import Samples HeapProps.
Import ListNotations.
Open Scope Z_scope.
Open Scope list_scope.

Notation world W R := (env_of lib_classes W R).

(* ---- the classes of the library ---- *)
Lemma library_good : forall c cd, assoc c lib_classes = Some cd -> gooddec (Q lib_classes) (c_fields cd) (c_dec cd) = true.
Proof.
  intros c cd K. assert (X : forallb (fun x => gooddec (Q lib_classes) (c_fields (snd x)) (c_dec (snd x))) lib_classes = true) by (vm_compute; reflexivity).
  rewrite forallb_forall in X. apply (X (c, cd)). apply assoc_in. exact K.
Qed.
Lemma typed_T h : heap_ok lib_classes h -> T lib_classes h.
Proof.
  intros OK p cn cd f c m K A I F. unfold kind_at in K. unfold Heap.field in F. destruct (nth_error h p) as [[c0 fs|]|] eqn:N; try discriminate. injection K as ->. destruct (OK p cn fs N) as (cd' & A' & FF). rewrite A in A'. injection A' as <-.
  unfold is_obj in I. clear N A OK. induction FF as [|[g v] [g' ty] fs fts [E X] FF IH]; cbn [assoc] in *; [discriminate|]. cbn [fst snd] in E, X. subst g'. cbn [hget] in F. destruct (String.eqb f g).
  - destruct ty; try discriminate I. injection I as ->. subst v. cbn in X. destruct X as (gs & X). unfold kind_at. rewrite X. reflexivity.
  - apply IH; auto.
Qed.

(* ---- C99 ---- *)
(* decode does what it does alone, with a state of every factory that there was at one of its turns *)
Theorem C99_one_state_each : forall R rank sched W h l d b W1 h1 t1 e, heap_ok lib_classes h -> (forall V, In V (worlds sched W) -> layered rank V) ->
  decode_run lib_classes R sched W h (denter (world W R) h (HRef l) [] d b) = (W1, h1, t1) -> dended t1 = Some e ->
  exists W', patched (seen_worlds sched W) W' /\ hdecode (world W' R) d h (HRef l) b = (e, h1, src t1).
Proof.
  intros R rank sched W h l d b W1 h1 t1 e OK LA D EN. set (t0 := denter (world W R) h (HRef l) [] d b) in *.
  assert (I : inv lib_classes rank h t0 []).
  { subst t0. unfold denter. destruct d as [|d]; [left; discriminate|]. destruct (nth_error h l) as [[c fs|vs]|] eqn:N; try (left; discriminate). unfold find_class. cbn [classes env_of]. destruct (assoc c lib_classes) as [cd|] eqn:A; [|left; discriminate].
    right. split; [apply typed_T; exact OK|]. left. exists [], [DBody l c (c_dec cd)]. split; [reflexivity|]. split; [constructor|]. right. exists l, c, (c_dec cd), [], cd. split; [reflexivity|]. split; [unfold kind_at; rewrite N; reflexivity|].
    split; [exact A|]. split; [eapply library_good; eauto|]. split; [constructor|]. intros o []. }
  destruct (asked_once lib_classes R library_good rank sched W h t0 [] I LA) as [ND _]. set (As := asked lib_classes R sched W h t0) in *. assert (NE : exists V0, In V0 (seen_worlds sched W)) by (unfold seen_worlds; destruct (worlds sched W) as [|V Vs]; [exists W|exists V]; left; reflexivity). destruct NE as (V0 & I0). exists (patch As V0). split.
  - apply patch_patched; [exact I0|]. intros o V X. apply asked_worlds in X. unfold seen_worlds. destruct (worlds sched W); [destruct X|exact X].
  - pose proof (follow lib_classes R (patch As V0) sched W h t0 W1 h1 t1 (fun o V X => patch_in V0 As o V ND X) D) as S. apply (alone_result lib_classes R (patch As V0) (turns sched) d h (HRef l) b h1 t1 e); [exact S|exact EN].
Qed.
(* it ends, after a number of its own turns that depends on nothing but the size of the stack *)
Theorem C99_ends : forall d, exists n, forall R sched W h v b W1 h1 t1, (n <= List.length (worlds sched W))%nat ->
  decode_run lib_classes R sched W h (denter (world W R) h v [] d b) = (W1, h1, t1) -> dended t1 <> None.
Proof.
  intros d. exists (K lib_classes d + 1)%nat. intros R sched W h v b W1 h1 t1 N D. apply (weight_zero lib_classes). pose proof (run_weight lib_classes R sched W h _ W1 h1 t1 D) as X.
  pose proof (enter_weight lib_classes R W h v [] d b) as Y0. cbn [ws] in Y0. lia.
Qed.
(* a factory nobody changes: the state of it in W' is the one at the start *)
Lemma on_other : forall W o o' f, o' <> o -> same_factory (on_factory W o' f) W o.
Proof.
  induction W as [|[o1 m] W IH]; intros o o' f N k; [reflexivity|]. cbn [on_factory]. unfold lookup_factory. destruct (String.eqb_spec o' o1) as [->|]; cbn [assoc]; [destruct (String.eqb_spec o o1); [congruence|reflexivity]|].
  destruct (String.eqb o o1); [reflexivity|]. apply (IH o o' f N k).
Qed.
Lemma worlds_leave : forall sched W o V, Forall (leaves o) sched -> In V (worlds sched W) -> same_factory V W o.
Proof.
  induction sched as [|x sched IH]; intros W o V F I; [destruct I|]. inversion F as [|? ? F1 F2]; subst.
  assert (S : same_factory (changed x W) W o) by (destruct x; cbn in *; [intros k; reflexivity|apply on_other; exact F1..]). destruct x as [|o' k c|o' k]; cbn [worlds] in I.
  - destruct I as [<-|I]; [intros k; reflexivity|]. eapply IH; eauto.
  - intros kk. rewrite (IH _ o V F2 I kk). apply S.
  - intros kk. rewrite (IH _ o V F2 I kk). apply S.
Qed.
Theorem C99_others_unchanged : forall sched W W' o, patched (seen_worlds sched W) W' -> Forall (leaves o) sched -> same_factory W' W o.
Proof.
  intros sched W W' o P F. destruct (P o) as (V & I & S). assert (J : V = W \/ In V (worlds sched W)) by (unfold seen_worlds in I; destruct (worlds sched W); [destruct I as [<-|[]]; auto|auto]). destruct J as [->|J]; [exact S|]. intros k. rewrite (S k). apply (worlds_leave sched W o V F J).
Qed.

(* ---- not one state of all factories ---- *)
Definition order : val := build "szse.SzseBinary" [("msgType", VInt 100101); ("body", build "szse.NewOrder" [("applId", str "010"); ("applExtend", build "szse.Extend100101" [])])]%string.
Definition order_bytes : bytebuf := snd (encode lib_env 4 order empty_buf).
Definition frame_heap : heap := [obj "szse.SzseBinary" []]%string.
Definition no_010 : factories := on_factory lib_factories "szse.NewOrder" (fun m => snd (unregister m (KStr (chars "010")))).
Definition swap : list fturn := repeat FMine 3 ++ [FRem "szse.SzseBinary" (KInt 100101); FReg "szse.NewOrder" (KStr (chars "010")) "szse.Extend100101"] ++ repeat FMine 40.
Definition lib_rank (c : string) : nat :=
  match assoc c lib_classes with
  | Some cd => if existsb (fun s => negb (noask s)) (c_dec cd) then if existsb (String.eqb c) ["sample.RootPacket"; "risk.RcBinary"; "sse.SseBinary"; "szse.SzseBinary"; "bjse.BjseBinary"]%string then 2 else 1 else 0
  | None => 0
  end.
Definition layeredb (W : factories) : bool := forallb (fun om => forallb (fun kc => Nat.ltb (lib_rank (snd kc)) (lib_rank (fst om))) (snd om)) W.
Lemma layered_check W : layeredb W = true -> layered lib_rank W.
Proof.
  intros H o k c L. unfold lookup_factory in L. destruct (assoc o W) as [m|] eqn:A; [|discriminate]. apply assoc_in in A. unfold layeredb in H. rewrite forallb_forall in H. specialize (H _ A). cbn [fst snd] in H. rewrite forallb_forall in H.
  assert (I : exists k', In (k', c) m) by (clear - L; induction m as [|[k1 c1] m IH]; cbn in L; [discriminate|]; destruct (key_eqb k k1) eqn:Q in L; [injection L as ->; exists k1; left; reflexivity|]; destruct (IH L) as (k' & I); exists k'; right; exact I).
  destruct I as (k' & I). specialize (H _ I). apply PeanoNat.Nat.ltb_lt in H. exact H.
Qed.
Theorem C99_one_moment_refuted : exists R rank sched W h l d b W1 h1 t1, heap_ok lib_classes h /\ (forall V, In V (worlds sched W) -> layered rank V)
  /\ decode_run lib_classes R sched W h (denter (world W R) h (HRef l) [] d b) = (W1, h1, t1) /\ dended t1 = Some None
  /\ forall V, In V (W :: W1 :: worlds sched W) -> fst (fst (hdecode (world V R) d h (HRef l) b)) = Some IAE.
Proof.
  exists initial_cache, lib_rank, swap, no_010, frame_heap, 0%nat, 4%nat, order_bytes. eexists _, _, _. split; [apply cells_ok; vm_compute; reflexivity|]. split.
  { intros V I. apply layered_check. assert (X : forallb layeredb (worlds swap no_010) = true) by (vm_compute; reflexivity). rewrite forallb_forall in X. apply X. exact I. }
  split; [vm_compute; reflexivity|]. split; [reflexivity|]. intros V I.
  assert (X : forallb (fun V => match fst (fst (hdecode (world V initial_cache) 4 frame_heap (HRef 0) order_bytes)) with Some IAE => true | _ => false end) (no_010 :: changed (FReg "szse.NewOrder" (KStr (chars "010")) "szse.Extend100101") (changed (FRem "szse.SzseBinary" (KInt 100101)) no_010) :: worlds swap no_010) = true) by (vm_compute; reflexivity).
  rewrite forallb_forall in X. specialize (X V I). cbv beta in X. destruct (fst (fst (hdecode (world V initial_cache) 4 frame_heap (HRef 0) order_bytes))) as [[]|]; try discriminate X. reflexivity.
Qed.
(* and not one state of each if a frame may be in a frame of its own class: the first question creates a RootPacket, the second something else *)
Definition nested_bytes : bytebuf := wrap_bytes [9; 0; 0; 0; 0; 0; 9; 0; 0; 0; 0; 0; 1; 2; 3; 4; 5; 6; 7; 8].
Definition root_heap : heap := [obj "sample.RootPacket" []]%string.
Definition with_9 (c : string) : factories := on_factory lib_factories "sample.RootPacket" (fun m => register m (KInt 9) c).
Definition again : list fturn := repeat FMine 3 ++ [FReg "sample.RootPacket" (KInt 9) "sample.EmptyPacket"] ++ repeat FMine 20.
Lemma only_root W' V n h1 t1 e : same_factory W' V "sample.RootPacket" -> forallb (fun oV => String.eqb (fst oV) "sample.RootPacket") (asked lib_classes initial_cache (repeat FMine n) V root_heap (denter (world V initial_cache) root_heap (HRef 0) [] 4 nested_bytes)) = true ->
  decode_run lib_classes initial_cache (repeat FMine n) V root_heap (denter (world V initial_cache) root_heap (HRef 0) [] 4 nested_bytes) = (V, h1, t1) -> dended t1 = Some e ->
  hdecode (world W' initial_cache) 4 root_heap (HRef 0) nested_bytes = (e, h1, src t1).
Proof.
  intros S A D EN. eapply alone_result; [|exact EN]. apply (follow lib_classes initial_cache W' (repeat FMine n) V root_heap _ V h1 t1); [|exact D]. intros o U I. rewrite forallb_forall in A. pose proof (A _ I) as O. apply String.eqb_eq in O. cbn [fst] in O. subst o.
  enough (U = V) by (subst; exact S). apply asked_worlds in I. clear - I. revert I. induction n as [|n IH]; cbn [repeat worlds]; [intros []|]. intros [<-|I]; auto.
Qed.
Theorem C99_layered_needed_refuted : exists R sched W h l d b W1 h1 t1 e, heap_ok lib_classes h
  /\ decode_run lib_classes R sched W h (denter (world W R) h (HRef l) [] d b) = (W1, h1, t1) /\ dended t1 = Some e
  /\ forall W', patched (W :: W1 :: worlds sched W) W' -> hdecode (world W' R) d h (HRef l) b <> (e, h1, src t1).
Proof.
  exists initial_cache, again, (with_9 "sample.RootPacket"), root_heap, 0%nat, 4%nat, nested_bytes. eexists _, _, _, _. split; [apply cells_ok; vm_compute; reflexivity|]. split; [vm_compute; reflexivity|]. split; [reflexivity|].
  intros W' P. destruct (P "sample.RootPacket"%string) as (V & I & S).
  assert (D : same_factory W' (with_9 "sample.RootPacket") "sample.RootPacket" \/ same_factory W' (changed (FReg "sample.RootPacket" (KInt 9) "sample.EmptyPacket") (with_9 "sample.RootPacket")) "sample.RootPacket").
  { unfold again in I. cbn [repeat app worlds In] in I. repeat (destruct I as [<-|I]; [auto|]). destruct I. }
  clear V I S P. destruct D as [S|S]; (erewrite (only_root W' _ 30 _ _ _ S); [|vm_compute; reflexivity|vm_compute; reflexivity|reflexivity]); vm_compute; discriminate.
Qed.

(* the library's own factories are layered, and so are they after the calls of the example; a message with an object part is typed *)
Example C99_meets : layered lib_rank lib_factories /\ heap_ok lib_classes frame_heap /\ List.length (worlds swap no_010) = 43%nat
  /\ fst (fst (hdecode (world lib_factories initial_cache) 4 frame_heap (HRef 0) order_bytes)) = None
  /\ Forall (leaves "bjse.BjseBinary") swap /\ ~ same_factory no_010 lib_factories "szse.NewOrder"
  /\ (let '(_, h', t') := decode_run lib_classes initial_cache swap no_010 frame_heap (denter (world no_010 initial_cache) frame_heap (HRef 0) [] 4 order_bytes) in
      dended t' = Some None /\ Heap.field h' 0 "msgType" = HInt 100101 /\ widx (src t') = ridx (src t') /\ List.length h' = 3%nat).
Proof.
  split; [apply layered_check; vm_compute; reflexivity|]. split; [apply cells_ok; vm_compute; reflexivity|]. split; [vm_compute; reflexivity|]. split; [vm_compute; reflexivity|].
  split; [repeat (constructor; [cbn; first [exact Logic.I|discriminate]|]); constructor|]. split; [intros S; specialize (S (KStr (chars "010"))); vm_compute in S; discriminate|]. vm_compute. repeat split.
Qed.

Print Assumptions C99_one_state_each.
Print Assumptions C99_ends.
Print Assumptions C99_others_unchanged.
Print Assumptions C99_one_moment_refuted.
Print Assumptions C99_layered_needed_refuted.
