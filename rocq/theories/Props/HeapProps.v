(* C56-C61: messages as objects that refer to each other. *)
From Coq Require Import ZArith List Bool String Lia.
From Verif.Model Require Import JavaPrim ByteBuf Utf8 Codec Ast Interp Library Show Heap.
From Verif.Spec Require Import Bytes Buffers Wire Reading Layouts Equality Text Sharing.
From Verif.Proofs Require Import HeapFacts HeapReach HeapOwn HeapDecode HeapEq HeapCycle HeapCheck EqualFacts TextFacts.
From Verif.Props Require Import Samples MessageProps EqualProps TextProps.
Import ListNotations.
Open Scope Z_scope.

(* ---- the classes of the library ---- *)
Fixpoint distinct (l : list string) : bool := match l with [] => true | x :: r => negb (mem x r) && distinct r end.
Lemma distinct_nodup l : distinct l = true -> NoDup l.
Proof.
  induction l as [|x l IH]; cbn; intros H; constructor; apply andb_true_iff in H; destruct H as [H1 H2]; auto.
  intros I. apply mem_in in I. rewrite I in H1. discriminate.
Qed.
Definition well_behaved (cd : class_def) : bool :=
  tidy cd && separate cd && forallb (fun ft => flat_type (snd ft)) (c_fields cd) && distinct (map fst (c_fields cd)) && enters_all cd
  && match c_hash cd with HashSelf => match c_fields cd with [] => true | _ => false end | HashFields names => listed names cd end
  && listed (map snd (c_str cd)) cd.
Lemma library_well_behaved : forall c cd, assoc c lib_classes = Some cd -> well_behaved cd = true.
Proof. apply all_classes_ok. vm_compute. reflexivity. Qed.
Section Lib.
  Variable E : env.
  Hypothesis HE : classes E = lib_classes.
  Lemma behaves c cd : find_class E c = Some cd -> well_behaved cd = true.
  Proof. unfold find_class. rewrite HE. apply library_well_behaved. Qed.
  Lemma lib_tidy : forall c cd, find_class E c = Some cd -> tidy cd = true.
  Proof. intros c cd H. apply behaves in H. unfold well_behaved in H. rewrite !andb_true_iff in H. tauto. Qed.
  Lemma lib_separate : forall c cd, find_class E c = Some cd -> separate cd = true.
  Proof. intros c cd H. apply behaves in H. unfold well_behaved in H. rewrite !andb_true_iff in H. tauto. Qed.
  Lemma lib_flat : forall c cd, find_class E c = Some cd -> forallb (fun ft => flat_type (snd ft)) (c_fields cd) = true.
  Proof. intros c cd H. apply behaves in H. unfold well_behaved in H. rewrite !andb_true_iff in H. tauto. Qed.
  Lemma lib_nodup : forall c cd, find_class E c = Some cd -> NoDup (map fst (c_fields cd)).
  Proof. intros c cd H. apply behaves in H. unfold well_behaved in H. rewrite !andb_true_iff in H. apply distinct_nodup. tauto. Qed.
  Lemma lib_enters : forall c cd, find_class E c = Some cd -> enters_all cd = true.
  Proof. intros c cd H. apply behaves in H. unfold well_behaved in H. rewrite !andb_true_iff in H. tauto. Qed.
  Lemma lib_hash : forall c cd, find_class E c = Some cd -> match c_hash cd with HashSelf => c_fields cd = [] | HashFields names => listed names cd = true end.
  Proof. intros c cd H. apply behaves in H. unfold well_behaved in H. rewrite !andb_true_iff in H. destruct (c_hash cd); [destruct (c_fields cd)|]; tauto || (exfalso; intuition discriminate). Qed.
  Lemma lib_str : forall c cd, find_class E c = Some cd -> listed (map snd (c_str cd)) cd = true.
  Proof. intros c cd H. apply behaves in H. unfold well_behaved in H. rewrite !andb_true_iff in H. tauto. Qed.
End Lib.
(* what encode assigns are the length and checksum fields of the layout *)
Definition computes (L : layout) (f : string) : bool := match find f L with Some (WLen _ _) | Some (WSum _ _ _) => true | _ => false end.
Lemma library_computes : forall E c f, classes E = lib_classes -> In f (replaced E c) -> computed Y c f.
Proof.
  intros E c f HE I. unfold replaced, find_class in I. rewrite HE in I. destruct (assoc c lib_classes) as [cd|] eqn:A; [|contradiction].
  apply in_map_iff in I. destruct I as (p & <- & I). apply filter_In in I. destruct I as [I _].
  assert (Q : forallb (fun ccd => match find (fst ccd) Y with Some L => forallb (fun p => computes L (fst p)) (assigned_by (c_enc (snd ccd))) | None => false end) lib_classes = true) by (vm_compute; reflexivity).
  rewrite forallb_forall in Q. specialize (Q (c, cd)). cbn [fst snd] in Q. assert (IN : In (c, cd) lib_classes).
  { clear - A. revert A. generalize lib_classes. induction l as [|[k a] l IH]; cbn [assoc]; intros A; [discriminate|]. destruct (String.eqb_spec c k) as [->|]; [injection A as ->; left; auto|right; auto]. }
  specialize (Q IN). destruct (find c Y) as [L|] eqn:FL; [|discriminate]. rewrite forallb_forall in Q. specialize (Q p I). unfold computes in Q.
  destruct (find (fst p) L) as [w|] eqn:FW; [|discriminate]. exists L, w. split; auto. split; auto. destruct w; try discriminate; exact Logic.I.
Qed.
Lemma evolves_touched E k k' : classes E = lib_classes -> cell_evolves E k k' -> touched Y k k'.
Proof.
  intros HE H. destruct k as [c fs|vs], k' as [c' gs|ws]; cbn in *; try contradiction; [|congruence]. destruct H as [-> H]. split; auto. 
  assert (K : forall f, In f (replaced E c) -> computed Y c f) by (intros f; apply library_computes; exact HE).
  induction H as [|f v fs gs H IH|f v z fs gs If H IH]; [split; auto; intros [|i] f v w A B; discriminate| |]; destruct IH as [IH1 IH2]; (split; [cbn; congruence|]);
    intros [|i] g x w A B; cbn in A, B; eauto.
  - injection A as <- <-. injection B as <-. auto.
  - injection A as <- <-. injection B as <-. right. split; [auto|eauto].
Qed.

(* ---- C56: sharing is invisible to encode ---- *)
Theorem C56_encode_unfolds : forall E d h v t b, classes E = lib_classes -> shows h v t ->
  fst (fst (hencode E d h v b)) = fst (fst (encode E d t b)) /\ snd (hencode E d h v b) = snd (encode E d t b).
Proof.
  intros E d h v t b HE S. pose proof (sim_encode E (lib_tidy E HE) d h v t b (proj1 (shows_near E h) v t S)) as H.
  destruct (hencode E d h v b) as [[e h1] b1]. destruct (encode E d t b) as [[e2 t1] b2]. destruct H as (-> & -> & _). auto.
Qed.
(* a message and a copy of it, whatever they share inside, give the same bytes *)
Theorem C56_copies_agree : forall E d h h' v v' t b, classes E = lib_classes -> shows h v t -> shows h' v' t ->
  fst (fst (hencode E d h v b)) = fst (fst (hencode E d h' v' b)) /\ snd (hencode E d h v b) = snd (hencode E d h' v' b).
Proof.
  intros E d h h' v v' t b HE S S'. destruct (C56_encode_unfolds E d h v t b HE S) as [-> ->]. destruct (C56_encode_unfolds E d h' v' t b HE S') as [-> ->]. auto.
Qed.
(* without sharing the object itself is also left as Interp.v says *)
Theorem C56_unshared_exact : forall E d h v t b fp, owns h v t fp ->
  let '(e, h1, b1) := hencode E d h v b in let '(e2, t1, b2) := encode E d t b in
  e = e2 /\ b1 = b2 /\ exists fp1, owns h1 v t1 fp1.
Proof.
  intros E d h v t b fp O. pose proof (own_encode E d h v t b fp O) as H. destruct (hencode E d h v b) as [[e h1] b1]. destruct (encode E d t b) as [[e2 t1] b2].
  destruct H as (H1 & H2 & fp1 & H3 & _). eauto.
Qed.

(* ---- C57: what encode changes in any object graph, cycles included ---- *)
Theorem C57_encode_frame : forall E d h v b, classes E = lib_classes ->
  let h1 := snd (fst (hencode E d h v b)) in
  List.length h1 = List.length h
  /\ forall l k k', nth_error h l = Some k -> nth_error h1 l = Some k' -> touched Y k k' /\ (~ reach h v l -> k' = k).
Proof.
  intros E d h v b HE h1. pose proof (framing_encode E (lib_separate E HE) d (reach h v) h v b (fun l R => R)) as F. fold h1 in F. destruct F as [V F].
  assert (LE : List.length h1 = List.length h).
  { destruct (Nat.lt_trichotomy (List.length h1) (List.length h)) as [L|[L|L]]; auto.
    - pose proof (V (List.length h1)) as K. destruct (nth_error h (List.length h1)) eqn:A; [|apply nth_error_None in A; lia].
      destruct (nth_error h1 (List.length h1)) eqn:B; [|contradiction]. apply nth_lt in B. lia.
    - pose proof (V (List.length h)) as K. destruct (nth_error h1 (List.length h)) eqn:A; [|apply nth_error_None in A; lia].
      destruct (nth_error h (List.length h)) eqn:B; [|contradiction]. apply nth_lt in B. lia. }
  split; auto. intros l k k' Hk Hk'. split.
  - pose proof (V l) as K. rewrite Hk, Hk' in K. eapply evolves_touched; eauto.
  - intros N. specialize (F l N). congruence.
Qed.

(* ---- C58: decode ---- *)
Definition unchanged (h h1 : heap) (fp : list nat) : Prop :=
  (List.length h <= List.length h1)%nat /\ forall l, (l < List.length h)%nat -> ~ In l fp -> nth_error h1 l = nth_error h l.
(* into an object none of whose parts is shared: as into a tree; nothing else changes; what it consists of afterwards was its own or is new *)
Theorem C58_decode_unshared : forall E d h v t b fp, owns h v t fp ->
  let '(e, h1, b1) := hdecode E d h v b in let '(e2, t1, b2) := decode E d t b in
  e = e2 /\ b1 = b2 /\ unchanged h h1 fp /\ exists fp1, owns h1 v t1 fp1 /\ forall l, In l fp1 -> In l fp \/ (List.length h <= l)%nat.
Proof.
  intros E d h v t b fp O. pose proof (own_decode E d h v t b fp O) as H. destruct (hdecode E d h v b) as [[e h1] b1]. destruct (decode E d t b) as [[e2 t1] b2].
  destruct H as (H1 & H2 & fp1 & H3 & G1 & G2 & G3). split; auto. split; auto. split; [split; auto|]. eauto.
Qed.
(* into a new object: every object and list of the result is new, so two decoded messages have nothing in common *)
Theorem C58_decode_fresh : forall E d h c b,
  let '(h0, v) := hnew E h c in
  let '(e, h1, b1) := hdecode E d h0 v b in let '(e2, t1, b2) := decode E d (new_obj E c) b in
  e = e2 /\ b1 = b2 /\ unchanged h h1 [] /\ exists fp1, owns h1 v t1 fp1 /\ forall l, In l fp1 -> (List.length h <= l)%nat.
Proof.
  intros E d h c b. pose proof (own_new E h c) as N. destruct (hnew E h c) as [h0 v]. destruct N as (B & O & G).
  pose proof (own_decode E d h0 v _ b B O) as H. destruct (hdecode E d h0 v b) as [[e h1] b1]. destruct (decode E d (new_obj E c) b) as [[e2 t1] b2].
  destruct H as (H1 & H2 & fp1 & H3 & G2). destruct (grew_trans _ _ _ _ _ _ G G2) as (L & S & F). split; auto. split; auto. split; [split; auto|].
  exists fp1. split; auto. intros l Hl. destruct (F l Hl) as [[]|]; auto.
Qed.

(* ---- C59: decoding into an object whose parts are shared shows through the other references ---- *)
Definition fields_of (c : string) (sets : list (string * hval)) : list (string * hval) :=
  match hnew lib_env [] c with
  | ([CObj _ fs], _) => fold_left (fun fs s => hset (fst s) (snd s) fs) sets fs
  | _ => []
  end.
Definition obj (c : string) (sets : list (string * hval)) : cell := CObj c (fields_of c sets).
(* a NestedPacket whose list holds its subPacket *)
Definition h_alias : heap :=
  [ obj "sample.SubPacket" [("fieldU32", HInt 1)]; CList [HRef 0; HRef 0]; obj "sample.NestedPacket.InerPacket" [];
    obj "sample.NestedPacket" [("subPacket", HRef 0); ("subPacketList", HRef 1); ("inerPacket", HRef 2)];
    obj "sample.RootPacket" [("msgType", HInt 3); ("payload", HRef 3)] ]%string.
Definition incoming : bytebuf := snd (encode lib_env 3 (build "sample.NestedPacket" [("subPacket", s_sub 9); ("inerPacket", build "sample.NestedPacket.InerPacket" [])]%string) empty_buf).
Definition seen (n : nat) (h : heap) (v : hval) : val := match view h n v with Some t => t | None => VNull end.
Theorem C59_decode_unfolds_refuted : exists h v t b h1 t1 t1' b1,
  heap_ok lib_classes h /\ fits h v (TObj "sample.NestedPacket") /\ shows h v t
  /\ hdecode lib_env 3 h v b = (None, h1, b1) /\ decode lib_env 3 t b = (None, t1, b1) /\ shows h1 v t1' /\ t1' <> t1.
Proof.
  exists h_alias, (HRef 3), (seen 9 h_alias (HRef 3)), incoming, (snd (fst (hdecode lib_env 3 h_alias (HRef 3) incoming))),
    (snd (fst (decode lib_env 3 (seen 9 h_alias (HRef 3)) incoming))), (seen 9 (snd (fst (hdecode lib_env 3 h_alias (HRef 3) incoming))) (HRef 3)), (snd (decode lib_env 3 (seen 9 h_alias (HRef 3)) incoming)).
  split; [apply cells_ok; vm_compute; reflexivity|]. split; [apply fitsb_fits; vm_compute; reflexivity|]. split; [apply (view_shows _ 9); vm_compute; reflexivity|].
  split; [vm_compute; reflexivity|]. split; [vm_compute; reflexivity|]. split; [apply (view_shows _ 9); vm_compute; reflexivity|]. vm_compute. discriminate.
Qed.

(* ---- C60: cycles ---- *)
(* an object stands for a tree, or contains itself somewhere; not both *)
Theorem C60_tree_or_cycle : forall h l c fs, heap_ok lib_classes h -> nth_error h l = Some (CObj c fs) ->
  ((exists t, shows h (HRef l) t) \/ cyclic h l) /\ ~ ((exists t, shows h (HRef l) t) /\ cyclic h l).
Proof.
  intros h l c fs OK Hl. split.
  - apply (shows_or_cyclic lib_env (lib_flat lib_env eq_refl) h OK l c fs Hl).
  - intros [(t & S) Cy]. exact (shows_not_cyclic h l t S Cy).
Qed.
(* encode, hashCode and toString never return on a message with a cycle, however large the stack *)
Theorem C60_cycle_never_returns : forall E P d h l b, classes E = lib_classes -> heap_ok lib_classes h -> cyclic h l ->
  fst (fst (hencode E d h (HRef l) b)) <> None /\ hhash E d h (HRef l) = None /\ hstring E P d h (HRef l) = None.
Proof.
  intros E P d h l b HE OK Cy. rewrite <- HE in OK. destruct (cyclic_chain h l d Cy) as (m & Ch). split; [|split].
  - intros H. pose proof (chain_descends E (lib_flat E HE) (lib_nodup E HE) h OK (lib_enters E HE) d l m Ch) as D.
    pose proof (encode_bounds_depth E (lib_separate E HE) d h l b d H D). lia.
  - destruct (hhash E d h (HRef l)) as [k|] eqn:H; auto. pose proof (hash_bounds E (lib_flat E HE) (lib_nodup E HE) h OK (lib_hash E HE) d d l m k Ch H). lia.
  - destruct (hstring E P d h (HRef l)) as [k|] eqn:H; auto. pose proof (show_bounds E (lib_flat E HE) (lib_nodup E HE) h OK P (lib_str E HE) d d l m k Ch H). lia.
Qed.
(* more precisely: they need a frame for every object of a chain *)
Theorem C60_frames_needed : forall E P d h l m n b, classes E = lib_classes -> heap_ok lib_classes h -> chain h n l m ->
  (fst (fst (hencode E d h (HRef l) b)) = None -> (n < d)%nat)
  /\ (hhash E d h (HRef l) <> None -> (n < d)%nat) /\ (hstring E P d h (HRef l) <> None -> (n < d)%nat).
Proof.
  intros E P d h l m n b HE OK Ch. rewrite <- HE in OK. split; [|split].
  - intros H. pose proof (chain_descends E (lib_flat E HE) (lib_nodup E HE) h OK (lib_enters E HE) n l m Ch) as D.
    exact (encode_bounds_depth E (lib_separate E HE) d h l b n H D).
  - intros H. destruct (hhash E d h (HRef l)) as [k|] eqn:K; [|contradiction]. exact (hash_bounds E (lib_flat E HE) (lib_nodup E HE) h OK (lib_hash E HE) d n l m k Ch K).
  - intros H. destruct (hstring E P d h (HRef l)) as [k|] eqn:K; [|contradiction]. exact (show_bounds E (lib_flat E HE) (lib_nodup E HE) h OK P (lib_str E HE) d n l m k Ch K).
Qed.
(* a RootPacket that is its own payload, and another one *)
Definition h_cycle : heap := [ obj "sample.RootPacket" [("payload", HRef 0)]; obj "sample.RootPacket" [("payload", HRef 1)] ]%string.
(* equals of two different such objects overflows every stack *)
Theorem C60_equals_returns_refuted : exists h a b, heap_ok lib_classes h /\ fits h a (TObj "sample.RootPacket") /\ fits h b (TObj "sample.RootPacket")
  /\ forall d, hequals lib_env d h a b = None.
Proof.
  exists h_cycle, (HRef 0), (HRef 1). split; [apply cells_ok; vm_compute; reflexivity|]. split; [apply fitsb_fits; vm_compute; reflexivity|]. split; [apply fitsb_fits; vm_compute; reflexivity|].
  induction d as [|d IH]; [reflexivity|]. change (heq_fields (hequals lib_env d h_cycle) h_cycle (match find_class lib_env "sample.RootPacket" with Some cd => c_fields cd | None => [] end)
    ["msgType"; "payloadLen"; "payload"; "checksum"]%string (fields_of "sample.RootPacket" [("payload", HRef 0)]%string) (fields_of "sample.RootPacket" [("payload", HRef 1)]%string) = None).
  remember (hequals lib_env d h_cycle) as q. vm_compute. rewrite IH. reflexivity.
Qed.

(* ---- C61: equals, hashCode and toString on shared objects ---- *)
Lemma fits_object E h v t c : classes E = lib_classes -> heap_ok lib_classes h -> fits h v (TObj c) -> v <> HNull -> shows h v t -> object_of E c t = true.
Proof.
  intros HE OK F N S. rewrite <- HE in OK. unfold object_of. rewrite (proj1 (fits_typed E h OK) v t S _ F), andb_true_r. destruct S; auto; contradiction.
Qed.
Theorem C61_hash_and_text_unfold : forall E P d h v t c, classes E = lib_classes -> heap_ok lib_classes h -> fits h v (TObj c) -> shows h v t ->
  hhash E d h v = jhash E d t /\ hstring E P d h v = jstring_of E P d t.
Proof.
  intros E P d h v t c HE OK F S. assert (OK' : heap_ok (classes E) h) by (rewrite HE; exact OK).
  assert (FB : flatb t = true) by (apply (proj1 (typed_flat E (lib_flat E HE) h) v t S (TObj c) eq_refl); exact (proj1 (fits_typed E h OK') v t S _ F)).
  split; [apply hash_agree|apply show_agree]; auto.
Qed.
(* equals compares what the references stand for: the shortcuts for identical references change nothing, except that they may save stack *)
Theorem C61_equals_unfolds : forall E d h a b t u c c', classes E = lib_classes -> heap_ok lib_classes h -> fits h a (TObj c) -> fits h b (TObj c') -> shows h a t -> shows h b u ->
  a <> HNull -> b <> HNull -> (nesting t <= d)%nat ->
  exists r, hequals E d h a b = Some r /\ (r = true <-> one_nan Y t (WObj c) = one_nan Y u (WObj c')).
Proof.
  intros E d h a b t u c c' HE OK Fa Fb Sa Sb Na Nb Hn. assert (OK' : heap_ok (classes E) h) by (rewrite HE; exact OK).
  assert (FA : flatb t = true) by (apply (proj1 (typed_flat E (lib_flat E HE) h) a t Sa (TObj c) eq_refl); exact (proj1 (fits_typed E h OK') a t Sa _ Fa)).
  assert (FB : flatb u = true) by (apply (proj1 (typed_flat E (lib_flat E HE) h) b u Sb (TObj c') eq_refl); exact (proj1 (fits_typed E h OK') b u Sb _ Fb)).
  destruct (C40_equals_iff E d c c' t u HE (fits_object E h a t c HE OK Fa Na Sa) (fits_object E h b u c' HE OK Fb Nb Sb) Hn) as (r & R & Q).
  exists r. split; auto. exact (equals_follow E h d a b t u r Sa Sb FA FB R).
Qed.
(* an object equals itself, even one that contains itself *)
Theorem C61_equals_itself : forall E d h l c, fits h (HRef l) (TObj c) -> hequals E (S d) h (HRef l) (HRef l) = Some true.
Proof. intros E d h l c (fs & Hl). cbn [hequals]. rewrite Hl, Nat.eqb_refl. reflexivity. Qed.

(* ---- examples ---- *)
Definition h_two : heap := [ obj "sample.SubPacket" [("fieldU32", HInt 1)]; obj "sample.SubPacket" [("fieldU32", HInt 1)]; CList [HRef 0; HRef 1]; obj "sample.NestedPacket.InerPacket" [];
    obj "sample.SubPacket" [("fieldU32", HInt 1)]; obj "sample.NestedPacket" [("subPacket", HRef 4); ("subPacketList", HRef 2); ("inerPacket", HRef 3)]; CList [HRef 0] ]%string.
Example C56_meets : heap_ok lib_classes h_alias /\ shows h_alias (HRef 4) (seen 9 h_alias (HRef 4)) /\ fst (fst (encode lib_env 3 (seen 9 h_alias (HRef 4)) used_buf)) = None
  (* a graph with sharing and one without that stand for the same tree *)
  /\ shows h_alias (HRef 3) (seen 9 h_alias (HRef 3)) /\ shows h_two (HRef 5) (seen 9 h_alias (HRef 3)) /\ owns h_two (HRef 5) (seen 9 h_alias (HRef 3)) [5; 4; 2; 0; 1; 3]%nat
  /\ snd (hencode lib_env 2 h_alias (HRef 3) used_buf) = snd (hencode lib_env 2 h_two (HRef 5) used_buf)
  /\ widx (snd (hencode lib_env 2 h_alias (HRef 3) used_buf)) = 29%nat.
Proof.
  split; [apply cells_ok; vm_compute; reflexivity|]. split; [apply (view_shows _ 9); vm_compute; reflexivity|]. split; [vm_compute; reflexivity|].
  split; [apply (view_shows _ 9); vm_compute; reflexivity|]. split; [apply (view_shows _ 9); vm_compute; reflexivity|].
  split; [apply (owned_owns _ 9); vm_compute; reflexivity|]. split; vm_compute; reflexivity.
Qed.
Example C57_meets : let h1 := snd (fst (hencode lib_env 3 h_alias (HRef 4) used_buf)) in
  nth_error h1 4 <> nth_error h_alias 4 /\ nth_error h1 3 = nth_error h_alias 3 /\ ~ reach h_two (HRef 5) 6.
Proof.
  split; [vm_compute; discriminate|]. split; [vm_compute; reflexivity|].
  assert (A : forall v m, reach h_two v m -> m = 6%nat -> v = HRef 6 \/ exists l, v = HRef l /\ (7 <= l)%nat).
  { intros v m R. induction R as [l|l c fs f v m Hl I R IH|l vs v m Hl I R IH]; intros ->; auto.
    - do 7 (destruct l; [exfalso; vm_compute in Hl; try discriminate Hl; injection Hl as <- <-; cbn in I;
        repeat (destruct I as [I|I]; [injection I as <- <-; destruct (IH eq_refl) as [K|(j & K & J)]; try discriminate K; injection K as <-; lia|]); contradiction|]).
      right. exists (7 + l)%nat. split; [reflexivity|lia].
    - do 7 (destruct l; [exfalso; vm_compute in Hl; try discriminate Hl; injection Hl as <-; cbn in I;
        repeat (destruct I as [I|I]; [subst v; destruct (IH eq_refl) as [K|(j & K & J)]; try discriminate K; injection K as <-; lia|]); contradiction|]).
      right. exists (7 + l)%nat. split; [reflexivity|lia]. }
  intros R. destruct (A _ _ R eq_refl) as [K|(l & K & J)]; [discriminate K|]. injection K as <-. lia.
Qed.
Example C58_meets : owns h_two (HRef 5) (seen 9 h_two (HRef 5)) [5; 4; 2; 0; 1; 3]%nat
  /\ fst (fst (hdecode lib_env 3 h_two (HRef 5) incoming)) = None
  /\ seen 9 (snd (fst (hdecode lib_env 3 h_two (HRef 5) incoming))) (HRef 5) <> seen 9 h_two (HRef 5)
  /\ fst (fst (hdecode lib_env 3 (fst (hnew lib_env h_alias "sample.NestedPacket")) (snd (hnew lib_env h_alias "sample.NestedPacket")) incoming)) = None.
Proof. split; [apply (owned_owns _ 9); vm_compute; reflexivity|]. split; [vm_compute; reflexivity|]. split; [vm_compute; discriminate|]. vm_compute. reflexivity. Qed.
Example C60_meets : heap_ok lib_classes h_cycle /\ cyclic h_cycle 0 /\ nth_error h_alias 4 = Some (obj "sample.RootPacket" [("msgType", HInt 3); ("payload", HRef 3)]%string)
  /\ chain h_alias 2 4 0 /\ fst (fst (hencode lib_env 3 h_alias (HRef 4) used_buf)) = None.
Proof.
  assert (P0 : part h_cycle 0 0) by (unfold part; do 6 eexists; split; [vm_compute; reflexivity|]; split; [right; right; left; reflexivity|]; split; [vm_compute; reflexivity|left; reflexivity]).
  split; [apply cells_ok; vm_compute; reflexivity|]. split; [exists 0%nat, 0%nat, 0%nat; split; [constructor|econstructor; [exact P0|constructor]]|]. split; [reflexivity|]. split; [|vm_compute; reflexivity].
  apply chain_down with 3%nat; [|apply chain_down with 0%nat; [|constructor]].
  - unfold part; do 6 eexists; split; [vm_compute; reflexivity|]; split; [right; right; left; reflexivity|]; split; [vm_compute; reflexivity|left; reflexivity].
  - unfold part; do 6 eexists; split; [vm_compute; reflexivity|]; split; [right; left; reflexivity|]; split; [vm_compute; reflexivity|].
    right. do 2 eexists. split; [reflexivity|]. split; [vm_compute; reflexivity|left; reflexivity].
Qed.
Example C61_meets : heap_ok lib_classes h_two /\ fits h_two (HRef 5) (TObj "sample.NestedPacket") /\ shows h_two (HRef 5) (seen 9 h_two (HRef 5)) /\ (nesting (seen 9 h_two (HRef 5)) <= 2)%nat
  /\ (exists k, hhash lib_env 2 h_two (HRef 5) = Some k) /\ hequals lib_env 2 h_two (HRef 0) (HRef 1) = Some true /\ hequals lib_env 2 h_two (HRef 0) (HRef 5) = Some false
  /\ fits h_cycle (HRef 0) (TObj "sample.RootPacket").
Proof.
  split; [apply cells_ok; vm_compute; reflexivity|]. split; [apply fitsb_fits; vm_compute; reflexivity|]. split; [apply (view_shows _ 9); vm_compute; reflexivity|].
  split; [vm_compute; lia|]. split; [eexists; vm_compute; reflexivity|]. split; [vm_compute; reflexivity|]. split; [vm_compute; reflexivity|]. apply fitsb_fits. vm_compute. reflexivity.
Qed.

Print Assumptions C56_encode_unfolds.
Print Assumptions C56_copies_agree.
Print Assumptions C56_unshared_exact.
Print Assumptions C57_encode_frame.
Print Assumptions C58_decode_unshared.
Print Assumptions C58_decode_fresh.
Print Assumptions C59_decode_unfolds_refuted.
Print Assumptions C60_tree_or_cycle.
Print Assumptions C60_cycle_never_returns.
Print Assumptions C60_frames_needed.
Print Assumptions C60_equals_returns_refuted.
Print Assumptions C61_hash_and_text_unfold.
Print Assumptions C61_equals_unfolds.
Print Assumptions C61_equals_itself.
