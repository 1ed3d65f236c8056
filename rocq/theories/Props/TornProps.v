(* C94: encode while other threads call setters of the message. *)
From Coq Require Import ZArith List Bool String Lia.
From Verif.Model Require Import JavaPrim ByteBuf Utf8 Codec Ast Interp Library Heap EncodeThreads SetterThreads.
From Verif.Spec Require Import Bytes Buffers Wire Layouts LayoutSample Sharing Together Torn.
From Verif.Proofs Require Import HeapFacts HeapFrame HeapCycle HeapCheck EncodeThreadFacts EncodeSteps EncodeRace EncodeEnds TornFacts.
From Verif.Props Require Import Samples MessageProps HeapProps EncodeThreadProps.
Import ListNotations.
Open Scope Z_scope.

Notation Y := lib_layouts.

(* ---- the classes of the library ---- *)
Fixpoint apart (l : list string) : bool := match l with [] => true | x :: r => negb (mem x r) && apart r end.
Lemma apart_nodup l : apart l = true -> NoDup l.
Proof. induction l as [|x l IH]; cbn; [constructor|]. rewrite andb_true_iff, negb_true_iff, mem_out. intros [A B]. constructor; auto. Qed.
Definition two_reads (L : layout) (s : estmt) : bool :=
  match s with
  | EDyn f zn _ n _ => Nat.eqb zn n && match find f L with Some (WDyn _ _) => true | _ => false end
  | EObjOpt f => match find f L with Some (WBody _) => true | _ => false end
  | _ => true
  end.
Definition tearable (ccd : string * class_def) : bool :=
  match find (fst ccd) Y with
  | Some L => once (targets (c_enc (snd ccd))) (c_enc (snd ccd)) && forallb (computes L) (targets (c_enc (snd ccd))) && apart (map fst (c_fields (snd ccd))) && forallb (two_reads L) (c_enc (snd ccd))
  | None => false
  end.
Lemma library_tearable : forall c cd, assoc c lib_classes = Some cd -> exists L, find c Y = Some L
  /\ once (targets (c_enc cd)) (c_enc cd) = true /\ forallb (computes L) (targets (c_enc cd)) = true /\ NoDup (map fst (c_fields cd)) /\ forallb (two_reads L) (c_enc cd) = true.
Proof.
  intros c cd K. assert (Q : forallb tearable lib_classes = true) by (vm_compute; reflexivity). rewrite forallb_forall in Q. specialize (Q (c, cd)). unfold tearable in Q. cbn [fst snd] in Q.
  assert (IN : In (c, cd) lib_classes).
  { clear - K. revert K. generalize lib_classes. induction l as [|[k a] l IH]; cbn [assoc]; intros A; [discriminate|]. destruct (String.eqb_spec c k) as [->|]; [injection A as ->; left; auto|right; auto]. }
  specialize (Q IN). destruct (find c Y) as [L|]; [|discriminate]. rewrite !andb_true_iff in Q. destruct Q as [[[Q1 Q2] Q3] Q4]. exists L. split; [reflexivity|]. split; [exact Q1|]. split; [exact Q2|]. split; [now apply apart_nodup|exact Q4].
Qed.
Lemma computed_tg E c f : classes E = lib_classes -> In f (tg E c) -> computed Y c f.
Proof.
  unfold tg, find_class. intros -> I. destruct (assoc c lib_classes) as [cd|] eqn:K; [|destruct I]. destruct (library_tearable c cd K) as (L & FL & _ & CO & _). rewrite forallb_forall in CO. specialize (CO f I). unfold computes in CO.
  destruct (find f L) as [w|] eqn:FW; [|discriminate]. exists L, w. split; [exact FL|]. split; [exact FW|]. destruct w; try discriminate; exact Logic.I.
Qed.

(* ---- the conditions of the proof ---- *)
Section Library.
  Variable E : env.
  Hypothesis HE : classes E = lib_classes.
  Lemma lib_once : forall c cd, find_class E c = Some cd -> once (targets (c_enc cd)) (c_enc cd) = true.
  Proof. unfold find_class. rewrite HE. intros c cd K. destruct (library_tearable c cd K) as (L & _ & O & _). exact O. Qed.
  Lemma lib_sets h ms : setters Y h ms -> forall l f v, In (Sets l f v) ms -> scalar v /\ exists c fs, nth_error h l = Some (CObj c fs) /\ ~ In f (tg E c).
  Proof.
    intros S l f v I. destruct (S l f v I) as (c & fs & Q & L & w & FL & FW & K). split; [destruct v; try exact Logic.I; destruct w; contradiction|]. exists c, fs. split; [exact Q|]. intros T. destruct (computed_tg E c f HE T) as (L' & w' & FL' & FW' & K'). rewrite FL in FL'. injection FL' as <-. rewrite FW in FW'. injection FW' as <-. destruct w, v; contradiction.
  Qed.
  Lemma lib_two c cd s : find_class E c = Some cd -> In s (c_enc cd) -> exists L, find c Y = Some L /\ two_reads L s = true.
  Proof. unfold find_class. rewrite HE. intros K I. destruct (library_tearable c cd K) as (L & FL & _ & _ & _ & T). exists L. split; [exact FL|]. rewrite forallb_forall in T. auto. Qed.
  Lemma lib_zero : forall c cd f zn zo n o, find_class E c = Some cd -> In (EDyn f zn zo n o) (c_enc cd) -> zn = n.
  Proof. intros c cd f zn zo n o K I. destruct (lib_two c cd _ K I) as (L & _ & T). cbn in T. apply andb_true_iff in T. apply PeanoNat.Nat.eqb_eq, T. Qed.
  Lemma lib_dyn h ms : setters Y h ms -> forall l f v c fs cd zn zo n o, In (Sets l f v) ms -> nth_error h l = Some (CObj c fs) -> find_class E c = Some cd -> In (EDyn f zn zo n o) (c_enc cd) -> exists s, v = HStr s.
  Proof.
    intros S l f v c fs cd zn zo n o I Q K IN. destruct (S l f v I) as (c' & fs' & Q' & L & w & FL & FW & M). rewrite Q in Q'. injection Q' as <- <-. destruct (lib_two c cd _ K IN) as (L' & FL' & T). rewrite FL in FL'. injection FL' as <-. cbn in T. rewrite FW, andb_true_iff in T. destruct T as [_ T].
    destruct w; try discriminate. destruct v; try contradiction. eauto.
  Qed.
  Lemma lib_opt h ms : setters Y h ms -> forall l f v c fs cd, In (Sets l f v) ms -> nth_error h l = Some (CObj c fs) -> find_class E c = Some cd -> ~ In (EObjOpt f) (c_enc cd).
  Proof.
    intros S l f v c fs cd I Q K IN. destruct (S l f v I) as (c' & fs' & Q' & L & w & FL & FW & M). rewrite Q in Q'. injection Q' as <- <-. destruct (lib_two c cd _ K IN) as (L' & FL' & T). rewrite FL in FL'. injection FL' as <-. cbn in T. rewrite FW in T. destruct w; try discriminate. destruct v; contradiction.
  Qed.
  Lemma lib_bare h r c fs f v m c' gs : plain_below Y h r -> nth_error h r = Some (CObj c fs) -> In (f, v) fs -> reach h v m -> nth_error h m = Some (CObj c' gs) -> bare E c'.
  Proof. intros P Q I R Qm. unfold bare. destruct (tg E c') as [|g T] eqn:QT; [reflexivity|]. exfalso. apply (P c fs f v m c' gs g Q I R Qm). apply (computed_tg E c' g HE). rewrite QT. now left. Qed.
  Lemma begin_right h l d b : plain_below Y h l -> (exists v, shows h (HRef l) v) -> right_stack E h l (stack (begin E h (HRef l) d b)).
  Proof.
    intros P S. unfold begin, enter. destruct (room _) as [|d'] eqn:RM; [constructor|]. destruct (nth_error h l) as [[c fs|vs]|] eqn:Q; [|constructor..]. destruct (find_class E c) as [cd|] eqn:K; [|constructor]. cbn [stack]. apply rs_one. split; [exact S|].
    exists c, fs, cd. split; [exact Q|]. split; [exact K|]. split; [exists []; reflexivity|]. split; [|now left]. intros f. split; [eapply seen_field; eauto|]. intros m c' gs R Qm.
    assert (HG : In (f, hget f fs) fs \/ hget f fs = HNull).
    { clear. induction fs as [|[k v] fs IH]; cbn; auto. destruct (String.eqb_spec f k) as [->|]; [left; auto|]. destruct IH; auto. }
    destruct HG as [I|HG]; [|rewrite HG in R; inversion R]. eapply lib_bare; eauto.
  Qed.
  Lemma fine_run h ms l d b h' c : setters Y h ms -> plain_below Y h l -> (exists v, shows h (HRef l) v) -> moments_run E ms h (calls_encode E h (HRef l) d b) = (h', c) ->
    exists ns, (forall n, In n ns -> In n ms) /\ (forall G, settings ns G = settings ms G) /\ steps_run E ns h (begin E h (HRef l) d b) = (h', work c).
  Proof.
    intros SE P S R. apply (fine_coarse E h ms l (lib_once) (lib_sets h ms SE) (lib_dyn h ms SE) (lib_opt h ms SE) lib_zero ms h (calls_encode E h (HRef l) d b) h' c (fun n I => I) (drift0 E h ms l)); [apply begin_right; auto|intros T; discriminate|exact R].
  Qed.
End Library.

(* ---- C94 ---- *)
(* ms: turns of the thread that encodes, and calls of setters, in any order *)
Theorem C94_torn : forall E ms h l d b h' t e, classes E = lib_classes -> setters Y h ms -> plain_below Y h l -> (exists v, shows h (HRef l) v) ->
  moments_run E ms h (calls_encode E h (HRef l) d b) = (h', t) -> ended (work t) = Some e ->
  exists v v', torn h ms (HRef l) v /\ encode E d v b = (e, v', out (work t)).
Proof.
  intros E ms h l d b h' t e HE SE P S R0 EN. destruct (fine_run E HE h ms l d b h' t SE P S R0) as (ns & IN & _ & R). destruct t as [t tt]. cbn [work] in *.
  pose proof (back_run E h ms l (lib_once E HE) (lib_sets E HE h ms SE) ns h _ h' t e IN (drift0 E h ms l) (begin_right E HE h l d b P S) R EN) as G.
  destruct (back_enter E h ms l (lib_sets E HE h ms SE) h (HRef l) [] {| stack := []; room := d; out := b; ended := None |} (e, out t) (drift0 E h ms l) S) as (tv & ks & T & K & A); auto.
  { intros l' c fs f _ _ _. reflexivity. }
  inversion K; subst ks. cbn [room out] in A. destruct (encode E d tv b) as [[x v'] b'] eqn:EQ. exists tv, v'. split; [exact T|]. rewrite EQ. destruct x as [x|]; cbn in A; congruence.
Qed.
(* so what encode writes is a whole frame: the wire form of some values the fields have held, with the length of that body and the checksum of those bytes *)
Theorem C94_frame : forall E ms h l c fs d b h' t, classes E = lib_classes -> heap_ok lib_classes h -> setters Y h ms -> fitting lib_classes h ms -> plain_below Y h l -> (exists v, shows h (HRef l) v) ->
  nth_error h l = Some (CObj c fs) -> buf_wf b = true -> moments_run E ms h (calls_encode E h (HRef l) d b) = (h', t) -> ended (work t) = Some None ->
  exists v, torn h ms (HRef l) v /\ object_of E c v = true /\ appended b (ser Y (fill_in Y (checksum E) (readable b) v (WObj c)) (WObj c)) (out (work t)).
Proof.
  intros E ms h l c fs d b h' t HE OK SE FT P S Q WB R EN. destruct (C94_torn E ms h l d b h' t None HE SE P S R EN) as (v & v' & T & EQ). exists v. split; [exact T|].
  assert (OB : object_of E c v = true).
  { unfold object_of. rewrite <- HE in OK, FT. rewrite (torn_typed E h ms) with (v := HRef l); [|intros c0 cd0 A0; rewrite HE in A0; destruct (library_tearable c0 cd0 A0) as (? & _ & _ & _ & ND & _); exact ND|exact OK|exact FT|exact T|exists fs; exact Q]. inversion T; subst; [congruence|reflexivity]. }
  split; [exact OB|]. destruct (C23_encode_appends_wire_form E d c v b v' (out (work t)) HE OB WB EQ) as (A & _ & V & _). rewrite <- V. exact A.
Qed.
(* encode ends after a number of turns, whatever the setters do meanwhile *)
Theorem C94_ends : forall E h v d b, exists n, forall ms h' t, (forall l f x, In (Sets l f x) ms -> scalar x) -> (n <= turns ms)%nat -> moments_run E ms h (calls_encode E h v d b) = (h', t) -> ended (work t) <> None.
Proof. intros E h v d b. exists (load E h (calls_encode E h v d b)). intros ms h' t SC N R. eapply moments_end; eauto. Qed.
(* the setters' values stay: encode replaces only the length and checksum of the message itself *)
Theorem C94_setters_stay : forall E ms h l d b h' t, classes E = lib_classes -> setters Y h ms -> plain_below Y h l -> (exists v, shows h (HRef l) v) ->
  moments_run E ms h (calls_encode E h (HRef l) d b) = (h', t) ->
  (forall m g, ~ (m = l /\ exists c fs, nth_error h l = Some (CObj c fs) /\ computed Y c g) -> Heap.field h' m g = Heap.field (settings ms h) m g)
  /\ (forall m, match nth_error h' m, nth_error (settings ms h) m with Some (CObj c fs), Some (CObj c' gs) => c = c' /\ map fst fs = map fst gs | x, y => x = y end).
Proof.
  intros E ms h l d b h' t HE SE P S R0. destruct (fine_run E HE h ms l d b h' t SE P S R0) as (ns & IN & SQ & R). rewrite <- SQ.
  destruct (run_alike E h ms l (lib_once E HE) (lib_sets E HE h ms SE) ns h h _ h' (work t) IN (drift0 E h ms l) (begin_right E HE h l d b P S) (alike_refl E h l h) R) as [K F].
  split; [|exact K]. intros m g N. apply F. intros (-> & c & fs & Q & T). apply N. split; [reflexivity|]. exists c, fs. split; [exact Q|]. apply (computed_tg E c g HE T).
Qed.

(* ---- examples ---- *)
(* h_alias: a RootPacket (4) with a NestedPacket (3) whose three SubPackets are one object (0). The first of the three is written with 1, the second with 7, the third with 8;
   the msgType is changed after it was written *)
Definition busy : list moment := repeat Turn 6 ++ [Sets 4 "msgType" (HInt 77)] ++ repeat Turn 4 ++ [Sets 0 "fieldU32" (HInt 7)] ++ repeat Turn 4 ++ [Sets 0 "fieldU32" (HInt 8)] ++ repeat Turn 30.
Lemma busy_setters : setters Y h_alias busy.
Proof.
  intros l f v I. unfold busy in I. rewrite !in_app_iff in I.
  assert (NT : forall n, ~ In (Sets l f v) (repeat Turn n)) by (intros n A; apply repeat_spec in A; discriminate).
  destruct I as [I|[I|[I|[I|[I|[I|I]]]]]]; try (destruct (NT _ I); fail); destruct I as [I|[]]; injection I as <- <- <-; eexists _, _; (split; [reflexivity|]); eexists _, _; (split; [vm_compute; reflexivity|]); (split; [vm_compute; reflexivity|]); exact Logic.I.
Qed.
(* the bytes need not be those of any content the message had at one time *)
Theorem C94_snapshot_refuted : exists ms h l d b h' t, setters Y h ms /\ plain_below Y h l /\ (exists v, shows h (HRef l) v)
  /\ moments_run lib_env ms h (calls_encode lib_env h (HRef l) d b) = (h', t) /\ ended (work t) = Some None
  /\ forall n, readable (snd (hencode lib_env d (settings (firstn n ms) h) (HRef l) b)) <> readable (out (work t)).
Proof.
  exists busy, h_alias, 4%nat, 3%nat, empty_buf. eexists _, _. split; [exact busy_setters|]. split; [apply (plainb_plain _ _ [0; 1; 2; 3]%nat); vm_compute; reflexivity|].
  split; [eexists; apply (view_shows _ 9); vm_compute; reflexivity|]. split; [vm_compute; reflexivity|]. split; [reflexivity|]. cbn [out work].
  assert (A : forall n, (n <= 60)%nat -> readable (snd (hencode lib_env 3 (settings (firstn n busy) h_alias) (HRef 4) empty_buf)) <> readable (out (work (snd (moments_run lib_env busy h_alias (calls_encode lib_env h_alias (HRef 4) 3 empty_buf)))))).
  { assert (B : forallb (fun n => negb (if list_eq_dec Z.eq_dec (readable (snd (hencode lib_env 3 (settings (firstn n busy) h_alias) (HRef 4) empty_buf))) (readable (out (work (snd (moments_run lib_env busy h_alias (calls_encode lib_env h_alias (HRef 4) 3 empty_buf)))))) then true else false)) (seq 0 61) = true) by (vm_compute; reflexivity).
    rewrite forallb_forall in B. intros n N. specialize (B n). destruct (list_eq_dec Z.eq_dec _ _) as [Q|Q]; [|exact Q]. exfalso. assert (I : In n (seq 0 61)) by (apply in_seq; lia). specialize (B I). discriminate. }
  intros n. destruct (PeanoNat.Nat.le_gt_cases n 60) as [N|N]; [exact (A n N)|]. rewrite firstn_all2; [|vm_compute in N |- *; lia]. rewrite <- (firstn_all2 (n := 60) busy); [exact (A 60%nat (le_n _))|vm_compute; lia].
Qed.
Example C94_meets : setters Y h_alias busy /\ fitting lib_classes h_alias busy /\ heap_ok lib_classes h_alias /\ plain_below Y h_alias 4 /\ (exists v, shows h_alias (HRef 4) v) /\ turns busy = 44%nat
  /\ ended (work (snd (moments_run lib_env busy h_alias (calls_encode lib_env h_alias (HRef 4) 3 empty_buf)))) = Some None
  (* type 3, length 26, SubPackets with 1, 7 and 8 *)
  /\ firstn 30 (content (out (work (snd (moments_run lib_env busy h_alias (calls_encode lib_env h_alias (HRef 4) 3 empty_buf)))))) = [3; 0; 26; 0; 0; 0;  1; 0; 0; 0; 0; 0;  2; 0;  7; 0; 0; 0; 0; 0;  8; 0; 0; 0; 0; 0;  0; 0; 0; 0]
  /\ Heap.field (settings busy h_alias) 4 "msgType" = HInt 77 /\ Heap.field (settings busy h_alias) 0 "fieldU32" = HInt 8.
Proof.
  split; [exact busy_setters|]. split.
  { intros l f v c fs cd ty I Q K T. unfold busy in I. rewrite !in_app_iff in I. assert (NT : forall n, ~ In (Sets l f v) (repeat Turn n)) by (intros n A; apply repeat_spec in A; discriminate).
    destruct I as [I|[I|[I|[I|[I|[I|I]]]]]]; try (destruct (NT _ I); fail); destruct I as [I|[]]; injection I as <- <- <-; injection Q as <- <-; vm_compute in K; injection K as <-; vm_compute in T; repeat (destruct T as [T|T]; [try discriminate T; injection T as <-; cbn; lia|]); destruct T. }
  split; [apply cells_ok; vm_compute; reflexivity|]. split; [apply (plainb_plain _ _ [0; 1; 2; 3]%nat); vm_compute; reflexivity|]. split; [eexists; apply (view_shows _ 9); vm_compute; reflexivity|].
  vm_compute. repeat split.
Qed.

(* null for a string with a length prefix, or for a body, between its test and its use: encode throws, though it does not throw with any content the message ever had *)
Definition h_text : heap := [ obj "sample.StringPacket" [("fieldDynamicString", HStr [97; 98])] ]%string.
Definition nulls (l : nat) (f : string) (n : nat) : list moment := repeat Turn n ++ [Sets l f HNull] ++ repeat Turn 60.
Theorem C94_null_refuted : (exists h l f d b, heap_ok lib_classes h /\ (exists c L n o, find c Y = Some L /\ find f L = Some (WDyn n o) /\ fits h (HRef l) (TObj c)) /\ exists k,
    ended (work (snd (moments_run lib_env (nulls l f k) h (calls_encode lib_env h (HRef l) d b)))) = Some (Some NPE)
    /\ forall n, fst (fst (hencode lib_env d (settings (firstn n (nulls l f k)) h) (HRef l) b)) = None)
  /\ (exists h l f d b, heap_ok lib_classes h /\ (exists c L g, find c Y = Some L /\ find f L = Some (WBody g) /\ fits h (HRef l) (TObj c)) /\ exists k,
    ended (work (snd (moments_run lib_env (nulls l f k) h (calls_encode lib_env h (HRef l) d b)))) = Some (Some NPE)
    /\ forall n, fst (fst (hencode lib_env d (settings (firstn n (nulls l f k)) h) (HRef l) b)) = None).
Proof.
  assert (ALL : forall k l f h d, forallb (fun n => match fst (fst (hencode lib_env d (settings (firstn n (nulls l f k)) h) (HRef l) empty_buf)) with None => true | Some _ => false end) (seq 0 (62 + k)) = true ->
    forall n, fst (fst (hencode lib_env d (settings (firstn n (nulls l f k)) h) (HRef l) empty_buf)) = None).
  { intros k l f h d B n. assert (LN : List.length (nulls l f k) = (61 + k)%nat) by (unfold nulls; rewrite !app_length, !repeat_length; cbn; lia). rewrite forallb_forall in B.
    assert (A : forall n, (n <= 61 + k)%nat -> fst (fst (hencode lib_env d (settings (firstn n (nulls l f k)) h) (HRef l) empty_buf)) = None).
    { intros m M. specialize (B m). destruct (fst (fst (hencode lib_env d _ _ _))); [|reflexivity]. assert (I : In m (seq 0 (62 + k))) by (apply in_seq; lia). specialize (B I). discriminate. }
    destruct (PeanoNat.Nat.le_gt_cases n (61 + k)) as [N|N]; [exact (A n N)|]. rewrite firstn_all2 by lia. rewrite <- (firstn_all2 (n := 61 + k) (nulls l f k)) by lia. apply A. lia. }
  split.
  - exists h_text, 0%nat, "fieldDynamicString"%string, 3%nat, empty_buf. split; [apply cells_ok; vm_compute; reflexivity|]. split; [exists "sample.StringPacket"%string; eexists _, _, _; split; [vm_compute; reflexivity|]; split; [vm_compute; reflexivity|apply fitsb_fits; vm_compute; reflexivity]|].
    exists 1%nat. split; [vm_compute; reflexivity|]. apply ALL. vm_compute. reflexivity.
  - exists h_alias, 4%nat, "payload"%string, 3%nat, empty_buf. split; [apply cells_ok; vm_compute; reflexivity|]. split; [exists "sample.RootPacket"%string; eexists _, _; split; [vm_compute; reflexivity|]; split; [vm_compute; reflexivity|apply fitsb_fits; vm_compute; reflexivity]|].
    exists 5%nat. split; [vm_compute; reflexivity|]. apply ALL. vm_compute. reflexivity.
Qed.
(* a string with a length prefix that is changed between its test and its use: the new one is written, even if it is empty *)
Example C94_text_meets : let ms s := Turn :: Sets 0 "fieldDynamicString" (HStr s) :: repeat Turn 40 in
  (forall s, setters Y h_text (ms s)) /\ plain_below Y h_text 0 /\ (exists v, shows h_text (HRef 0) v)
  /\ map (fun s => let t := work (snd (moments_run lib_env (ms s) h_text (calls_encode lib_env h_text (HRef 0) 3 empty_buf))) in (ended t, firstn 6 (content (out t)))) [[]; [99]; [233]] =
     [(Some None, [0; 0; 0; 0; 0; 0]); (Some None, [1; 0; 99; 0; 0; 0]); (Some None, [2; 0; 195; 169; 0; 0])].
Proof.
  intros ms. split.
  { intros s l f v [I|[I|I]]; [discriminate| |apply repeat_spec in I; discriminate]. injection I as <- <- <-. eexists _, _. split; [reflexivity|]. eexists _, _. split; [vm_compute; reflexivity|]. split; [vm_compute; reflexivity|]. exact Logic.I. }
  split; [apply (plainb_plain _ _ []); vm_compute; reflexivity|]. split; [eexists; apply (view_shows _ 9); vm_compute; reflexivity|]. vm_compute. reflexivity.
Qed.

Print Assumptions C94_null_refuted.
Print Assumptions C94_torn.
Print Assumptions C94_frame.
Print Assumptions C94_ends.
Print Assumptions C94_setters_stay.
Print Assumptions C94_snapshot_refuted.
