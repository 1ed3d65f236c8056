(* C96: a gateway between a sender and a receiver, run as Java text. *)
From Coq Require Import ZArith List Bool String Ascii Lia.
From Verif.Model Require Import JavaPrim ByteBuf Checksum Utf8 Codec Ast Interp Factory Show Heap GenSse Library.
From Verif.Spec Require Import Bytes Buffers Wire Reading Layouts Equality Text Access Sharing Apart Locality Framing Resend Sizes Allocation JavaState JavaRun.
From Verif.Proofs Require Import BytesFacts BufFacts CodecFacts FillFacts FillFacts EncodeFacts DecodeFacts FramingFacts HeapFacts HeapOwn HeapFrame HeapCheck HeapTypes HeapSize Conform Messages JavaEncode JavaState.
From Verif.Java Require Import Lex Syntax Source Sources Sem Program.
From Verif.Props Require Import Samples MessageProps FrameProps LocalProps ArbitraryProps ResendProps TextProps HeapProps HeapMoreProps JavaStaticProps JavaMessageProps AllocationProps WorkerProps JavaStreamProps JavaArrivalProps.
From Verif.Spec Require Import JavaStream JavaArrival JavaGateway.
Import ListNotations.
Open Scope Z_scope.
Open Scope list_scope.

Lemma sum_app {A} (f : A -> nat) x y : sum_of f (x ++ y) = (sum_of f x + sum_of f y)%nat.
Proof. induction x as [|a x IH]; cbn; auto. rewrite IH. lia. Qed.
Lemma sum_in {A} (f : A -> nat) x a : In a x -> (f a <= sum_of f x)%nat.
Proof. induction x as [|y x IH]; cbn; [tauto|]. intros [->|I]; [lia|]. specialize (IH I). lia. Qed.
Lemma prefix_of {A} (h h' : list A) : (forall m q, nth_error h m = Some q -> nth_error h' m = Some q) -> exists r, h' = h ++ r.
Proof.
  revert h'. induction h as [|x h IH]; intros h' P; [exists h'; reflexivity|]. destruct h' as [|y h']; [specialize (P O x eq_refl); discriminate|]. pose proof (P O x eq_refl) as Q. injection Q as ->.
  destruct (IH h') as (r & ->); [intros m q H; exact (P (S m) q H)|]. exists r. reflexivity.
Qed.
(* new lists are no longer than what was read *)
Lemma small_new_lists h h' n : small h -> (forall m q, nth_error h m = Some q -> nth_error h' m = Some q) -> (list_items h' <= list_items h + n)%nat -> Z.of_nat n < 2 ^ 31 -> small h'.
Proof.
  intros S P L N. destruct (prefix_of h h' P) as (r & ->). unfold list_items in L. rewrite sum_app in L. intros l vs H. destruct (Nat.lt_ge_cases l (List.length h)) as [B|B].
  - rewrite nth_error_app1 in H by exact B. eapply S; eauto.
  - rewrite nth_error_app2 in H by exact B. apply nth_error_In in H. apply (sum_in (fun c => match c with CList vs => List.length vs | CObj _ _ => 0%nat end)) in H. cbn in H. lia.
Qed.

(* one message: decoded from the bytes a sender wrote for it and encoded again *)
Lemma pass_one pr k d stat R W V c t : enough k -> running stat R W V -> let E := holding R W in
  object_of E c t = true -> complete Y t (WObj c) = true -> parsable Y (factory E) t (WObj c) = true -> all_strings resendable (fun _ => true) Y t (WObj c) = true -> (nesting t <= d)%nat ->
  forall h b rest out, heap_ok lib_classes h -> small h -> buf_wf b = true -> buf_wf out = true ->
  let bs := ser Y (fill_in Y (checksum E) (readable out) t (WObj c)) (WObj c) in
  readable b = bs ++ rest -> Buffers.fits out (List.length bs) ->
  exists h3 h4 b4 h5 b5, create_new c (at_rest h b stat) = Ret (JT (T1 c) (HRef (List.length h))) (at_rest h3 b stat)
  /\ invoke pr k d (List.length h) "decode"%string [JBuf] (at_rest h3 b stat) = Ret JVoid (at_rest h4 b4 stat)
  /\ invoke pr k d (List.length h) "encode"%string [JBuf] (at_rest h4 out stat) = Ret JVoid (at_rest h5 b5 stat)
  /\ readable b4 = rest /\ appended out bs b5 /\ buf_wf b5 = true /\ heap_ok lib_classes h5 /\ small h5 /\ (forall m q, nth_error h m = Some q -> nth_error h5 m = Some q).
Proof.
  intros K Rn E Ob Cm Pa St Hn h b rest out OK SM Hb Ho bs Hr Fi. assert (HE : classes E = lib_classes) by reflexivity.
  pose proof (C39_complete_objects_throw_only_without_room E d c t out HE Ob Ho Cm Hn) as [RM _]. destruct (RM Fi) as (t1 & b1 & EN). clear RM.
  destruct (C23_encode_appends_wire_form E d c t out t1 b1 HE Ob Ho EN) as (Ap & Hb1 & Ef & Ob1). rewrite Ef in Ap. fold bs in Ap.
  destruct (C46_same_bytes E d d c t out t1 b1 bs b rest HE Ob Ho EN Pa St Hn Ap Hb Hr) as (v2 & b3 & DE & AG).
  destruct (AG d out Hn Ho eq_refl Fi) as (v3 & b5 & E2 & A5). clear AG.
  assert (R3 : readable b3 = rest).
  { destruct (Messages.decode_bytes lib_classes Y library_conforms E HE d c t1 (new_obj E c) b rest) as (b3' & D & Ad); auto.
    - apply (Messages.new_object lib_classes Y library_conforms E HE c t1 Ob1).
    - rewrite Ef, fill_parsable. exact Pa.
    - destruct (encoded_facts lib_classes Y library_conforms E HE d c t out t1 b1 Ob Ho EN) as (_ & _ & Hn1 & _). lia.
    - rewrite Ef. exact Hr.
    - rewrite DE in D. injection D as _ <-. unfold advanced in Ad. rewrite Ad, readable_advance, Hr, Ef. fold bs. rewrite skipn_app, skipn_all, Nat.sub_diag. reflexivity. }
  destruct (object_known E c t HE Ob) as (cd & Hc). destruct (makes_new stat R W V c cd h b Rn Hc) as [CN HN]. fold E in CN, HN.
  destruct (new_ok E h c) as (OK3 & _ & F3); [exact OK|]. rewrite HN in F3. change (classes E) with lib_classes in OK3.
  pose proof (C58_decode_fresh E d h c b) as DF. pose proof (C63_decode_keeps_types E d (fst (hnew E h c)) (HRef (List.length h)) b HE OK3 Hb) as OK4.
  pose proof (C62_decode_frame E d (fst (hnew E h c)) (HRef (List.length h)) b) as FR. cbv zeta in FR.
  assert (LI3 : list_items (fst (hnew E h c)) = list_items h).
  { unfold hnew. destruct (find_class E c); [|reflexivity]. cbn [alloc_cell fst]. unfold list_items. rewrite sum_app. cbn. lia. }
  destruct (hnew E h c) as [h3 v]. cbn [fst snd] in *. subst v.
  pose proof (decode_runs pr k d stat R W V h3 (List.length h) c b K Rn OK3 F3 Hb) as DR. fold E in DR.
  destruct (C89_decode pr k d stat R W V h3 (List.length h) c b K Rn OK3 F3 Hb) as (e9 & h9 & b9 & n & J9 & RD & _ & _ & LI & _).
  rewrite DE in DF. destruct (hdecode E d h3 (HRef (List.length h)) b) as [[e4 h4] b4'] eqn:HD. cbn [fst snd] in *. destruct DF as (-> & -> & [Le Un] & fp1 & Ow & Fr). destruct FR as [FR _].
  rewrite DR in J9. destruct e9 as [x|]; [discriminate|]. injection J9 as <- <-.
  assert (F4 : Sharing.fits h4 (HRef (List.length h)) (TObj c)).
  { pose proof F3 as (fs & Hl). destruct (FR _ _ Hl) as (q' & Hq & P & _). destruct q' as [c' fs'|vs]; cbn in P; [|discriminate]. cbn. destruct P as [-> _]. eauto. }
  assert (OLD : forall m q, nth_error h m = Some q -> nth_error h4 m = Some q) by (intros m q Hm; rewrite Un; auto; eapply nth_lt; eauto).
  assert (NB : Z.of_nat n < 2 ^ 31).
  { destruct RD as [_ [->|L]]; [lia|]. apply buf_wf_iff in Hb. destruct Hb as [_ W1 W2 W3 W4]. unfold char_bytes, capacity in L. destruct (cs_slack b); lia. }
  assert (S4 : small h4) by (apply (small_new_lists h h4 n SM OLD); [rewrite <- LI3; exact LI|exact NB]).
  pose proof (proj1 (owns_shows h4) _ _ _ Ow) as Sh4.
  destruct (C56_encode_unfolds E d h4 (HRef (List.length h)) v2 out HE Sh4) as [Q1 Q2]. rewrite E2 in Q1, Q2. cbn [fst snd] in Q1, Q2.
  destruct (C77_encode pr k d stat R W V h4 (List.length h) c v2 out K Rn OK4 S4 F4 Sh4 Ho) as (e & h5 & b5' & J & OK5 & F5 & Hb5 & _ & _).
  destruct (C77_any_graph pr k d stat R W V h4 (List.length h) c out K Rn OK4 S4 F4 Ho) as (e' & h5' & b5'' & J' & _ & _ & _ & Len & Fr5).
  pose proof (C57_encode_frame E d h4 (HRef (List.length h)) out HE) as TF. cbv zeta in TF.
  pose proof J as JR. rewrite (encode_runs pr k d stat R W V h4 (List.length h) c out K Rn OK4 S4 F4 Ho) in JR. fold E in JR.
  destruct (hencode E d h4 (HRef (List.length h)) out) as [[e2 g] y]. cbn [fst snd] in Q1, Q2, TF. subst e2 y.
  destruct e as [x|]; [discriminate|]. injection JR as -> ->. rewrite J in J'. destruct e' as [x|]; [discriminate|]. injection J' as <- <-.
  exists h3, h4, b3, h5, b5'. split; [exact CN|]. split; [exact DR|]. split; [exact J|]. split; [exact R3|]. split; [exact A5|]. split; [exact Hb5|]. split; [exact OK5|]. split.
  - apply (touched_small h4 h5 Len); [|exact S4]. intros l q q' A B. apply (proj2 TF l q q' A B).
  - intros m q Hm. rewrite Fr5; [auto|]. intros Rm. pose proof (proj1 (owns_reaches h4) _ _ _ Ow m Rm) as I. specialize (Fr m I). apply nth_lt in Hm. lia.
Qed.

(* ---- C96 ---- *)
(* a message the sender can send, and whose bytes survive decoding and encoding again *)
Definition portable (h : heap) (E2 : env) (d d2 : nat) (m : message) : Prop :=
  Sharing.fits h (HRef (place m)) (TObj (kind m)) /\ shows h (HRef (place m)) (means m) /\ complete Y (means m) (WObj (kind m)) = true
  /\ parsable Y (factory E2) (means m) (WObj (kind m)) = true /\ all_strings resendable (fun _ => true) Y (means m) (WObj (kind m)) = true /\ (nesting (means m) <= d)%nat /\ (nesting (means m) <= d2)%nat.
Definition frames_of (ms : list message) : list (list Z) := map (fun m => ser Y (means m) (WObj (kind m))) ms.

Lemma gateway_sends pr k d d2 stat R W V E2 c off lf o bf after : enough k -> running stat R W V -> In (c, off, lf, o, bf, after) frames ->
  forall ms h b, heap_ok lib_classes h -> small h -> buf_wf b = true ->
  (forall m, In m ms -> kind m = c /\ portable h E2 d d2 m) ->
  (forall i j m n, i <> j -> nth_error ms i = Some m -> nth_error ms j = Some n -> unrelated h (place m) (place n)) ->
  let ms1 := filled Y (checksum (holding R W)) (readable b) ms in
  Buffers.fits b (List.length (wires Y ms1)) ->
  exists h1 b1, sends pr k d (map place ms) (at_rest h b stat) = Ret tt (at_rest h1 b1 stat) /\ appended b (wires Y ms1) b1 /\ Forall (FramingFacts.framed off o after) (frames_of ms1).
Proof.
  intros K Rn Hin ms. induction ms as [|m ms IH]; intros h b OK S Hb G U ms1 Fi.
  - exists h, b. split; [reflexivity|]. split; [apply appended_nil|constructor].
  - destruct (G m (or_introl eq_refl)) as (Kc & F & Sh & Cm & _ & _ & N1 & _). cbn [filled] in ms1. set (E := holding R W) in *. set (t1 := fill_in Y (checksum E) (readable b) (means m) (WObj (kind m))) in *.
    set (bs := ser Y t1 (WObj (kind m))) in *. set (ms2 := filled Y (checksum E) (readable b ++ bs) ms) in *. assert (HE : classes E = lib_classes) by reflexivity.
    assert (WW : wires Y ms1 = bs ++ wires Y ms2) by reflexivity. rewrite WW in *. rewrite app_length in *.
    assert (Fi1 : Buffers.fits b (List.length bs)) by (unfold Buffers.fits in *; lia). pose proof (proj1 (buf_wf_iff b) Hb) as Wb.
    destruct (C77_encode pr k d stat R W V h (place m) (kind m) (means m) b K Rn OK S F Sh Hb) as (e & h1 & b1 & J & OK1 & F1 & Hb1 & _ & X & _). cbv zeta in X. fold E t1 bs in X.
    assert (e = None) as ->. { destruct e as [[]|]; try contradiction; [congruence|lia|reflexivity]. }
    destruct X as (_ & _ & _ & Ap1). pose proof (proj1 (buf_wf_iff b1) Hb1) as Wb1. assert (Rd : readable b1 = readable b ++ bs) by (apply appended_readable; auto).
    destruct (C77_any_graph pr k d stat R W V h (place m) (kind m) b K Rn OK S F Hb) as (e' & h1' & b1' & J' & _ & _ & _ & Len & Fr). rewrite J in J'. destruct e' as [e'|]; [discriminate|]. injection J' as <- <-.
    pose proof (C57_encode_frame E d h (HRef (place m)) b HE) as TF. cbv zeta in TF.
    pose proof J as JR. rewrite (encode_runs pr k d stat R W V h (place m) (kind m) b K Rn OK S F Hb) in JR. fold E in JR.
    assert (H1 : snd (fst (hencode E d h (HRef (place m)) b)) = h1). { destruct (hencode E d h (HRef (place m)) b) as [[[x|] g] y]; [discriminate|]. injection JR as <- <-. reflexivity. }
    rewrite H1 in TF. destruct TF as [_ TF].
    assert (S1 : small h1) by (apply (touched_small h h1 Len); [intros l q q' A B; apply (TF l q q' A B)|exact S]).
    assert (Same : forall n, In n ms -> forall l, reach h (HRef (place n)) l -> nth_error h1 l = nth_error h l).
    { intros n I l Rl. apply In_nth_error in I. destruct I as (i & Hi). apply Fr. intros Rm. exact (U 0%nat (Datatypes.S i) m n ltac:(discriminate) eq_refl Hi l Rm Rl). }
    destruct (IH h1 b1 OK1 S1 Hb1) as (hE & bE & JE & ApE & FrE).
    { intros n I. destruct (G n (or_intror I)) as (Kn & Fn & Sn & Gn). split; [exact Kn|]. split; [|split; [|exact Gn]].
      - destruct Fn as (fs & Hn). exists fs. rewrite (Same n I); [exact Hn|constructor].
      - apply (proj1 (shows_apart h h1) _ _ Sn). exact (Same n I). }
    { intros i j n n' NE Hi Hj l Rl Rl'. pose proof (nth_error_In _ _ Hi) as Ii. pose proof (nth_error_In _ _ Hj) as Ij.
      exact (U (Datatypes.S i) (Datatypes.S j) n n' ltac:(congruence) Hi Hj l (reach_kept h h1 _ l (Same n Ii) Rl) (reach_kept h h1 _ l (Same n' Ij) Rl')). }
    { rewrite Rd. fold ms2. apply (proj2 (fits_after b bs b1 _ Wb Wb1 Ap1)). exact Fi. }
    rewrite Rd in ApE, FrE. fold ms2 in ApE, FrE.
    exists hE, bE. split; [cbn [map sends bind]; rewrite J; exact JE|]. split; [eapply appended_trans; eauto|]. constructor; [|exact FrE]. cbn [means kind]. fold bs.
    pose proof (fits_object E h (HRef (place m)) (means m) (kind m) HE OK F ltac:(discriminate) Sh) as Ob.
    pose proof (C39_complete_objects_throw_only_without_room E d (kind m) (means m) b HE Ob Hb Cm N1) as [RM _]. destruct (RM Fi1) as (t' & b' & EN).
    destruct (C23_encode_appends_wire_form E d (kind m) (means m) b t' b' HE Ob Hb EN) as (Ap & Wm & -> & _). fold t1 bs in Ap, EN. rewrite Kc in *.
    destruct (C26_length_field_measures_body c off lf o bf after Hin E d (means m) b t1 b' HE Ob Hb EN) as (head & body & tail & A2 & L1 & L2 & _).
    pose proof (app_content _ _ _ Ap) as Q. rewrite (app_content _ _ _ A2) in Q. apply app_inv_head in Q.
    exists head, body, tail. split; [symmetry; exact Q|]. split; [exact L1|]. split; [exact L2|].
    apply buf_wf_iff in Wm. pose proof (appended_small _ _ _ Wm Ap) as Sm. rewrite <- Q, !app_length in Sm. lia.
Qed.
Lemma gateway_passes pr k d stat R W V c mk : enough k -> running stat R W V -> holder mk -> let E := holding R W in
  forall ms h b out, heap_ok lib_classes h -> small h -> buf_wf out = true ->
  (forall m, In m ms -> kind m = c /\ object_of E c (means m) = true /\ complete Y (means m) (WObj c) = true /\ parsable Y (factory E) (means m) (WObj c) = true
    /\ all_strings resendable (fun _ => true) Y (means m) (WObj c) = true /\ (nesting (means m) <= d)%nat) ->
  let ms1 := filled Y (checksum E) (readable out) ms in
  Buffers.fits out (List.length (wires Y ms1)) ->
  exists ls h4 b4 out1, passes pr k d mk c (frames_of ms1) out (at_rest h b stat) = Ret (ls, out1) (at_rest h4 b4 stat) /\ List.length ls = List.length ms /\ appended out (wires Y ms1) out1
  /\ heap_ok lib_classes h4 /\ forall m q, nth_error h m = Some q -> nth_error h4 m = Some q.
Proof.
  intros K Rn MK E ms. induction ms as [|m ms IH]; intros h b out OK S Ho G ms1 Fi.
  - exists [], h, b, out. split; [reflexivity|]. split; [reflexivity|]. split; [apply appended_nil|]. auto.
  - destruct m as [pl kd mt]. destruct (G _ (or_introl eq_refl)) as (Kc & Ob & Cm & Pa & St & Hn). cbn [kind means] in Kc, Ob, Cm, Pa, St, Hn. subst kd. cbn [filled kind means place] in ms1. set (t1 := fill_in Y (checksum E) (readable out) mt (WObj c)) in *.
    set (bs := ser Y t1 (WObj c)) in *. set (ms2 := filled Y (checksum E) (readable out ++ bs) ms) in *. assert (HE : classes E = lib_classes) by reflexivity.
    assert (WW : wires Y ms1 = bs ++ wires Y ms2) by reflexivity. rewrite WW in *. rewrite app_length in *.
    assert (Fi1 : Buffers.fits out (List.length bs)) by (unfold Buffers.fits in *; lia). pose proof (proj1 (buf_wf_iff out) Ho) as Wo.
    assert (BB : bytes_ok bs /\ Z.of_nat (List.length bs) < 2 ^ 31).
    { pose proof (C39_complete_objects_throw_only_without_room E d c mt out HE Ob Ho Cm Hn) as [RM _]. destruct (RM Fi1) as (t' & b' & EN).
      destruct (C23_encode_appends_wire_form E d c mt out t' b' HE Ob Ho EN) as (Ap & Wm & -> & _). fold t1 bs in Ap. apply buf_wf_iff in Wm. split; [eapply appended_bytes; eauto|eapply appended_small; eauto]. }
    destruct BB as [Bb Bs]. destruct (MK bs ltac:(rewrite Forall_forall in Bb; exact Bb) Bs) as (Wk & _ & Rk).
    destruct (pass_one pr k d stat R W V c mt K Rn Ob Cm Pa St Hn h (mk bs) [] out OK S Wk Ho ltac:(rewrite app_nil_r; exact Rk) Fi1) as (h3 & h4 & b4 & h5 & b5 & CN & DE & EN & _ & A5 & W5 & OK5 & S5 & Un). fold E t1 bs in A5.
    pose proof (proj1 (buf_wf_iff b5) W5) as Wb5. assert (Rd : readable b5 = readable out ++ bs) by (apply appended_readable; auto).
    destruct (IH h5 b5 b5 OK5 S5 W5 (fun n I => G n (or_intror I))) as (ls & h6 & b6 & out1 & P & LL & A6 & OK6 & Un6).
    { rewrite Rd. fold ms2. apply (proj2 (fits_after out bs b5 _ Wo Wb5 A5)). exact Fi. }
    rewrite Rd in P, A6. fold ms2 in P, A6.
    exists (List.length h :: ls), h6, b6, out1. split; [|split; [cbn; congruence|split; [eapply appended_trans; eauto|split; [exact OK6|auto]]]].
    change (frames_of ms1) with (bs :: frames_of ms2). cbn [passes]. change (set_b (at_rest h b stat) (mk bs)) with (at_rest h (mk bs) stat). rewrite CN. cbn [bind]. rewrite DE. cbn [bind].
    change (set_b (at_rest h4 b4 stat) out) with (at_rest h4 out stat). rewrite EN. cbn [bind]. change (s_b (at_rest h5 b5 stat)) with b5. rewrite P. reflexivity.
Qed.

(* A sender encodes frames of one kind, one after the other, into a buffer.  A gateway, with the same checksum services but a heap and factories of its own, gets the bytes and whatever follows,
   cuts them into frames by their length fields, decodes each into a new object and encodes that into a buffer of its own that begins like the sender's: the bytes it writes are those it got. *)
Theorem C96_gateway : forall pr k k2 d d2 stat stat2 R W V W2 V2 c off lf o bf after ms h b, enough k -> enough k2 -> running stat R W V -> running stat2 R W2 V2 -> In (c, off, lf, o, bf, after) frames ->
  heap_ok lib_classes h -> small h -> buf_wf b = true ->
  (forall m, In m ms -> kind m = c /\ portable h (holding R W2) d d2 m) ->
  (forall i j m n, i <> j -> nth_error ms i = Some m -> nth_error ms j = Some n -> unrelated h (place m) (place n)) ->
  let ms1 := filled Y (checksum (holding R W)) (readable b) ms in
  Buffers.fits b (List.length (wires Y ms1)) ->
  exists h1 b1 bs, sends pr k d (map place ms) (at_rest h b stat) = Ret tt (at_rest h1 b1 stat) /\ appended b bs b1
  /\ forall mk h2 b2 out rest, holder mk -> heap_ok lib_classes h2 -> small h2 -> buf_wf out = true -> readable out = readable b -> Buffers.fits out (List.length bs) -> next_frame off o after rest = None ->
     let '(fs, left_over) := frames_in off o after (bs ++ rest) in left_over = rest /\ List.length fs = List.length ms
     /\ exists ls h4 b4 out1, passes pr k2 d2 mk c fs out (at_rest h2 b2 stat2) = Ret (ls, out1) (at_rest h4 b4 stat2) /\ List.length ls = List.length ms
        /\ appended out bs out1 /\ heap_ok lib_classes h4 /\ forall m q, nth_error h2 m = Some q -> nth_error h4 m = Some q.
Proof.
  intros pr k k2 d d2 stat stat2 R W V W2 V2 c off lf o bf after ms h b K K2 Rn Rn2 Hin OK S Hb G U ms1 Fi.
  destruct (gateway_sends pr k d d2 stat R W V (holding R W2) c off lf o bf after K Rn Hin ms h b OK S Hb G U Fi) as (h1 & b1 & J & A & Fr). fold ms1 in A, Fr.
  exists h1, b1, (wires Y ms1). split; [exact J|]. split; [exact A|]. intros mk h2 b2 out rest MK OK2 S2 Ho Hr Fo N.
  change (wires Y ms1) with (List.concat (frames_of ms1)). rewrite (frames_in_framed off o after (frames_of ms1) rest Fr N). split; [reflexivity|]. split.
  { unfold frames_of. rewrite map_length. unfold ms1. generalize (readable b). clear. induction ms as [|m ms IH]; intros pre; cbn; auto. }
  assert (Q : ms1 = filled Y (checksum (holding R W2)) (readable out) ms) by (unfold ms1; rewrite Hr; reflexivity). rewrite Q in Fo |- *.
  apply (gateway_passes pr k2 d2 stat2 R W2 V2 c mk K2 Rn2 MK ms h2 b2 out OK2 S2 Ho); [|exact Fo].
  intros m I. destruct (G m I) as (Kc & F & Sh & Cm & Pa & St & _ & N2). rewrite Kc in *. split; [reflexivity|]. split; [|auto]. exact (fits_object (holding R W2) h (HRef (place m)) (means m) c eq_refl OK F ltac:(discriminate) Sh).
Qed.

Definition two : list message := firstn 2 out.
Lemma two_portable m : In m two -> kind m = "sample.RootPacket"%string /\ portable h_out (holding initial_cache lib_factories) 3 3 m.
Proof.
  intros [<-|[<-|[]]]; (split; [reflexivity|]; split; [apply fitsb_fits; vm_compute; reflexivity|]; split; [apply (view_shows _ 9); vm_compute; reflexivity|]; do 3 (split; [vm_compute; reflexivity|]); split; apply Nat.leb_le; vm_compute; reflexivity).
Qed.
Example C96_meets : (exists stat V, running stat initial_cache lib_factories V) /\ In ("sample.RootPacket", 2%nat, "payloadLen", LE, "payload", 4%nat)%string frames
  /\ heap_ok lib_classes h_out /\ small h_out /\ buf_wf used_buf = true
  /\ (forall m, In m two -> kind m = "sample.RootPacket"%string /\ portable h_out (holding initial_cache lib_factories) 3 3 m)
  /\ (forall i j m n, i <> j -> nth_error two i = Some m -> nth_error two j = Some n -> unrelated h_out (place m) (place n))
  /\ (let w := wires Y (filled Y (checksum (holding initial_cache lib_factories)) (readable used_buf) two) in Buffers.fits used_buf (List.length w)
      /\ next_frame 2 LE 4 [1; 0; 200; 0; 0; 0; 5] = None /\ map (@List.length Z) (fst (frames_in 2 LE 4 (w ++ [1; 0; 200; 0; 0; 0; 5]))) = [10; 36]%nat)
  /\ holder wrapped.
Proof.
  split; [exact some_state|]. split; [left; reflexivity|]. split; [apply cells_ok; vm_compute; reflexivity|]. split; [apply small_check; reflexivity|]. split; [reflexivity|]. split; [exact two_portable|]. split.
  { intros i j m n N Hi Hj. apply (out_apart i j m n N); [destruct i as [|[|[|i]]]; try discriminate; exact Hi|destruct j as [|[|[|j]]]; try discriminate; exact Hj]. }
  split; [cbv zeta; split; [unfold Buffers.fits; apply Z.leb_le; vm_compute; reflexivity|split; vm_compute; reflexivity]|]. exact wrapped_holds.
Qed.

Print Assumptions C96_gateway.
