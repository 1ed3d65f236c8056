(* C97: what the bytes say about the messages, run as Java text. *)
From Coq Require Import ZArith List Bool String Ascii Lia.
From Verif.Model Require Import JavaPrim ByteBuf Checksum Utf8 Codec Ast Interp Factory Show Heap GenSse Library.
From Verif.Spec Require Import Bytes Buffers Wire Reading Layouts Equality Text Access Sharing Apart Locality Flat Sizes JavaState JavaRun.
From Verif.Proofs Require Import BytesFacts BufFacts CodecFacts FillFacts EncodeFacts DecodeFacts HeapFacts HeapOwn HeapFrame HeapCheck HeapTypes HeapSize Conform Messages JavaEncode JavaState.
From Verif.Java Require Import Lex Syntax Source Sources Sem Program.
From Verif.Props Require Import Samples MessageProps SizeProps HeapProps HeapMoreProps JavaStaticProps JavaMessageProps TextProps JavaStreamProps.
Import ListNotations.
Open Scope Z_scope.
Open Scope list_scope.

(* an encode that returned: what it wrote, in terms of the tree *)
Lemma returned pr k d stat R W V h l c t b h1 b1 : enough k -> running stat R W V -> heap_ok lib_classes h -> small h -> Sharing.fits h (HRef l) (TObj c) -> shows h (HRef l) t -> buf_wf b = true ->
  invoke pr k d l "encode"%string [JBuf] (at_rest h b stat) = Ret JVoid (at_rest h1 b1 stat) ->
  object_of (holding R W) c t = true /\ encode (holding R W) d t b = (None, fill_in Y (checksum (holding R W)) (readable b) t (WObj c), b1).
Proof.
  intros K Rn OK S F Sh Hb J. set (E := holding R W) in *. assert (HE : classes E = lib_classes) by reflexivity.
  pose proof (fits_object E h (HRef l) t c HE OK F ltac:(discriminate) Sh) as Ob. split; [exact Ob|].
  rewrite (encode_runs pr k d stat R W V h l c b K Rn OK S F Hb) in J. fold E in J. destruct (C56_encode_unfolds E d h (HRef l) t b HE Sh) as [Q1 Q2].
  destruct (hencode E d h (HRef l) b) as [[[x|] g] y]; [discriminate|]. injection J as _ <-. cbn [fst snd] in Q1, Q2.
  destruct (encode E d t b) as [[e t1] b'] eqn:EN. cbn [fst snd] in Q1, Q2. subst e b'.
  destruct (C23_encode_appends_wire_form E d c t b t1 y HE Ob Hb EN) as (_ & _ & -> & _). reflexivity.
Qed.

(* fields that get numbers lead nowhere *)
Lemma touched_reach h h1 : List.length h1 = List.length h -> (forall l q q', nth_error h l = Some q -> nth_error h1 l = Some q' -> touched Y q q') -> forall v m, reach h1 v m -> reach h v m.
Proof.
  intros Len T v m Rm. induction Rm as [l|l c fs f v m Hl If Rm IH|l vs v m Hl Iv Rm IH]; [constructor| |].
  - destruct (nth_error h l) as [q|] eqn:Q; [|apply nth_error_None in Q; apply nth_lt in Hl; lia]. specialize (T l q _ Q Hl). destruct q as [c' gs|vs]; [|discriminate].
    destruct T as (-> & Nm & T). apply In_nth_error in If. destruct If as (i & Hi). assert (exists w, nth_error gs i = Some (f, w)) as (w & Gi).
    { assert (X : nth_error (map fst fs) i = Some f) by (rewrite nth_error_map, Hi; reflexivity). rewrite Nm, nth_error_map in X. destruct (nth_error gs i) as [[g w]|]; [|discriminate]. injection X as ->. eauto. }
    destruct (T i f w v Gi Hi) as [->|(_ & z & ->)]; [|inversion Rm]. eapply reach_field; [exact Q|eapply nth_error_In; exact Gi|exact IH].
  - destruct (nth_error h l) as [q|] eqn:Q; [|apply nth_error_None in Q; apply nth_lt in Hl; lia]. specialize (T l q _ Q Hl). destruct q as [c' gs|ws]; cbn in T; [discriminate|]. injection T as ->. eapply reach_elem; eauto.
Qed.

(* ---- C97 ---- *)
(* Two programs encode a message each. If what one wrote begins with all that the other wrote, the two wrote the same, and the messages are the same up to null and "".
   [E] is any reader that knows the bodies of both. *)
Theorem C97_injective : forall E pr pr' k k' d d' stat stat' R W V R' W' V' h h' l l' c t u b b' h1 b1 h1' b1' bs ext, classes E = lib_classes ->
  enough k -> enough k' -> running stat R W V -> running stat' R' W' V' ->
  heap_ok lib_classes h -> small h -> Sharing.fits h (HRef l) (TObj c) -> shows h (HRef l) t -> buf_wf b = true ->
  heap_ok lib_classes h' -> small h' -> Sharing.fits h' (HRef l') (TObj c) -> shows h' (HRef l') u -> buf_wf b' = true ->
  parsable Y (factory E) t (WObj c) = true -> canonical Y t (WObj c) = true -> parsable Y (factory E) u (WObj c) = true -> canonical Y u (WObj c) = true ->
  invoke pr k d l "encode"%string [JBuf] (at_rest h b stat) = Ret JVoid (at_rest h1 b1 stat) -> appended b bs b1 ->
  invoke pr' k' d' l' "encode"%string [JBuf] (at_rest h' b' stat') = Ret JVoid (at_rest h1' b1' stat') -> appended b' (bs ++ ext) b1' ->
  let t1 := fill_in Y (checksum (holding R W)) (readable b) t (WObj c) in let u1 := fill_in Y (checksum (holding R' W')) (readable b') u (WObj c) in
  ext = [] /\ equivalent t1 u1 /\ (exact_form Y t (WObj c) = true -> exact_form Y u (WObj c) = true -> t1 = u1).
Proof.
  intros E pr pr' k k' d d' stat stat' R W V R' W' V' h h' l l' c t u b b' h1 b1 h1' b1' bs ext HE K K' Rn Rn' OK S F Sh Hb OK' S' F' Sh' Hb' Pt Ct Pu Cu J Ap J' Ap' t1 u1.
  destruct (returned pr k d stat R W V h l c t b h1 b1 K Rn OK S F Sh Hb J) as [Ot En]. destruct (returned pr' k' d' stat' R' W' V' h' l' c u b' h1' b1' K' Rn' OK' S' F' Sh' Hb' J') as [Ou Eu]. fold t1 in En. fold u1 in Eu.
  set (D := max (nesting t) (nesting u)).
  destruct (C22_round_trip (holding R W) E d D c t b t1 b1 eq_refl HE Ot Hb En Pt Ct ltac:(lia)) as (bs1 & A1 & RT).
  destruct (C22_round_trip (holding R' W') E d' D c u b' u1 b1' eq_refl HE Ou Hb' Eu Pu Cu ltac:(lia)) as (bs2 & A2 & RU).
  assert (bs1 = bs) as -> by (pose proof (app_content _ _ _ A1) as Q; rewrite (app_content _ _ _ Ap) in Q; apply app_inv_head in Q; auto).
  assert (bs2 = bs ++ ext) as -> by (pose proof (app_content _ _ _ A2) as Q; rewrite (app_content _ _ _ Ap') in Q; apply app_inv_head in Q; auto).
  destruct (C23_encode_appends_wire_form (holding R' W') d' c u b' u1 b1' eq_refl Ou Hb' Eu) as (_ & Wb1 & _). apply buf_wf_iff in Wb1.
  destruct (buffer_of (bs ++ ext) (appended_bytes _ _ _ Wb1 Ap') (appended_small _ _ _ Wb1 Ap')) as (b0 & W0 & R0).
  destruct (RT b0 ext W0 R0) as (v2 & b3 & D1 & Q1 & X1 & _ & Y1). destruct (RU b0 [] W0 ltac:(rewrite app_nil_r; exact R0)) as (v3 & b4 & D2 & Q2 & X2 & _ & Y2).
  rewrite D1 in D2. injection D2 as <- <-. split; [|split].
  - unfold advanced in Y1, Y2. rewrite Y1 in Y2. apply (f_equal readable) in Y2. rewrite !readable_advance, R0 in Y2. rewrite skipn_all in Y2. rewrite skipn_app, skipn_all, Nat.sub_diag in Y2. exact Y2.
  - unfold equivalent in *. congruence.
  - intros Et Eu'. rewrite <- (X1 Et). exact (X2 Eu').
Qed.
(* encode appends as many bytes as the layouts say *)
Theorem C97_size : forall pr k d stat R W V h l c t b h1 b1, enough k -> running stat R W V -> heap_ok lib_classes h -> small h -> Sharing.fits h (HRef l) (TObj c) -> shows h (HRef l) t -> buf_wf b = true ->
  invoke pr k d l "encode"%string [JBuf] (at_rest h b stat) = Ret JVoid (at_rest h1 b1 stat) ->
  (exists bs, appended b bs b1 /\ List.length bs = size_of Y t (WObj c))
  (* classes with fixed-width fields only *)
  /\ forall L fs, t = VObj c fs -> find c Y = Some L -> flat L = true -> lefts_filled fs L = true -> exists bs, appended b bs b1 /\ List.length bs = total_width L.
Proof.
  intros pr k d stat R W V h l c t b h1 b1 K Rn OK S F Sh Hb J. destruct (returned pr k d stat R W V h l c t b h1 b1 K Rn OK S F Sh Hb J) as [Ob En]. split.
  - exact (C43_encoded_size (holding R W) d c t b _ b1 eq_refl Ob Hb En).
  - intros L fs -> HL Fl Lf. exact (C43_constant_size (holding R W) d c fs b _ b1 L eq_refl Ob Hb En HL Fl Lf).
Qed.
(* In one program two messages of a class, that share nothing, are encoded one after the other. If the bytes are the same, equals then says so, and the hash codes agree. *)
Theorem C97_same_bytes_equal : forall pr k d stat R W V h l l' c t u fp fp' b b' h1 b1 h2 b2 bs x, enough k -> running stat R W V ->
  heap_ok lib_classes h -> small h -> Sharing.fits h (HRef l) (TObj c) -> owns h (HRef l) t fp -> buf_wf b = true ->
  Sharing.fits h (HRef l') (TObj c) -> owns h (HRef l') u fp' -> buf_wf b' = true -> (forall m, In m fp -> ~ In m fp') ->
  parsable Y (factory (holding R W)) t (WObj c) = true -> canonical Y t (WObj c) = true -> exact_form Y t (WObj c) = true ->
  parsable Y (factory (holding R W)) u (WObj c) = true -> canonical Y u (WObj c) = true -> exact_form Y u (WObj c) = true ->
  invoke pr k d l "encode"%string [JBuf] (at_rest h b stat) = Ret JVoid (at_rest h1 b1 stat) -> appended b bs b1 ->
  invoke pr k d l' "encode"%string [JBuf] (at_rest h1 b' stat) = Ret JVoid (at_rest h2 b2 stat) -> appended b' bs b2 ->
  invoke pr k d l "equals"%string [JT (T1 "Object") (HRef l')] (at_rest h2 x stat) = Ret (JB true) (at_rest h2 x stat)
  /\ exists y, invoke pr k d l "hashCode"%string [] (at_rest h2 x stat) = y /\ invoke pr k d l' "hashCode"%string [] (at_rest h2 x stat) = y.
Proof.
  intros pr k d stat R W V h l l' c t u fp fp' b b' h1 b1 h2 b2 bs x K Rn OK S F Ow Hb F' Ow' Hb' Dj Pt Ct Et Pu Cu Eu J Ap J' Ap'.
  pose proof (proj1 (owns_shows h) _ _ _ Ow) as Sh. pose proof (proj1 (owns_shows h) _ _ _ Ow') as Sh'.
  (* the first encode *)
  destruct (C77_encode pr k d stat R W V h l c t b K Rn OK S F Sh Hb) as (e & h1' & b1' & Q & OK1 & F1 & Hb1 & _ & X & O1). cbv zeta in X, O1. rewrite J in Q. destruct e as [e|]; [discriminate|]. injection Q as <- <-.
  destruct (O1 fp Ow eq_refl) as (fp1 & Ow1). destruct X as (_ & N1 & _).
  destruct (C77_any_graph pr k d stat R W V h l c b K Rn OK S F Hb) as (e & h1' & b1' & Q & _ & _ & _ & Len & Fr). rewrite J in Q. destruct e as [e|]; [discriminate|]. injection Q as <- <-.
  assert (Same : forall m, In m fp' -> nth_error h1 m = nth_error h m) by (intros m I; apply Fr; intros Rm; exact (Dj m (proj1 (owns_reaches h) _ _ _ Ow m Rm) I)).
  pose proof (C57_encode_frame (holding R W) d h (HRef l) b eq_refl) as TF. cbv zeta in TF. pose proof J as JR. rewrite (encode_runs pr k d stat R W V h l c b K Rn OK S F Hb) in JR.
  assert (H1 : snd (fst (hencode (holding R W) d h (HRef l) b)) = h1). { destruct (hencode (holding R W) d h (HRef l) b) as [[[z|] g] y]; [discriminate|]. injection JR as <- _. reflexivity. }
  rewrite H1 in TF. destruct TF as [_ TF]. clear JR H1.
  assert (S1 : small h1) by (apply (touched_small h h1 Len); [intros i q q' A B; apply (TF i q q' A B)|exact S]).
  assert (Ow1' : owns h1 (HRef l') u fp') by (apply (proj1 (owns_frame h h1) _ _ _ Ow' Same)).
  assert (F1' : Sharing.fits h1 (HRef l') (TObj c)). { destruct F' as (fs & Hl'). exists fs. rewrite Same; [exact Hl'|]. apply (proj1 (owns_reaches h) _ _ _ Ow'). constructor. }
  pose proof (proj1 (owns_shows h1) _ _ _ Ow1') as Sh1'. pose proof (proj1 (owns_shows h1) _ _ _ Ow1) as Sh1.
  (* the second *)
  destruct (C77_encode pr k d stat R W V h1 l' c u b' K Rn OK1 S1 F1' Sh1' Hb') as (e & h2' & b2' & Q & OK2 & F2' & Hb2 & _ & X & O2). cbv zeta in X, O2. rewrite J' in Q. destruct e as [e|]; [discriminate|]. injection Q as <- <-.
  destruct (O2 fp' Ow1' eq_refl) as (fp2 & Ow2). destruct X as (_ & N2 & _).
  destruct (C77_any_graph pr k d stat R W V h1 l' c b' K Rn OK1 S1 F1' Hb') as (e & h2' & b2' & Q & _ & _ & _ & Len2 & Fr2). rewrite J' in Q. destruct e as [e|]; [discriminate|]. injection Q as <- <-.
  assert (Keep : forall m, reach h1 (HRef l) m -> nth_error h2 m = nth_error h1 m).
  { intros m Rm. apply Fr2. intros Rm'. apply (Dj m); [|exact (proj1 (owns_reaches h1) _ _ _ Ow1' m Rm')]. apply (proj1 (owns_reaches h) _ _ _ Ow). apply (touched_reach h h1 Len); [|exact Rm]. intros i q q' A B. apply (TF i q q' A B). }
  pose proof (proj1 (shows_apart h1 h2) _ _ Sh1 Keep) as Sh2. pose proof (proj1 (owns_shows h2) _ _ _ Ow2) as Sh2'.
  assert (F2 : Sharing.fits h2 (HRef l) (TObj c)) by (destruct F1 as (fs & Hl); exists fs; rewrite Keep; [exact Hl|constructor]).
  destruct (C97_injective (holding R W) pr pr k k d d stat stat R W V R W V h h1 l l' c t u b b' h1 b1 h2 b2 bs [] eq_refl K K Rn Rn OK S F Sh Hb OK1 S1 F1' Sh1' Hb' Pt Ct Pu Cu J Ap J' ltac:(rewrite app_nil_r; exact Ap')) as (_ & _ & EQ).
  specialize (EQ Et Eu). rewrite <- EQ in Sh2'. destruct (returned pr k d stat R W V h l c t b h1 b1 K Rn OK S F Sh Hb J) as [Ob En].
  destruct (encoded_facts lib_classes Y library_conforms (holding R W) eq_refl d c t b _ b1 Ob Hb En) as (_ & _ & Hn1 & _).
  destruct (C80_equals pr k d stat R W V h2 l l' c c _ _ x K Rn OK2 F2 F2' Sh2 Sh2' ltac:(lia)) as (r & Q & Y1). rewrite Q, (proj2 Y1 eq_refl). split; [reflexivity|].
  eexists. split; [exact (C80_hash_code pr k d stat R W V h2 l c _ x K Rn OK2 F2 Sh2)|exact (C80_hash_code pr k d stat R W V h2 l' c _ x K Rn OK2 F2' Sh2')].
Qed.

(* two messages with parts of their own and the same contents *)
Definition h_pair : heap := h_two ++ [ obj "sample.SubPacket" [("fieldU32", HInt 1)]; obj "sample.SubPacket" [("fieldU32", HInt 1)]; CList [HRef 7; HRef 8]; obj "sample.NestedPacket.InerPacket" [];
    obj "sample.SubPacket" [("fieldU32", HInt 1)]; obj "sample.NestedPacket" [("subPacket", HRef 11); ("subPacketList", HRef 9); ("inerPacket", HRef 10)] ]%string.
Example C97_meets : let t := seen 9 h_pair (HRef 5) in let c := "sample.NestedPacket"%string in let w := WObj c in let E := holding initial_cache lib_factories in
  heap_ok lib_classes h_pair /\ small h_pair /\ Sharing.fits h_pair (HRef 5) (TObj c) /\ Sharing.fits h_pair (HRef 12) (TObj c)
  /\ owns h_pair (HRef 5) t [5; 4; 2; 0; 1; 3]%nat /\ owns h_pair (HRef 12) t [12; 11; 9; 7; 8; 10]%nat /\ (forall m, In m [5; 4; 2; 0; 1; 3]%nat -> ~ In m [12; 11; 9; 7; 8; 10]%nat)
  /\ parsable Y (factory E) t w = true /\ canonical Y t w = true /\ exact_form Y t w = true
  /\ exists k stat V h1 b1 h2 b2 bs, enough k /\ running stat initial_cache lib_factories V /\ List.length bs = 26%nat /\ size_of Y t w = 26%nat
  /\ invoke some_printers k 2 5 "encode"%string [JBuf] (at_rest h_pair used_buf stat) = Ret JVoid (at_rest h1 b1 stat) /\ appended used_buf bs b1
  /\ invoke some_printers k 2 12 "encode"%string [JBuf] (at_rest h1 used_buf stat) = Ret JVoid (at_rest h2 b2 stat) /\ appended used_buf bs b2.
Proof.
  intros t c w E.
  assert (OK : heap_ok lib_classes h_pair) by (apply cells_ok; vm_compute; reflexivity). assert (S : small h_pair) by (apply small_check; reflexivity).
  assert (F : Sharing.fits h_pair (HRef 5) (TObj c)) by (apply fitsb_fits; vm_compute; reflexivity). assert (F' : Sharing.fits h_pair (HRef 12) (TObj c)) by (apply fitsb_fits; vm_compute; reflexivity).
  assert (Ow : owns h_pair (HRef 5) t [5; 4; 2; 0; 1; 3]%nat) by (apply (owned_owns _ 9); vm_compute; reflexivity). assert (Ow' : owns h_pair (HRef 12) t [12; 11; 9; 7; 8; 10]%nat) by (apply (owned_owns _ 9); vm_compute; reflexivity).
  assert (Dj : forall m, In m [5; 4; 2; 0; 1; 3]%nat -> ~ In m [12; 11; 9; 7; 8; 10]%nat) by (cbn; intros m I J; lia).
  split; [exact OK|]. split; [exact S|]. split; [exact F|]. split; [exact F'|]. split; [exact Ow|]. split; [exact Ow'|]. split; [exact Dj|]. do 3 (split; [vm_compute; reflexivity|]).
  destruct some_state as (stat & V & Rn). assert (exists k, enough k) as (k & K) by (exists (Z.to_nat (2 ^ 31 + 4)); unfold enough; rewrite Z2Nat.id; lia).
  pose proof (proj1 (owns_shows h_pair) _ _ _ Ow) as Sh. pose proof (proj1 (owns_shows h_pair) _ _ _ Ow') as Sh'. assert (Hb : buf_wf used_buf = true) by reflexivity.
  assert (Cm : complete Y t w = true) by (vm_compute; reflexivity). assert (Nn : nesting t = 2%nat) by (vm_compute; reflexivity).
  set (bs := ser Y (fill_in Y (checksum E) (readable used_buf) t w) w). assert (Fi : Buffers.fits used_buf (List.length bs)) by (unfold Buffers.fits; apply Z.leb_le; vm_compute; reflexivity).
  destruct (C77_encode some_printers k 2 stat _ _ V h_pair 5 c t used_buf K Rn OK S F Sh Hb) as (e & h1 & b1 & J & OK1 & F1 & Hb1 & _ & X & _). cbv zeta in X. fold E w bs in X.
  assert (e = None) as ->. { destruct e as [[]|]; try contradiction; [congruence|lia|reflexivity]. }
  destruct (C77_any_graph some_printers k 2 stat _ _ V h_pair 5 c used_buf K Rn OK S F Hb) as (e & h1' & b1' & Q & _ & _ & _ & Len & Fr). rewrite J in Q. destruct e as [e|]; [discriminate|]. injection Q as <- <-.
  assert (Same : forall m, In m [12; 11; 9; 7; 8; 10]%nat -> nth_error h1 m = nth_error h_pair m) by (intros m I; apply Fr; intros Rm; exact (Dj m (proj1 (owns_reaches h_pair) _ _ _ Ow m Rm) I)).
  assert (S1 : small h1).
  { pose proof (C57_encode_frame E 2 h_pair (HRef 5) used_buf eq_refl) as TF. cbv zeta in TF. pose proof J as JR. rewrite (encode_runs some_printers k 2 stat _ _ V h_pair 5 c used_buf K Rn OK S F Hb) in JR. fold E in JR.
    assert (H1 : snd (fst (hencode E 2 h_pair (HRef 5) used_buf)) = h1). { destruct (hencode E 2 h_pair (HRef 5) used_buf) as [[[z|] g] y]; [discriminate|]. injection JR as <- _. reflexivity. }
    rewrite H1 in TF. apply (touched_small h_pair h1 Len); [intros i q q' A B; apply (proj2 TF i q q' A B)|exact S]. }
  assert (Sh1 : shows h1 (HRef 12) t) by (exact (proj1 (owns_shows h1) _ _ _ (proj1 (owns_frame h_pair h1) _ _ _ Ow' Same))).
  assert (F1' : Sharing.fits h1 (HRef 12) (TObj c)) by (destruct F' as (fs & Hl); exists fs; rewrite Same; [exact Hl|left; reflexivity]).
  destruct (C77_encode some_printers k 2 stat _ _ V h1 12 c t used_buf K Rn OK1 S1 F1' Sh1 Hb) as (e & h2 & b2 & J2 & _ & _ & _ & _ & X2 & _). cbv zeta in X2. fold E w bs in X2.
  assert (e = None) as ->. { destruct e as [[]|]; try contradiction; [congruence|lia|reflexivity]. }
  exists k, stat, V, h1, b1, h2, b2, bs. split; [exact K|]. split; [exact Rn|]. split; [vm_compute; reflexivity|]. split; [vm_compute; reflexivity|]. split; [exact J|]. split; [apply X|]. split; [exact J2|apply X2].
Qed.
Print Assumptions C97_injective.
Print Assumptions C97_size.
Print Assumptions C97_same_bytes_equal.
