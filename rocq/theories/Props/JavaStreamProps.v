(* C85: streams of messages, run as Java text. *)
From Coq Require Import ZArith List Bool String Ascii Lia.
From Verif.Model Require Import JavaPrim ByteBuf Checksum Utf8 Codec Ast Interp Factory Show Heap GenSse Library.
From Verif.Spec Require Import Bytes Buffers Wire Reading Layouts Equality Text Access Sharing Apart JavaState JavaRun.
From Verif.Proofs Require Import BytesFacts BufFacts CodecFacts EncodeFacts DecodeFacts HeapFacts HeapOwn HeapFrame HeapCheck Conform Messages JavaEncode JavaState.
From Verif.Java Require Import Lex Syntax Source Sources Sem Program.
From Verif.Props Require Import Samples MessageProps LocalProps TextProps HeapProps HeapMoreProps JavaStaticProps JavaMessageProps WorkerProps.
From Verif.Spec Require Import JavaStream.
Import ListNotations.
Open Scope Z_scope.
Open Scope list_scope.

Lemma reach_kept h h1 v m : (forall l, reach h v l -> nth_error h1 l = nth_error h l) -> reach h1 v m -> reach h v m.
Proof.
  intros S R. induction R as [l|l c fs f v m A B R IH|l vs v m A B R IH].
  - constructor.
  - rewrite S in A by constructor. eapply reach_field; eauto. apply IH. intros j J. apply S. eapply reach_field; eauto.
  - rewrite S in A by constructor. eapply reach_elem; eauto. apply IH. intros j J. apply S. eapply reach_elem; eauto.
Qed.
Lemma touched_small h h1 : List.length h1 = List.length h -> (forall l k k', nth_error h l = Some k -> nth_error h1 l = Some k' -> touched Y k k') -> small h -> small h1.
Proof.
  intros L T S l vs H. destruct (nth_error h l) as [k|] eqn:Q; [|apply nth_error_None in Q; apply nth_lt in H; lia]. specialize (T l k _ Q H). destruct k as [c fs|ws]; cbn in T; [discriminate|]. injection T as ->. eapply S; eauto.
Qed.
Lemma owns_reaches h : (forall v t fp, owns h v t fp -> forall m, reach h v m -> In m fp) /\ (forall vs ts fp, owns_all h vs ts fp -> forall v m, In v vs -> reach h v m -> In m fp).
Proof.
  apply owns_ind2; intros; try (match goal with R : reach _ _ _ |- _ => inversion R; subst end; fail).
  - inversion H3; subst; [left; reflexivity|congruence|]. right. assert (vs0 = vs) by congruence. subst. eapply H1; eauto.
  - inversion H4; subst; [left; reflexivity| |congruence]. right. assert (fs0 = fs) by congruence. subst. eapply H2; eauto. change v with (snd (f, v)). apply in_map. assumption.
  - contradiction.
  - apply in_or_app. destruct H4 as [->|H4]; [left|right]; eauto.
Qed.
(* a message the sender can send and the receiver can read *)
Definition good (h : heap) (E E2 : env) (d d2 : nat) (m : message) : Prop :=
  Sharing.fits h (HRef (place m)) (TObj (kind m)) /\ shows h (HRef (place m)) (means m) /\ complete Y (means m) (WObj (kind m)) = true
  /\ parsable Y (factory E2) (means m) (WObj (kind m)) = true /\ canonical Y (means m) (WObj (kind m)) = true /\ (nesting (means m) <= d)%nat /\ (nesting (means m) <= d2)%nat.

(* ---- C85 ---- *)
(* A sender with messages ms encodes them one after the other into one buffer; a receiver with registrations of its own and a heap h2 of its own finds the bytes, followed by anything,
   makes a new object for each and decodes them.  It gets the messages, in order. *)
Theorem C85_streams : forall pr k k2 d d2 stat stat2 R W V R2 W2 V2 ms h b, enough k -> enough k2 -> running stat R W V -> running stat2 R2 W2 V2 ->
  heap_ok lib_classes h -> small h -> buf_wf b = true ->
  (forall m, In m ms -> good h (holding R W) (holding R2 W2) d d2 m) ->
  (forall i j m n, i <> j -> nth_error ms i = Some m -> nth_error ms j = Some n -> unrelated h (place m) (place n)) ->
  let ms1 := filled Y (checksum (holding R W)) (readable b) ms in
  Buffers.fits b (List.length (wires Y ms1)) ->
  exists h1 b1, sends pr k d (map place ms) (at_rest h b stat) = Ret tt (at_rest h1 b1 stat) /\ appended b (wires Y ms1) b1
  /\ (forall l, (forall m, In m ms -> ~ reach h (HRef (place m)) l) -> nth_error h1 l = nth_error h l)
  /\ forall h2 b2 rest, heap_ok lib_classes h2 -> buf_wf b2 = true -> readable b2 = wires Y ms1 ++ rest ->
     exists ls h4 b4 ts, receives pr k2 d2 (map kind ms) (at_rest h2 b2 stat2) = Ret ls (at_rest h4 b4 stat2)
     /\ Forall2 (fun l t => shows h4 (HRef l) t) ls ts /\ Forall2 (fun t m => equivalent t (means m)) ts ms1
     /\ (forallb (fun m => exact_form Y (means m) (WObj (kind m))) ms = true -> ts = map means ms1)
     /\ advanced b2 (List.length (wires Y ms1)) b4 /\ readable b4 = rest
     /\ heap_ok lib_classes h4 /\ Forall2 (fun l m => Sharing.fits h4 (HRef l) (TObj (kind m))) ls ms
     (* nothing of what was there has changed, what is received is new and no two received messages have anything in common *)
     /\ (forall m q, nth_error h2 m = Some q -> nth_error h4 m = Some q)
     /\ (forall l m, In l ls -> reach h4 (HRef l) m -> (List.length h2 <= m)%nat)
     /\ (forall i j l l', i <> j -> nth_error ls i = Some l -> nth_error ls j = Some l' -> unrelated h4 l l').
Proof.
  intros pr k k2 d d2 stat stat2 R W V R2 W2 V2 ms. induction ms as [|m ms IH]; intros h b K K2 Rn Rn2 OK S Hb G U ms1 Fi.
  - exists h, b. split; [reflexivity|]. split; [apply appended_nil|]. split; [auto|]. intros h2 b2 rest OK2 Hb2 Hr. exists [], h2, b2, []. cbn [receives map]. split; [reflexivity|]. split; [constructor|]. split; [constructor|].
    split; [reflexivity|]. split; [unfold advanced; cbn; rewrite Nat.add_0_r; destruct b2; reflexivity|]. split; [exact Hr|]. split; [exact OK2|]. split; [constructor|]. split; [auto|].
    split; [intros l m []|]. intros [|i] j l l' _ H; discriminate H.
  - destruct (G m (or_introl eq_refl)) as (F & Sh & Cm & Pa & Ca & N1 & N2). cbn [filled] in ms1. set (t1 := fill_in Y (checksum (holding R W)) (readable b) (means m) (WObj (kind m))) in *.
    set (bs := ser Y t1 (WObj (kind m))) in *. set (ms2 := filled Y (checksum (holding R W)) (readable b ++ bs) ms) in *.
    assert (WW : wires Y ms1 = bs ++ wires Y ms2) by reflexivity. rewrite WW in *. rewrite app_length in *.
    assert (Fi1 : Buffers.fits b (List.length bs)) by (unfold Buffers.fits in *; lia).
    pose proof (proj1 (buf_wf_iff b) Hb) as Wb.
    destruct (C77_encode pr k d stat R W V h (place m) (kind m) (means m) b K Rn OK S F Sh Hb) as (e & h1 & b1 & J & OK1 & F1 & Hb1 & _ & X & _). cbv zeta in X. fold t1 in X.
    assert (RT : forall h2 b2 rest, heap_ok lib_classes h2 -> exists h1' b1' bs', invoke pr k d (place m) "encode"%string [JBuf] (at_rest h b stat) = Ret JVoid (at_rest h1' b1' stat) /\ appended b bs' b1'
      /\ (buf_wf b2 = true -> readable b2 = bs' ++ rest ->
     exists h3 h4 b4 t4, create_new (kind m) (at_rest h2 b2 stat2) = Ret (JT (T1 (kind m)) (HRef (List.length h2))) (at_rest h3 b2 stat2)
     /\ invoke pr k2 d2 (List.length h2) "decode"%string [JBuf] (at_rest h3 b2 stat2) = Ret JVoid (at_rest h4 b4 stat2)
     /\ shows h4 (HRef (List.length h2)) t4 /\ equivalent t4 t1 /\ (exact_form Y (means m) (WObj (kind m)) = true -> t4 = t1)
     /\ advanced b2 (List.length bs') b4 /\ readable b4 = rest
     /\ heap_ok lib_classes h4 /\ Sharing.fits h4 (HRef (List.length h2)) (TObj (kind m))
     /\ (forall m q, nth_error h2 m = Some q -> nth_error h4 m = Some q)
     /\ exists fp, owns h4 (HRef (List.length h2)) t4 fp /\ forall m, In m fp -> (List.length h2 <= m)%nat)).
    { intros h2 b2 rest OK2. exact (C79_round_trip pr k k2 d d2 stat stat2 R W V R2 W2 V2 h h2 (place m) (kind m) (means m) b b2 rest K K2 Rn Rn2 OK S OK2 F Sh Hb Cm Pa Ca Fi1 N1 N2). }
    assert (e = None) as ->. { destruct (RT h b [] OK) as (h1' & b1' & bs' & J' & _). rewrite J in J'. destruct e; [discriminate|reflexivity]. }
    destruct X as (_ & _ & _ & Ap1). fold bs in Ap1.
    pose proof (proj1 (buf_wf_iff b1) Hb1) as Wb1.
    assert (Rd : readable b1 = readable b ++ bs) by (apply appended_readable; auto).
    destruct (C77_any_graph pr k d stat R W V h (place m) (kind m) b K Rn OK S F Hb) as (e' & h1' & b1' & J' & _ & _ & _ & Len & Fr). rewrite J in J'. destruct e' as [e'|]; [discriminate|]. injection J' as <- <-.
    pose proof (C57_encode_frame (holding R W) d h (HRef (place m)) b eq_refl) as TF. cbv zeta in TF.
    pose proof J as JR. rewrite (encode_runs pr k d stat R W V h (place m) (kind m) b K Rn OK S F Hb) in JR.
    assert (H1 : snd (fst (hencode (holding R W) d h (HRef (place m)) b)) = h1).
    { destruct (hencode (holding R W) d h (HRef (place m)) b) as [[[x|] g] y]; [discriminate|]. injection JR as <- <-. reflexivity. }
    rewrite H1 in TF. destruct TF as [_ TF].
    assert (S1 : small h1) by (apply (touched_small h h1 Len); [intros l q q' A B; apply (TF l q q' A B)|exact S]).
    assert (Same : forall n, In n ms -> forall l, reach h (HRef (place n)) l -> nth_error h1 l = nth_error h l).
    { intros n I l Rl. apply In_nth_error in I. destruct I as (i & Hi). apply Fr. intros Rm. exact (U 0%nat (Datatypes.S i) m n ltac:(discriminate) eq_refl Hi l Rm Rl). }
    destruct (IH h1 b1 K K2 Rn Rn2 OK1 S1 Hb1) as (hE & bE & JE & ApE & FrE & RE).
    { intros n I. destruct (G n (or_intror I)) as (Fn & Sn & Gn). split; [|split; [|exact Gn]].
      - destruct Fn as (fs & Hn). exists fs. rewrite (Same n I); [exact Hn|constructor].
      - apply (proj1 (shows_apart h h1) _ _ Sn). exact (Same n I). }
    { intros i j n n' NE Hi Hj l Rl Rl'. pose proof (nth_error_In _ _ Hi) as Ii. pose proof (nth_error_In _ _ Hj) as Ij.
      exact (U (Datatypes.S i) (Datatypes.S j) n n' ltac:(congruence) Hi Hj l (reach_kept h h1 _ l (Same n Ii) Rl) (reach_kept h h1 _ l (Same n' Ij) Rl')). }
    { rewrite Rd. fold ms2. apply (proj2 (fits_after b bs b1 _ Wb Wb1 Ap1)). exact Fi. }
    rewrite Rd in ApE, RE. fold ms2 in ApE, RE.
    exists hE, bE. split; [cbn [map sends bind]; rewrite J; exact JE|]. split; [eapply appended_trans; eauto|]. split.
    { intros l N. rewrite FrE; [apply Fr; apply N; left; reflexivity|]. intros n I Rl. apply (N n (or_intror I)). eapply reach_kept; [exact (Same n I)|exact Rl]. }
    intros h2 b2 rest OK2 Hb2 Hr. rewrite <- app_assoc in Hr. destruct (RT h2 b2 (wires Y ms2 ++ rest) OK2) as (h1' & b1' & bs' & J' & Ap' & RD). rewrite J in J'. injection J' as <- <-.
    assert (bs' = bs) by (pose proof (app_content _ _ _ Ap') as Q; rewrite (app_content _ _ _ Ap1) in Q; apply app_inv_head in Q; auto). subst bs'.
    destruct (RD Hb2 Hr) as (h3 & h4 & b4 & t4 & CN & DE & S4 & E4 & X4 & A4 & R4 & OK4 & F4 & Un & fp & Ow & Fp).
    assert (Hb4 : buf_wf b4 = true). { unfold advanced in A4. subst b4. apply buf_wf_iff. apply buf_wf_iff in Hb2. exact (proj1 (adv_ok b2 _ _ Hb2 Hr)). }
    destruct (RE h4 b4 rest OK4 Hb4 R4) as (ls & h5 & b5 & ts & RC & SH & EQ & EX & AD & RS & OK5 & FT & UN & NEW & APT).
    assert (L24 : (List.length h2 <= List.length h4)%nat).
    { destruct (Nat.le_gt_cases (List.length h2) (List.length h4)) as [|GT]; [assumption|]. destruct (nth_error h2 (List.length h4)) as [q|] eqn:Q; [|apply nth_error_None in Q; lia]. apply Un, nth_lt in Q. lia. }
    assert (KEEP : forall l, (l < List.length h4)%nat -> nth_error h5 l = nth_error h4 l). { intros l L. destruct (nth_error h4 l) as [q|] eqn:Q; [exact (UN l q Q)|apply nth_error_None in Q; lia]. }
    pose proof (proj1 (owns_bound h4) _ _ _ Ow) as BD.
    assert (RO : forall l, reach h4 (HRef (List.length h2)) l -> nth_error h5 l = nth_error h4 l) by (intros l Rl; apply KEEP, BD; exact (proj1 (owns_reaches h4) _ _ _ Ow l Rl)).
    assert (RO5 : forall l, reach h5 (HRef (List.length h2)) l -> (List.length h2 <= l < List.length h4)%nat).
    { intros l Rl. pose proof (proj1 (owns_reaches h4) _ _ _ Ow l (reach_kept h4 h5 _ l RO Rl)) as I. split; [exact (Fp l I)|exact (BD l I)]. }
    exists (List.length h2 :: ls), h5, b5, (t4 :: ts). split.
    { cbn [map receives]. rewrite CN. cbn [bind]. rewrite DE. cbn [bind]. rewrite RC. reflexivity. }
    split; [constructor; [apply (proj1 (shows_apart h4 h5) _ _ S4 RO)|exact SH]|]. split; [constructor; [exact E4|exact EQ]|]. split.
    { cbn [forallb]. rewrite andb_true_iff. intros [X Z]. cbn [map means]. rewrite (X4 X), (EX Z). reflexivity. }
    split. { unfold advanced in *. subst b5 b4. cbn. rewrite Nat.add_assoc. reflexivity. }
    split; [exact RS|]. split; [exact OK5|]. split.
    { constructor; [|exact FT]. destruct F4 as (fs & Hl). exists fs. exact (UN _ _ Hl). }
    split; [intros n q Hq; apply UN, Un; exact Hq|]. split.
    { intros l n [<-|I] Rl; [apply RO5; exact Rl|]. pose proof (NEW l n I Rl). lia. }
    intros [|i] [|j] l l' NE Hi Hj n Rl Rl'; cbn in Hi, Hj; [congruence| | |exact (APT i j l l' ltac:(congruence) Hi Hj n Rl Rl')].
    + injection Hi as <-. pose proof (RO5 n Rl). pose proof (NEW l' n (nth_error_In _ _ Hj) Rl'). lia.
    + injection Hj as <-. pose proof (RO5 n Rl'). pose proof (NEW l n (nth_error_In _ _ Hi) Rl). lia.
Qed.

(* a frame with shared parts at 4, one with an empty payload at 6 and a small packet at 5; the receiver has removed all checksum services *)
Definition h_out : heap := h_alias ++ [ obj "sample.SubPacket" [("fieldU32", HInt 7)]; obj "sample.RootPacket" [("msgType", HInt 4); ("payload", HRef 7)]; obj "sample.EmptyPacket" [] ]%string.
Definition out : list message := map (fun lc => {| place := fst lc; kind := snd lc; means := seen 9 h_out (HRef (fst lc)) |}) [(6, "sample.RootPacket"); (4, "sample.RootPacket"); (5, "sample.SubPacket")]%nat%string.
Definition out_parts : list (list nat) := [[6; 7]; [0; 1; 2; 3; 4]; [5]]%nat.
Lemma out_apart : forall i j m n, i <> j -> nth_error out i = Some m -> nth_error out j = Some n -> unrelated h_out (place m) (place n).
Proof.
  assert (P : forall i m, nth_error out i = Some m -> exists p, nth_error out_parts i = Some p /\ In (place m) p).
  { intros [|[|[|[|i]]]] m H; cbn [nth_error out map] in H; try discriminate; injection H as <-; eexists; (split; [reflexivity|cbn; tauto]). }
  assert (C : forall i p, nth_error out_parts i = Some p -> closedb h_out p = true).
  { intros [|[|[|[|i]]]] p J; cbn in J; try discriminate; injection J as <-; vm_compute; reflexivity. }
  assert (D : forall i k p q, i <> k -> nth_error out_parts i = Some p -> nth_error out_parts k = Some q -> forallb (fun l => negb (existsb (Nat.eqb l) q)) p = true).
  { intros [|[|[|[|i]]]] [|[|[|[|k]]]] p q N J K; cbn in J, K; try discriminate; try congruence; injection J as <-; injection K as <-; reflexivity. }
  intros i j m n N Hi Hj. destruct (P i m Hi) as (p & Qp & Ip). destruct (P j n Hj) as (q & Qq & Iq). apply (closedb_apart h_out p q); eauto.
Qed.
Example C85_meets : (exists stat V stat2 V2, running stat initial_cache lib_factories V /\ running stat2 (clear_services initial_cache) lib_factories V2)
  /\ heap_ok lib_classes h_out /\ small h_out /\ buf_wf used_buf = true
  /\ (forall m, In m out -> good h_out (holding initial_cache lib_factories) (holding (clear_services initial_cache) lib_factories) 3 3 m)
  /\ (forall i j m n, i <> j -> nth_error out i = Some m -> nth_error out j = Some n -> unrelated h_out (place m) (place n))
  /\ (let w := wires Y (filled Y (checksum (holding initial_cache lib_factories)) (readable used_buf) out) in Buffers.fits used_buf (List.length w) /\ List.length w = 52%nat)
  /\ forallb (fun m => exact_form Y (means m) (WObj (kind m))) out = true.
Proof.
  split.
  { destruct some_state as (stat & V & Rn).
    destruct (one_call some_printers (Z.to_nat (2 ^ 31 + 4)) 0 CClear stat initial_cache lib_factories V [] empty_buf [] ltac:(unfold enough; rewrite Z2Nat.id; lia) Rn Logic.I) as (r & h' & stat' & _ & _ & Rn2).
    exists stat, V, stat', V. split; [exact Rn|exact Rn2]. }
  split; [apply cells_ok; vm_compute; reflexivity|]. split; [apply small_check; reflexivity|]. split; [reflexivity|]. split.
  { intros m [<-|[<-|[<-|[]]]]; (split; [apply fitsb_fits; vm_compute; reflexivity|]; split; [apply (view_shows _ 9); vm_compute; reflexivity|]; do 3 (split; [vm_compute; reflexivity|]); split; apply Nat.leb_le; vm_compute; reflexivity). }
  split; [exact out_apart|]. split; [cbv zeta; split; [unfold Buffers.fits; apply Z.leb_le; vm_compute; reflexivity|vm_compute; reflexivity]|]. vm_compute. reflexivity.
Qed.
Print Assumptions C85_streams.
