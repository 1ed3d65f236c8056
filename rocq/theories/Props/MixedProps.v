(* C102, for threads that encode and decode in turn. *)
From Coq Require Import ZArith List Bool String Lia.
From Verif.Model Require Import JavaPrim ByteBuf Utf8 Codec Checksum Ast Interp Factory Library Heap EncodeThreads DecodeThreads FactoryRace Crowd.
From Verif.Model Require Threads.
From Verif.Spec Require Import Bytes Buffers Wire Layouts Sharing Together Apart Worlds Crowds Recast.
From Verif.Proofs Require Import BufFacts DecodeInv DecodeFacts HeapFacts HeapCheck HeapFrame HeapEncTypes WorkerFacts CrowdFacts BufferKept SubclassFacts KindFacts HeapUntangle RegistryFacts.
From Verif.Proofs Require HeapTypes HeapEq.
From Verif.Props Require Import Samples HeapProps HeapMoreProps WorkerProps FactoryRaceProps CrowdProps.
From Verif.Props Require EncodeThreadProps JavaWireProps TextProps.
Import ListNotations.
Open Scope Z_scope.
Open Scope list_scope.

Notation Y := lib_layouts.
Notation started jobs := (map (fun j => ready (fst j) (snd j)) jobs).
(* the targets are objects; what a worker encodes has no computed fields below the top; two different targets, one encoded and one decoded into, share nothing *)
Definition in_and_out (h : heap) (cs : list call) : Prop :=
  (forall c, In c cs -> exists k fs, nth_error h (on c) = Some (CObj k fs))
  /\ (forall c, In c cs -> does c = Encodes -> plain_below Y h (on c))
  /\ (forall c d, In c cs -> In d cs -> does c = Encodes -> does d = Decodes -> on c <> on d -> unrelated h (on c) (on d)).
(* some message is decoded and encoded *)
Definition answers (cs : list call) : Prop := exists c d, In c cs /\ In d cs /\ does c = Encodes /\ does d = Decodes /\ on c = on d.
(* no factory creates objects with computed fields *)
Definition plain_bodies (W : factories) : Prop := forall o k c g, lookup_factory W o k = Some c -> ~ computed Y c g.

Lemma reach_same h h1 v m : reach h1 v m -> (forall l, reach h v l -> nth_error h1 l = nth_error h l) -> reach h v m.
Proof.
  intros R. induction R as [l|l c fs f v m Hl I R IH|l vs v m Hl I R IH]; intros A; [constructor| |]; rewrite (A l (reach_here h l)) in Hl.
  - eapply reach_field; eauto. apply IH. intros k Q. apply A. eapply reach_field; eauto.
  - eapply reach_elem; eauto. apply IH. intros k Q. apply A. eapply reach_elem; eauto.
Qed.
Lemma encode_reach E d h v b w m : classes E = lib_classes -> reach (snd (fst (hencode E d h v b))) w m -> reach h w m.
Proof. intros HE. destruct (C57_encode_frame E d h v b HE) as [LE T]. cbv zeta in LE, T. apply JavaWireProps.touched_reach; [exact LE|]. intros l q q' A B. exact (proj1 (T l q q' A B)). Qed.
Lemma encode_fine E d h l b : classes E = lib_classes -> heap_ok lib_classes h -> bk b -> heap_ok lib_classes (snd (fst (hencode E d h (HRef l) b))) /\ bk (snd (hencode E d h (HRef l) b)).
Proof.
  intros HE OK B. destruct (nth_error h l) as [[c fs|vs]|] eqn:N.
  - assert (F : fits h (HRef l) TCodec) by (cbn; eauto). split.
    + pose proof (C63_encode_keeps_types E d h (HRef l) b HE OK F) as X. destruct (hencode E d h (HRef l) b) as [[e h1] b1]. exact (proj1 X).
    + rewrite <- HE in OK. exact (bk_encode E (lib_fine_enc E HE) d h (HRef l) b OK F B).
  - destruct d; cbn [hencode]; [auto|]. rewrite N. auto.
  - destruct d; cbn [hencode]; [auto|]. rewrite N. auto.
Qed.
Lemma typed_sound h : heap_ok lib_classes h -> forall v m, reach h v m -> forall t, v = HNull \/ fits h v t -> (m < List.length h)%nat.
Proof.
  intros OK v m R. induction R as [l|l c fs f v m Hl I R IH|l vs v m Hl I R IH]; intros t [Q|F]; try discriminate Q.
  - destruct t; cbn in F; try contradiction; [destruct F as (vs & N & _)|destruct F as (fs & N)|destruct F as (c & fs & N)]; eapply nth_lt; eauto.
  - destruct (OK l c fs Hl) as (cd & _ & FA). assert (X : exists t, fits h v t). { clear - FA I. induction FA as [|x y xs ys [_ A] B IH]; [contradiction|]. destruct I as [->|I]; [eauto|auto]. }
    destruct X as (t' & X). apply (IH t'). auto.
  - destruct t as [| | | | | | |u| |]; cbn [fits] in F; try contradiction; [|destruct F as (? & N); congruence|destruct F as (? & ? & N); congruence]. destruct F as (ws & N & A). assert (ws = vs) as -> by congruence. apply (IH u).
    clear - A I. induction vs as [|x vs IH]; [contradiction|]. destruct A as [A B]. destruct I as [->|I]; [exact A|auto].
Qed.
Lemma object_sound h l c fs : heap_ok lib_classes h -> nth_error h l = Some (CObj c fs) -> sound_below h l.
Proof. intros OK N m R. apply (typed_sound h OK _ _ R TCodec). right. cbn. eauto. Qed.
(* what shows a tree is not below itself *)
Lemma shows_reach h v m : reach h v m -> forall t, shows h v t -> exists u, shows h (HRef m) u /\ (nesting u <= nesting t)%nat.
Proof.
  assert (AT : forall vs ts v, shows_all h vs ts -> In v vs -> exists t, In t ts /\ shows h v t).
  { intros vs ts w SA. induction SA as [|a b vs ts H1 H2 IH]; intros I; [contradiction|]. destruct I as [->|I]; [exists b; split; [left|]; auto|]. destruct (IH I) as (t & J & S). exists t. split; [right; exact J|exact S]. }
  intros R. induction R as [l|l c fs f v m Hl I R IH|l vs v m Hl I R IH]; intros t S; [eauto| |]; inversion S as [| | | |l1 vs1 ts1 Hl1 SB|l1 c1 fs1 gs1 Hl1 MP SB]; subst; try congruence.
  - assert (fs1 = fs) as -> by congruence. destruct (AT _ _ v SB) as (t & J & S1); [change v with (snd (f, v)); apply in_map; exact I|]. destruct (IH t S1) as (u & U & L). exists u. split; [exact U|]. apply in_map_iff in J. destruct J as ((g & y) & <- & Iy). cbn [snd] in L.
    enough (nesting y < nesting (VObj c1 gs1))%nat by lia. clear - Iy. cbn [nesting]. induction gs1 as [|[a b] hs IH]; [contradiction|]. cbn. destruct Iy as [[= -> ->]|Iy]; [lia|]. specialize (IH Iy). cbn in IH. lia.
  - assert (vs1 = vs) as -> by congruence. destruct (AT _ _ v SB I) as (t & J & S1). destruct (IH t S1) as (u & U & L). exists u. split; [exact U|].
    enough (nesting t <= nesting (VList ts1))%nat by lia. clear - J. cbn [nesting]. induction ts1 as [|a ts IH]; [contradiction|]. cbn. destruct J as [->|J]; [lia|]. specialize (IH J). cbn in IH. lia.
Qed.
Lemma tree_root h l c fs f v t : shows h (HRef l) t -> nth_error h l = Some (CObj c fs) -> In (f, v) fs -> ~ reach h v l.
Proof.
  intros S N I R. inversion S as [| | | |l1 vs1 ts1 Hl1 SB|l1 c1 fs1 gs1 Hl1 MP SB]; subst; [congruence|]. assert (fs1 = fs) as -> by congruence.
  assert (X : exists g y, In (g, y) gs1 /\ shows h v y).
  { clear - I MP SB. revert gs1 MP SB. induction fs as [|[a w] fs IH]; intros [|[b y] gs] MP SB; try contradiction; try discriminate MP. cbn [map snd] in SB. inversion SB; subst. injection MP as -> MP. destruct I as [[= -> ->]|I]; [exists f, y; split; [left; reflexivity|assumption]|].
    destruct (IH I gs MP) as (g & z & J & Z0); [assumption|]. exists g, z. split; [right; exact J|exact Z0]. }
  destruct X as (g & y & Iy & SY). destruct (shows_reach h v l R y SY) as (u & U & L). rewrite (proj1 (HeapEq.shows_det h) _ _ S _ U) in L.
  enough (nesting y < nesting (VObj c1 gs1))%nat by lia. clear - Iy. cbn [nesting]. induction gs1 as [|[a b] hs IH]; [contradiction|]. cbn. destruct Iy as [[= -> ->]|Iy]; [lia|]. specialize (IH Iy). cbn in IH. lia.
Qed.
(* the classes that decode names have no computed fields *)
Definition plain_class (c : string) : bool := match find c Y with Some L => forallb (fun fw => match snd fw with WLen _ _ | WSum _ _ _ => false | _ => true end) L | None => true end.
Lemma plain_class_ok c g : plain_class c = true -> ~ computed Y c g.
Proof.
  unfold plain_class. intros H (L & w & F & G & X). rewrite F in H. rewrite forallb_forall in H. assert (I : In (g, w) L).
  { clear - G. induction L as [|[a b] L IH]; [discriminate|]. cbn in G. destruct (String.eqb_spec g a) as [->|]; [injection G as ->; left; reflexivity|right; auto]. }
  specialize (H _ I). cbn [snd] in H. destruct w; try contradiction; discriminate.
Qed.
Lemma literals_plain E c cd s k g : classes E = lib_classes -> find_class E c = Some cd -> In s (c_dec cd) -> In k (literals s) -> ~ computed Y k g.
Proof.
  intros HE F I J. apply plain_class_ok. assert (X : forallb (fun s => forallb plain_class (literals s)) (c_dec cd) = true).
  { unfold find_class in F. rewrite HE in F. eapply (TextProps.all_classes_ok (fun cd => forallb (fun s => forallb plain_class (literals s)) (c_dec cd))); [vm_compute; reflexivity|exact F]. }
  rewrite forallb_forall in X. specialize (X s I). cbv beta in X. rewrite forallb_forall in X. auto.
Qed.
(* what is decoded with such factories has no computed fields below the top *)
Lemma decoded_plain E d h l k fs b h1 b1 : classes E = lib_classes -> heap_ok lib_classes h -> heap_ok lib_classes h1 -> nth_error h l = Some (CObj k fs) -> (forall o q c g, factory E o q = Some c -> ~ computed Y c g) -> plain_below Y h l ->
  hdecode E d h (HRef l) b = (None, h1, b1) -> plain_below Y h1 l.
Proof.
  intros HE OK OK1 N FP PB D c gs f v m c' hs g A I R M. pose proof D as D0. pose proof (decode_moves E d h (HRef l) b) as MV. pose proof D as KD.
  apply (decode_kinds E (fun c => forall g, ~ computed Y c g)) in KD; [|intros c0 cd s k0 F J K g0; eapply literals_plain; eauto|intros o q c0 F g0; eapply FP; eauto].
  rewrite D in MV. cbn [fst snd] in MV. rewrite <- HE in OK, OK1. destruct (untangled E (lib_nodup E HE) (lib_fine E HE) (lib_renews E HE) d h l k fs b h1 b1 OK OK1 N D0) as (t & S).
  assert (NR : m <> l) by (intros ->; exact (tree_root h1 l c gs f v t S A I R)).
  assert (Z0 : reach h (HRef l) m \/ (List.length h <= m)%nat).
  { apply (closed_reach (fun x => reach h (HRef l) x \/ (List.length h <= x)%nat) h1 (HRef l) m (mv_closed _ _ _ MV)); [intros x Q; injection Q as <-; left; constructor|]. eapply reach_field; eauto. }
  destruct Z0 as [Q|Q].
  - inversion Q as [|? c0 fs0 f0 v0 ? Hl J R0|? vs0 v0 ? Hl J R0]; subst; [contradiction| |congruence].
    assert (Lm : exists q, nth_error h m = Some q).
    { destruct (nth_error h m) as [q|] eqn:X; [eauto|]. apply nth_error_None in X. rewrite HE in OK. pose proof (object_sound h l k fs OK N m Q). lia. }
    destruct Lm as (q & Lm). destruct (mv_keeps _ _ _ MV m q Lm) as (q' & Lm' & PR). rewrite M in Lm'. injection Lm' as <-. destruct q as [c2 gs2|vs2]; cbn in PR; [|discriminate]. destruct PR as [-> _]. eapply PB; eauto.
  - destruct KD as (new & KE & KP). assert (X : nth_error (kinds h1) m = Some (Some c')) by (unfold kinds; rewrite nth_error_map, M; reflexivity). rewrite KE, nth_error_app2 in X by (unfold kinds; rewrite map_length; exact Q). apply nth_error_In in X. exact (KP c' X g).
Qed.
Definition ready_for (cs : list call) (h : heap) (b : bytebuf) : Prop := heap_ok lib_classes h /\ bk b /\ in_and_out h cs.
Lemma encode_ready E cs c h b : classes E = lib_classes -> ready_for cs h b -> ready_for cs (snd (fst (hencode E (deep c) h (HRef (on c)) b))) (snd (hencode E (deep c) h (HRef (on c)) b)).
Proof.
  intros HE (OK & B & OB & PB & UN). destruct (encode_fine E (deep c) h (on c) b HE OK B) as [OK1 B1]. destruct (C57_encode_frame E (deep c) h (HRef (on c)) b HE) as [LE T]. cbv zeta in LE, T.
  split; [exact OK1|]. split; [exact B1|]. split; [|split].
  - intros x I. destruct (OB x I) as (k & fs & N). destruct (nth_error (snd (fst (hencode E (deep c) h (HRef (on c)) b))) (on x)) as [q|] eqn:Q; [|apply nth_error_None in Q; apply nth_lt in N; lia].
    destruct (T _ _ _ N Q) as [X _]. destruct q as [k' gs|vs]; cbn in X; [eauto|discriminate X].
  - intros x I D. apply plain_kept; auto.
  - intros x y Ix Iy Dx Dy NE k Rx Ry. exact (UN x y Ix Iy Dx Dy NE k (encode_reach _ _ _ _ _ _ _ HE Rx) (encode_reach _ _ _ _ _ _ _ HE Ry)).
Qed.
Lemma decode_ready E cs c h b h1 b1 : classes E = lib_classes -> (answers cs -> forall o q c g, factory E o q = Some c -> ~ computed Y c g) -> In c cs -> does c = Decodes -> ready_for cs h b ->
  hdecode E (deep c) h (HRef (on c)) b = (None, h1, b1) -> ready_for cs h1 b1.
Proof.
  intros HE FP Ic Dc (OK & B & OB & PB & UN) D0. assert (OK' := OK). rewrite <- HE in OK'.
  pose proof (HeapTypes.typing_decode E (lib_flat E HE) (lib_nodup E HE) (lib_fine E HE) (deep c) h (HRef (on c)) b OK' B) as X.
  assert (MV : forall x, moves (fun l => reach h (HRef (on c)) l \/ reach h (HRef (on x)) l \/ (List.length h <= l)%nat) h (snd (fst (hdecode E (deep c) h (HRef (on c)) b)))).
  { intros x. apply frame_decode.
    - intros l k m [R|[R|L]] Hl Hm; [left; eapply reach_points; eauto|right; left; eapply reach_points; eauto|]. apply nth_lt in Hl. lia.
    - intros l L. auto.
    - intros l Q. injection Q as <-. left. constructor. }
  pose proof (decode_moves E (deep c) h (HRef (on c)) b) as M0. rewrite D0 in *. cbn [fst snd] in *. destruct X as [OK1 B1]. rewrite HE in OK1.
  assert (SB : forall x, In x cs -> sound_below h (on x)) by (intros x I; destruct (OB x I) as (k & fs & N); eapply object_sound; eauto).
  assert (OFF : forall x, In x cs -> unrelated h (on x) (on c) -> forall l, reach h (HRef (on x)) l -> nth_error h1 l = nth_error h l).
  { intros x I U l R. apply (mv_off _ _ _ M0). intros [Q|Q]; [exact (U l R Q)|]. specialize (SB x I l R). lia. }
  assert (SAME : forall x, In x cs -> does x = Encodes -> on x <> on c -> forall l, reach h (HRef (on x)) l -> nth_error h1 l = nth_error h l) by (intros x I D NE; apply OFF; auto).
  assert (BACK : forall x, In x cs -> does x = Encodes -> on x <> on c -> forall l, reach h1 (HRef (on x)) l -> reach h (HRef (on x)) l) by (intros x I D NE l R; eapply reach_same; [exact R|]; apply SAME; auto).
  split; [exact OK1|]. split; [exact B1|]. split; [|split].
  - intros x I. destruct (OB x I) as (k & fs & N). destruct (keeps_object _ _ _ _ _ (mv_keeps _ _ _ M0) N) as (gs & G & _). eauto.
  - intros x I D. destruct (Nat.eq_dec (on x) (on c)) as [EQ|NE].
    { destruct (OB c Ic) as (k & fs & N). rewrite EQ. apply (decoded_plain E (deep c) h (on c) k fs b h1 b1 HE OK OK1 N); [apply FP; exists x, c; auto| |exact D0]. rewrite <- EQ. auto. }
    intros q fs f v m c' gs g A J R N. rewrite (SAME x I D NE _ (reach_here h _)) in A. pose proof (PB x I D) as P0.
    assert (R0 : reach h v m) by (eapply reach_same; [exact R|]; intros l Q; apply (SAME x I D NE); eapply reach_field; eauto).
    apply (P0 q fs f v m c' gs g A J R0). rewrite <- (SAME x I D NE m); [exact N|]. eapply reach_field; eauto.
  - intros x y Ix Iy Dx Dy NE k Rx Ry. destruct (Nat.eq_dec (on x) (on c)) as [EQ|NX].
    { pose proof (UN x y Ix Iy Dx Dy NE) as U. assert (U' : unrelated h (on y) (on c)) by (rewrite <- EQ; intros q Q1 Q2; exact (U q Q2 Q1)).
      apply (reach_same h h1) in Ry; [|apply OFF; auto]. rewrite EQ in Rx.
      assert (Z0 : reach h (HRef (on c)) k \/ (List.length h <= k)%nat).
      { apply (closed_reach (fun l => reach h (HRef (on c)) l \/ (List.length h <= l)%nat) h1 (HRef (on c)) k (mv_closed _ _ _ M0)); [|exact Rx]. intros l Q. injection Q as <-. left. constructor. }
      destruct Z0 as [Q|Q]; [exact (U' k Ry Q)|]. specialize (SB y Iy k Ry). lia. }
    apply (BACK x Ix Dx NX) in Rx. assert (Z0 : reach h (HRef (on c)) k \/ reach h (HRef (on y)) k \/ (List.length h <= k)%nat).
    { apply (closed_reach (fun l => reach h (HRef (on c)) l \/ reach h (HRef (on y)) l \/ (List.length h <= l)%nat) h1 (HRef (on y)) k (mv_closed _ _ _ (MV y))); [|exact Ry]. intros l Q. injection Q as <-. right. left. constructor. }
    destruct Z0 as [Q|[Q|Q]]; [exact (UN x c Ix Ic Dx Dc NX k Rx Q)|exact (UN x y Ix Iy Dx Dy NE k Rx Q)|]. specialize (SB x Ix k Rx). lia.
Qed.
(* a worker that encodes and decodes in any order, also into and from the same message: every call does what it does alone, with a state the registry had, or with states the factories had, at its turns *)
Theorem C102_in_and_out : forall rank sched R W ts h jobs R' W' h' ws i b cs w e, own_messages h jobs -> crowd_run lib_classes sched R W ts h (started jobs) = (R', W', h', ws) ->
  nth_error jobs i = Some (b, cs) -> in_and_out h cs -> heap_ok lib_classes h -> buf_wf b = true ->
  (forall x, In x (moments i sched R W ts) -> layered rank (snd x) /\ (answers cs -> plain_bodies (snd x))) -> nth_error ws i = Some w -> done w = Some e ->
  exists hs, each_in_turn (called lib_classes R W) (moments i sched R W ts) h b cs e hs (its_buffer (now w)) /\ alike hs (targets cs) h' (targets cs).
Proof.
  intros rank sched R W ts h jobs R' W' h' ws i b cs w e OM Q J IO OK WF LA N D. destruct (C102_as_alone sched R W ts h jobs R' W' h' ws OM Q) as [A _]. destruct (A i _ w J N) as (hs & w1 & BI & D1 & B1 & AL). cbn [fst snd] in *. rewrite D in D1. exists hs. split; [|exact AL]. rewrite <- B1.
  apply (itself_calls i R W (fun V => layered rank V /\ (answers cs -> plain_bodies V)) (ready_for cs) cs) with (t := now (ready b cs)); auto.
  - intros c R1 W1 ts1 s1 g y e1 g1 u I RF LB B F. destruct (does c) eqn:DC.
    + pose proof (one_encode i R W c R1 W1 ts1 s1 g y e1 g1 u DC (proj1 (proj2 (proj2 (proj2 RF))) c I DC) B F) as CA. split; [exact CA|intros _].
      unfold called in CA. rewrite DC in CA. destruct CA as (R2 & _ & HE). pose proof (encode_ready (world W R2) cs c g y eq_refl RF) as X. rewrite HE in X. exact X.
    + pose proof (one_decode i rank R W c R1 W1 ts1 s1 g y e1 g1 u DC (proj1 RF) (fun x K => proj1 (LB x K)) B F) as CA. split; [exact CA|intros ->].
      unfold called in CA. rewrite DC in CA. destruct CA as (W2 & PA & HD). refine (decode_ready (world W2 R) cs c g y g1 _ eq_refl _ I DC RF HD).
      intros AN o q c0 g0 L. destruct (PA o) as (V & K & SF). apply in_map_iff in K. destruct K as (x & <- & K). change (lookup_factory W2 o q = Some c0) in L. rewrite (SF q) in L. exact (proj2 (LB x K) AN o q c0 g0 L).
  - intros c I; exact I.
  - split; [exact OK|]. split; [apply bk_wf, buf_wf_iff; exact WF|]. exact IO.
Qed.

(* one worker sends the frame at 4, reads it back into 6, sends what it read, and the frame at 4 again; another one receives *)
Definition relay : list (bytebuf * list call) :=
  [ (empty_buf, [ {| does := Encodes; on := 4; deep := 3 |}; {| does := Decodes; on := 6; deep := 4 |}; {| does := Encodes; on := 6; deep := 3 |}; {| does := Encodes; on := 4; deep := 3 |} ]);
    (incoming_strings, [ {| does := Decodes; on := 7; deep := 4 |} ]) ].
Definition plain_bodiesb (W : factories) : bool := forallb (fun om => forallb (fun kc => plain_class (snd kc)) (snd om)) W.
Lemma plain_bodies_check W : plain_bodiesb W = true -> plain_bodies W.
Proof.
  intros H o k c g L. apply plain_class_ok. unfold lookup_factory in L. destruct (assoc o W) as [m|] eqn:A; [|discriminate]. apply assoc_in in A. unfold plain_bodiesb in H. rewrite forallb_forall in H. specialize (H _ A). cbn [fst snd] in H. rewrite forallb_forall in H.
  assert (I : exists k', In (k', c) m) by (clear - L; induction m as [|[k1 c1] m IH]; cbn in L; [discriminate|]; destruct (key_eqb k k1) eqn:Q in L; [injection L as ->; exists k1; left; reflexivity|]; destruct (IH L) as (k' & I); exists k'; right; exact I).
  destruct I as (k' & I). exact (H _ I).
Qed.
Lemma relay_own : own_messages h_work relay.
Proof.
  assert (W : forall i x c, nth_error relay i = Some x -> In c (snd x) -> exists p, nth_error [[0; 1; 2; 3; 4; 5; 6]; [7]]%nat i = Some p /\ In (on c) p).
  { intros [|[|i]] x c J I; cbn in J; [| |destruct i; discriminate]; injection J as <-; [destruct I as [<-|[<-|[<-|[<-|[]]]]]|destruct I as [<-|[]]]; (eexists; (split; [reflexivity|cbn; tauto])). }
  assert (C : forall i p, nth_error [[0; 1; 2; 3; 4; 5; 6]; [7]]%nat i = Some p -> closedb h_work p = true).
  { intros [|[|i]] p J; cbn in J; [| |destruct i; discriminate]; injection J as <-; vm_compute; reflexivity. }
  split.
  - intros j c I K. apply In_nth_error in I. destruct I as (i & I). destruct (W i j c I K) as (p & P & Ip). apply (closedb_sound h_work p); eauto.
  - intros i k x y c d N Jx Jy Ic Id. destruct (W i x c Jx Ic) as (p & P & Ip). destruct (W k y d Jy Id) as (q & Q & Iq). apply (closedb_apart h_work p q); eauto.
    clear - N P Q. destruct i as [|[|i]], k as [|[|k]]; cbn in P, Q; try congruence; try (destruct i; discriminate); try (destruct k; discriminate); injection P as <-; injection Q as <-; reflexivity.
Qed.
Definition calls_of (i : nat) : list call := match nth_error relay i with Some j => snd j | None => [] end.
Lemma relay_in_and_out : in_and_out h_work (calls_of 0).
Proof.
  split; [|split].
  - intros c [<-|[<-|[<-|[<-|[]]]]]; cbn [on]; vm_compute; eauto.
  - intros c [<-|[<-|[<-|[<-|[]]]]] D; try discriminate D; cbn [on].
    + apply (EncodeThreadProps.plainb_plain _ _ [0; 1; 2; 3]%nat); vm_compute; reflexivity.
    + apply (EncodeThreadProps.plainb_plain _ _ []%nat); vm_compute; reflexivity.
    + apply (EncodeThreadProps.plainb_plain _ _ [0; 1; 2; 3]%nat); vm_compute; reflexivity.
  - assert (U : unrelated h_work 4 6) by (apply (closedb_apart h_work [0; 1; 2; 3; 4; 5] [6])%nat; try (cbn; tauto); vm_compute; reflexivity).
    intros c d [<-|[<-|[<-|[<-|[]]]]] [<-|[<-|[<-|[<-|[]]]]] Dc Dd NE; try discriminate Dc; try discriminate Dd; cbn [on] in *; try exact U. congruence.
Qed.
Definition long_rush : list who := rush ++ repeat (Worker 0) 200.
Example C102_in_and_out_meets : own_messages h_work relay /\ in_and_out h_work (calls_of 0) /\ answers (calls_of 0) /\ heap_ok lib_classes h_work
  /\ (forall x, In x (moments 0 long_rush [] lib_factories others) -> layered lib_rank (snd x) /\ plain_bodies (snd x))
  /\ (let '(_, _, h', ws) := crowd_run lib_classes long_rush [] lib_factories others h_work (started relay) in map outcome_of ws = [(Some None, 36, 108); (Some None, 91, 91)]%nat
      /\ Heap.field h' 6 "msgType" = HInt 3 /\ Heap.field h' 6 "payload" <> HNull /\ Heap.field h' 6 "checksum" <> Heap.field h_work 6 "checksum").
Proof.
  split; [exact relay_own|]. split; [exact relay_in_and_out|]. split.
  { exists {| does := Encodes; on := 6; deep := 3 |}, {| does := Decodes; on := 6; deep := 4 |}. cbn. tauto. }
  split; [apply cells_ok; vm_compute; reflexivity|]. split.
  { intros x M. assert (X : forallb (fun m => layeredb (snd m) && plain_bodiesb (snd m)) (moments 0 long_rush [] lib_factories others) = true) by (vm_compute; reflexivity).
    rewrite forallb_forall in X. specialize (X x M). apply andb_true_iff in X. destruct X as [X1 X2]. split; [apply layered_check; exact X1|apply plain_bodies_check; exact X2]. }
  vm_compute. repeat split; discriminate.
Qed.

Print Assumptions C102_in_and_out.
