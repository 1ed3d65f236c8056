(* C92: messages whose bytes come in pieces, run as Java text. *)
From Coq Require Import ZArith List Bool String Ascii Lia.
From Verif.Model Require Import JavaPrim ByteBuf Checksum Utf8 Codec Ast Interp Factory Show Heap GenSse Library.
From Verif.Spec Require Import Bytes Buffers Wire Reading Layouts Equality Text Access Sharing Apart Locality JavaState JavaRun.
From Verif.Proofs Require Import BytesFacts BufFacts CodecFacts EncodeFacts DecodeFacts LocalFacts HeapFacts HeapOwn HeapFrame HeapCheck HeapTypes Conform Messages JavaEncode JavaState.
From Verif.Proofs Require Lockstep.
From Verif.Java Require Import Lex Syntax Source Sources Sem Program.
From Verif.Props Require Import Samples MessageProps LocalProps ArbitraryProps TextProps HeapProps HeapMoreProps JavaStaticProps JavaMessageProps WorkerProps JavaStreamProps.
From Verif.Spec Require Import JavaStream JavaArrival.
Import ListNotations.
Open Scope Z_scope.
Open Scope list_scope.

(* what a receiver makes of the bytes bs of one message of class c: all of them there, or only the first ones *)
Record arrives (pr : printers) (k d : nat) (stat : list (string * jval)) (c : string) (bs : list Z) (ok : val -> Prop) : Prop := {
  a_whole : forall h b rest, heap_ok lib_classes h -> buf_wf b = true -> readable b = bs ++ rest ->
    exists h3 h4 b4 t4, create_new c (at_rest h b stat) = Ret (JT (T1 c) (HRef (List.length h))) (at_rest h3 b stat)
    /\ invoke pr k d (List.length h) "decode"%string [JBuf] (at_rest h3 b stat) = Ret JVoid (at_rest h4 b4 stat) /\ ok t4 /\ readable b4 = rest
    /\ heap_ok lib_classes h4 /\ Sharing.fits h4 (HRef (List.length h)) (TObj c) /\ (forall m q, nth_error h m = Some q -> nth_error h4 m = Some q)
    /\ exists fp, owns h4 (HRef (List.length h)) t4 fp /\ forall m, In m fp -> (List.length h <= m)%nat;
  a_part : forall h b rest, heap_ok lib_classes h -> buf_wf b = true -> unpadded b -> bs = readable b ++ rest -> rest <> [] ->
    exists h3 h4 b4, create_new c (at_rest h b stat) = Ret (JT (T1 c) (HRef (List.length h))) (at_rest h3 b stat)
    /\ invoke pr k d (List.length h) "decode"%string [JBuf] (at_rest h3 b stat) = Exc IOOBE (at_rest h4 b4 stat)
    /\ heap_ok lib_classes h4 /\ (forall m q, nth_error h m = Some q -> nth_error h4 m = Some q) }.

Lemma typed_known C c fs t : typed C (VObj c fs) t = true -> exists cd, assoc c C = Some cd.
Proof. intros H. simpl in H. apply andb_true_iff in H as [_ H]. destruct (assoc c C) as [cd|]; [eauto|discriminate]. Qed.
Lemma object_known E c t : classes E = lib_classes -> object_of E c t = true -> exists cd, assoc c lib_classes = Some cd.
Proof.
  intros HE Ob. destruct (object_shape lib_classes E HE c t Ob) as (fs & -> & Ht). exact (typed_known _ _ _ _ Ht).
Qed.
(* decode does not read behind the readable bytes of such a buffer *)
Lemma decode_within E d c b e v b' n : classes E = lib_classes -> library_suppliers E -> object_of E c (new_obj E c) = true -> buf_wf b = true -> unpadded b ->
  decode E d (new_obj E c) b = (e, v, b') -> advanced b n b' -> (n <= List.length (readable b))%nat.
Proof.
  intros HE HS Ho Hb U D A. destruct (C31_decode_is_total E d c _ b HE HS Ho Hb) as (e' & v' & n' & b2 & D' & _ & [A' L] & _). rewrite D in D'. injection D' as <- <- <-.
  unfold advanced in *. rewrite A in A'. apply (f_equal ridx) in A'. cbn in A'. assert (n' = n) by lia. subst n'.
  pose proof (unpadded_reach b U) as X. pose proof (avail_readable b Hb) as Z. unfold Lockstep.reach, cs_limit in X. unfold char_bytes, capacity in L. destruct L as [->|L]; lia.
Qed.

Lemma arrives_one pr k d stat R W V E c t pre : enough k -> running stat R W V -> classes E = lib_classes ->
  object_of E c t = true -> complete Y t (WObj c) = true -> parsable Y (factory (holding R W)) t (WObj c) = true -> canonical Y t (WObj c) = true -> (nesting t <= d)%nat ->
  let t1 := fill_in Y (checksum E) pre t (WObj c) in
  bytes_ok pre -> Z.of_nat (List.length pre) + Z.of_nat (List.length (ser Y t1 (WObj c))) < 2 ^ 31 ->
  arrives pr k d stat c (ser Y t1 (WObj c)) (fun t4 => equivalent t4 t1 /\ (exact_form Y t (WObj c) = true -> t4 = t1)) /\ bytes_ok (ser Y t1 (WObj c)).
Proof.
  intros K Rn HE Ob Cm Pa Ca Hn t1 Bp Lp. set (E2 := holding R W) in *. assert (HE2 : classes E2 = lib_classes) by reflexivity.
  set (b0 := {| arr := pre; ridx := 0; widx := List.length pre; maxcap := 2 ^ 31 - 1; cs_slack := false; policy := {| extra := fun _ => O; fill := fun _ => 0 |} |}).
  assert (Wb : wf b0) by (constructor; cbn [arr ridx widx maxcap b0]; auto; lia). assert (Hb : buf_wf b0 = true) by (apply buf_wf_iff; exact Wb).
  assert (R0 : readable b0 = pre) by (unfold readable, content; cbn [arr ridx widx b0 skipn]; apply firstn_all).
  pose proof (C39_complete_objects_throw_only_without_room E (nesting t) c t b0 HE Ob Hb Cm (le_n _)) as [RM _]. rewrite R0 in RM. fold t1 in RM.
  destruct RM as (t' & b' & EN). { unfold Buffers.fits. cbn [widx maxcap b0]. lia. }
  destruct (C22_round_trip E E2 (nesting t) d c t b0 t' b' HE HE2 Ob Hb EN Pa Ca Hn) as (bs & Ap & RT).
  destruct (C23_encode_appends_wire_form E (nesting t) c t b0 t' b' HE Ob Hb EN) as (Ap' & Hb' & Ef & Ob1). rewrite R0 in Ef. fold t1 in Ef. subst t'. set (bs1 := ser Y t1 (WObj c)) in *.
  assert (bs = bs1) by (pose proof (app_content _ _ _ Ap) as Q; rewrite (app_content _ _ _ Ap') in Q; apply app_inv_head in Q; auto). subst bs. clear Ap.
  pose proof (proj1 (buf_wf_iff _) Hb') as Wb'. pose proof (appended_bytes _ _ _ Wb' Ap') as Bb. pose proof (appended_small _ _ _ Wb' Ap') as Bs. split; [|exact Bb].
  destruct (object_known E c t HE Ob) as (cd & Hc).
  (* a decode into a new object, whatever the buffer *)
  assert (DEC : forall h b, heap_ok lib_classes h -> buf_wf b = true -> exists h3 h4, create_new c (at_rest h b stat) = Ret (JT (T1 c) (HRef (List.length h))) (at_rest h3 b stat)
    /\ (let '(e, t4, b4) := decode E2 d (new_obj E2 c) b in
        invoke pr k d (List.length h) "decode"%string [JBuf] (at_rest h3 b stat) = match e with None => Ret JVoid (at_rest h4 b4 stat) | Some x => Exc x (at_rest h4 b4 stat) end
        /\ heap_ok lib_classes h4 /\ Sharing.fits h4 (HRef (List.length h)) (TObj c) /\ (forall m q, nth_error h m = Some q -> nth_error h4 m = Some q)
        /\ exists fp, owns h4 (HRef (List.length h)) t4 fp /\ forall m, In m fp -> (List.length h <= m)%nat)).
  { intros h b OK Hbb. destruct (makes_new stat R W V c cd h b Rn Hc) as [CN HN]. fold E2 in CN, HN.
    destruct (new_ok E2 h c) as (OK3 & _ & F3); [exact OK|]. rewrite HN in F3. change (classes E2) with lib_classes in OK3.
    pose proof (C58_decode_fresh E2 d h c b) as DF. pose proof (C63_decode_keeps_types E2 d (fst (hnew E2 h c)) (HRef (List.length h)) b HE2 OK3 Hbb) as OK4.
    pose proof (C62_decode_frame E2 d (fst (hnew E2 h c)) (HRef (List.length h)) b) as FR. cbv zeta in FR.
    destruct (hnew E2 h c) as [h3 v]. cbn [fst snd] in *. subst v.
    pose proof (decode_runs pr k d stat R W V h3 (List.length h) c b K Rn OK3 F3 Hbb) as DR. fold E2 in DR.
    destruct (decode E2 d (new_obj E2 c) b) as [[e4 t4] b4].
    destruct (hdecode E2 d h3 (HRef (List.length h)) b) as [[e4' h4] b4']. cbn [fst snd] in *. destruct DF as (-> & -> & [Le Un] & fp1 & Ow & Fr). destruct FR as [FR _].
    exists h3, h4. split; [exact CN|]. split; [exact DR|]. split; [exact OK4|]. split; [|split].
    - pose proof F3 as (fs & Hl). destruct (FR _ _ Hl) as (q' & Hq & P & _). destruct q' as [c' fs'|vs]; cbn in P; [|discriminate]. cbn. destruct P as [-> _]. eauto.
    - intros m q Hm; rewrite Un; auto; eapply nth_lt; eauto.
    - exists fp1. split; [exact Ow|exact Fr]. }
  constructor.
  - intros h b rest OK Hbb Hr. destruct (DEC h b OK Hbb) as (h3 & h4 & CN & X). destruct (RT b rest Hbb Hr) as (t4 & b4 & DE & Eq & Ex & _ & Ad). rewrite DE in X. destruct X as (J & OK4 & F4 & Un & O).
    exists h3, h4, b4, t4. split; [exact CN|]. split; [exact J|]. split; [split; assumption|].
    split; [unfold advanced in Ad; rewrite Ad, readable_advance, Hr, skipn_app, skipn_all, Nat.sub_diag; reflexivity|]. auto.
  - intros h b rest OK Hbb Up Hr Ne. destruct (DEC h b OK Hbb) as (h3 & h4 & CN & X).
    destruct (buffer_of bs1 Bb Bs) as (bf & Wf & Rf). destruct (RT bf [] Wf ltac:(rewrite app_nil_r; exact Rf)) as (t4 & b4 & DE & _ & _ & _ & Ad).
    destruct (decode E2 d (new_obj E2 c) b) as [[e5 t5] b5] eqn:DB.
    destruct (C50_first_part E2 d (new_obj E2 c) bf b rest Wf Hbb Up ltac:(rewrite Rf; exact Hr) _ _ _ _ _ _ DE DB) as [->|(<- & _ & n & A1 & A2)].
    + destruct X as (J & OK4 & _ & Un & _). exists h3, h4, b5. auto.
    + exfalso. unfold advanced in *. rewrite Ad in A1. apply (f_equal ridx) in A1. cbn in A1.
      assert (n = List.length bs1) by lia. subst n.
      destruct X as (J & _). pose proof (decode_within E2 d c b _ _ _ _ HE2 (running_suppliers _ _ _ _ Rn) ltac:(apply new_typed; [reflexivity|]; unfold has, find_class; rewrite HE2, Hc; reflexivity) Hbb Up DB A2) as L.
      apply (f_equal (@List.length Z)) in Hr. rewrite app_length in Hr. destruct rest; [congruence|]. cbn in Hr. lia.
Qed.

Lemma Forall2_weaken {X Z} (P Q : X -> Z -> Prop) l m : (forall x y, P x y -> Q x y) -> Forall2 P l m -> Forall2 Q l m.
Proof. intros H F. induction F; constructor; auto. Qed.
Lemma in_skipn {X} n (l : list X) x : In x (skipn n l) -> In x l.
Proof. intros H. rewrite <- (firstn_skipn n l). apply in_or_app. right. exact H. Qed.
Section Items.
  Variables (pr : printers) (k d : nat) (stat : list (string * jval)) (mk : list Z -> bytebuf) (A : Type) (cls : A -> string) (wire : A -> list Z) (ok : A -> val -> Prop).
  Hypothesis MK : holder mk.
  Let arriving (its : list A) : Prop := forall a, In a its -> arrives pr k d stat (cls a) (wire a) (ok a).

  (* the messages at ls, got one after the other since the heap was h, are those of its *)
  Record obtained (h : heap) (ls : list nat) (its : list A) (h' : heap) : Prop := {
    o_ok : heap_ok lib_classes h';
    o_old : forall m q, nth_error h m = Some q -> nth_error h' m = Some q;
    o_each : Forall2 (fun l a => exists t fp, owns h' (HRef l) t fp /\ ok a t /\ Sharing.fits h' (HRef l) (TObj (cls a)) /\ forall m, In m fp -> (List.length h <= m)%nat) ls its;
    o_apart : forall i j l l', i <> j -> nth_error ls i = Some l -> nth_error ls j = Some l' -> unrelated h' l l' }.
  Lemma old_length (h h' : heap) : (forall m q, nth_error h m = Some q -> nth_error h' m = Some q) -> (List.length h <= List.length h')%nat.
  Proof. intros H. destruct (Nat.le_gt_cases (List.length h) (List.length h')) as [|GT]; [assumption|]. destruct (nth_error h (List.length h')) as [q|] eqn:Q; [|apply nth_error_None in Q; lia]. apply H, nth_lt in Q. lia. Qed.
  Lemma obtained_nil h h' : heap_ok lib_classes h' -> (forall m q, nth_error h m = Some q -> nth_error h' m = Some q) -> obtained h [] [] h'.
  Proof. intros OK U. constructor; auto. intros [|i] j l l' _ H; discriminate. Qed.
  Lemma each_below h ls its h' l m : obtained h ls its h' -> In l ls -> reach h' (HRef l) m -> (List.length h <= m < List.length h')%nat.
  Proof.
    intros O I Rl. pose proof (o_each _ _ _ _ O) as F. clear O. induction F as [|x a ls its X F IH]; [contradiction|]. destruct I as [->|I]; [|exact (IH I)]. destruct X as (t & fp & Ow & _ & _ & Fp).
    pose proof (proj1 (owns_reaches h') _ _ _ Ow m Rl) as Im. split; [exact (Fp m Im)|exact (proj1 (owns_bound h') _ _ _ Ow m Im)].
  Qed.
  Lemma obtained_app h ls its h1 ls' its' h2 : obtained h ls its h1 -> obtained h1 ls' its' h2 -> obtained h (ls ++ ls') (its ++ its') h2.
  Proof.
    intros O P. pose proof (old_length _ _ (o_old _ _ _ _ O)) as L. pose proof (old_length _ _ (o_old _ _ _ _ P)) as L'.
    assert (KEEP : forall m, (m < List.length h1)%nat -> nth_error h2 m = nth_error h1 m).
    { intros m Lm. destruct (nth_error h1 m) as [q|] eqn:Q; [exact (o_old _ _ _ _ P m q Q)|apply nth_error_None in Q; lia]. }
    assert (REACH : forall l m, In l ls -> reach h2 (HRef l) m -> reach h1 (HRef l) m).
    { intros l m I Rl. apply (reach_kept h1 h2 _ m); [|exact Rl]. intros j J. apply KEEP. exact (proj2 (each_below _ _ _ _ l j O I J)). }
    constructor.
    - exact (o_ok _ _ _ _ P).
    - intros m q H. exact (o_old _ _ _ _ P m q (o_old _ _ _ _ O m q H)).
    - apply Forall2_app.
      + eapply Forall2_weaken; [|exact (o_each _ _ _ _ O)]. intros l a (t & fp & Ow & X & (fs & Fl) & Fp). exists t, fp. pose proof (proj1 (owns_bound h1) _ _ _ Ow) as Bd.
        split; [apply (proj1 (owns_frame h1 h2) _ _ _ Ow); intros m I; apply KEEP; auto|]. split; [exact X|]. split; [exists fs; exact (o_old _ _ _ _ P _ _ Fl)|exact Fp].
      + eapply Forall2_weaken; [|exact (o_each _ _ _ _ P)]. intros l a (t & fp & Ow & X & F & Fp). exists t, fp. split; [exact Ow|]. split; [exact X|]. split; [exact F|]. intros m I. specialize (Fp m I). lia.
    - intros i j l l' NE Hi Hj m Rl Rl'.
      assert (C : forall i l, nth_error (ls ++ ls') i = Some l -> (i < List.length ls)%nat /\ nth_error ls i = Some l \/ (List.length ls <= i)%nat /\ nth_error ls' (i - List.length ls) = Some l).
      { intros x y H. destruct (Nat.lt_ge_cases x (List.length ls)); [left; rewrite nth_error_app1 in H by lia; auto|right; rewrite nth_error_app2 in H by lia; auto]. }
      destruct (C i l Hi) as [[Li Ni]|[Li Ni]], (C j l' Hj) as [[Lj Nj]|[Lj Nj]].
      + exact (o_apart _ _ _ _ O i j l l' NE Ni Nj m (REACH l m (nth_error_In _ _ Ni) Rl) (REACH l' m (nth_error_In _ _ Nj) Rl')).
      + pose proof (each_below _ _ _ _ l m O (nth_error_In _ _ Ni) (REACH l m (nth_error_In _ _ Ni) Rl)). pose proof (each_below _ _ _ _ l' m P (nth_error_In _ _ Nj) Rl'). lia.
      + pose proof (each_below _ _ _ _ l' m O (nth_error_In _ _ Nj) (REACH l' m (nth_error_In _ _ Nj) Rl')). pose proof (each_below _ _ _ _ l m P (nth_error_In _ _ Ni) Rl). lia.
      + exact (o_apart _ _ _ _ P (i - List.length ls) (j - List.length ls) l l' ltac:(lia) Ni Nj m Rl Rl').
  Qed.

  Definition stream (its : list A) : list Z := List.concat (map wire its).
  (* the next message is not there completely *)
  Definition waiting (its : list A) (u : list Z) : Prop := match its with [] => True | a :: _ => (List.length u < List.length (wire a))%nat end.

  Lemma split_at (bs u later tail : list Z) : u ++ later = bs ++ tail -> (exists u2, u = bs ++ u2 /\ u2 ++ later = tail) \/ (exists r, r <> [] /\ bs = u ++ r).
  Proof.
    revert u. induction bs as [|x bs IH]; intros u H; [left; exists u; split; [reflexivity|exact H]|]. destruct u as [|y u]; [right; exists (x :: bs); split; [discriminate|reflexivity]|].
    cbn in H. injection H as -> H. destruct (IH u H) as [(u2 & -> & H2)|(r & Nr & ->)]; [left; exists u2; auto|right; exists r; auto].
  Qed.

  Lemma attempts_ok : forall its u h b later rest, arriving its -> heap_ok lib_classes h -> bytes_ok u -> Z.of_nat (List.length u) < 2 ^ 31 -> u ++ later = stream its ++ rest ->
    exists n ls h' b' u', attempts pr k d mk (map cls its) u (at_rest h b stat) = Ret (ls, map cls (skipn n its), u') (at_rest h' b' stat)
    /\ u = stream (firstn n its) ++ u' /\ obtained h ls (firstn n its) h' /\ waiting (skipn n its) u'.
  Proof.
    induction its as [|a its IH]; intros u h b later rest AR OK Bu Su H.
    - exists O, [], h, b, u. cbn. split; [reflexivity|]. split; [reflexivity|]. split; [apply obtained_nil; auto|exact Logic.I].
    - destruct (MK u ltac:(rewrite Forall_forall in Bu; exact Bu) Su) as (Wm & Um & Rm). unfold stream in H. cbn [map List.concat] in H. rewrite <- app_assoc in H. fold (stream its) in H.
      destruct (split_at _ _ _ _ H) as [(u2 & -> & H2)|(r & Nr & Er)].
      + destruct (a_whole _ _ _ _ _ _ _ (AR a (or_introl eq_refl)) h (mk (wire a ++ u2)) u2 OK Wm Rm) as (h3 & h4 & b4 & t4 & CN & DE & Q & R4 & OK4 & F4 & Un & fp & Ow & Fp).
        destruct (IH u2 h4 b4 later rest (fun x I => AR x (or_intror I)) OK4 (proj2 (proj1 (Forall_app _ _ _) Bu)) ltac:(rewrite app_length in Su; lia) H2) as (n & ls & h' & b' & u' & E & Eu & O & Wt).
        exists (S n), (List.length h :: ls), h', b', u'. cbn [map attempts skipn firstn]. change (set_b (at_rest h b stat) (mk (wire a ++ u2))) with (at_rest h (mk (wire a ++ u2)) stat).
        rewrite CN. cbn [bind]. rewrite DE. cbn [s_b at_rest]. rewrite R4. fold (at_rest h4 b4 stat). rewrite E. cbn [bind]. split; [reflexivity|]. split; [|split; [|exact Wt]].
        * unfold stream. cbn [map List.concat]. rewrite <- app_assoc. f_equal. exact Eu.
        * change (List.length h :: ls) with ([List.length h] ++ ls). change (a :: firstn n its) with ([a] ++ firstn n its). apply (obtained_app h [List.length h] [a] h4); [|exact O].
          constructor; [exact OK4|exact Un| |]. { constructor; [|constructor]. exists t4, fp. auto. }
          intros [|[|i]] [|[|j]] l l' NE Hi Hj; try discriminate. congruence.
      + destruct (a_part _ _ _ _ _ _ _ (AR a (or_introl eq_refl)) h (mk u) r OK Wm Um ltac:(rewrite Rm; exact Er) Nr) as (h3 & h4 & b4 & CN & DE & OK4 & Un).
        exists O, [], h4, b4, u. cbn [map attempts skipn firstn]. change (set_b (at_rest h b stat) (mk u)) with (at_rest h (mk u) stat). rewrite CN. cbn [bind]. rewrite DE. split; [reflexivity|].
        split; [reflexivity|]. split; [apply obtained_nil; auto|]. cbn. rewrite Er, app_length. destruct r; [congruence|]. cbn. lia.
  Qed.
  Lemma arrivals_ok : forall pieces its u h b later rest, arriving its -> heap_ok lib_classes h -> bytes_ok (u ++ List.concat pieces) -> Z.of_nat (List.length (u ++ List.concat pieces)) < 2 ^ 31 ->
    (u ++ List.concat pieces) ++ later = stream its ++ rest ->
    exists n ls h' b' u', arrivals pr k d mk pieces (map cls its) u (at_rest h b stat) = Ret (ls, map cls (skipn n its), u') (at_rest h' b' stat)
    /\ u ++ List.concat pieces = stream (firstn n its) ++ u' /\ obtained h ls (firstn n its) h' /\ (pieces <> [] -> waiting (skipn n its) u').
  Proof.
    induction pieces as [|p pieces IH]; intros its u h b later rest AR OK Bu Su H.
    - exists O, [], h, b, u. cbn [arrivals List.concat skipn firstn]. rewrite app_nil_r. split; [reflexivity|]. split; [reflexivity|]. split; [apply obtained_nil; auto|congruence].
    - cbn [List.concat] in *. rewrite app_assoc in *. set (v := u ++ p) in *.
      destruct (attempts_ok its v h b (List.concat pieces ++ later) rest AR OK (proj1 (proj1 (Forall_app _ _ _) Bu)) ltac:(rewrite app_length in Su; lia) ltac:(rewrite app_assoc; exact H)) as (n & ls & h1 & b1 & u1 & E & Ev & O & Wt).
      assert (H1 : (u1 ++ List.concat pieces) ++ later = stream (skipn n its) ++ rest).
      { apply (app_inv_head (stream (firstn n its))). rewrite !app_assoc, <- Ev, H. f_equal. unfold stream. rewrite <- concat_app, <- map_app, firstn_skipn. reflexivity. }
      assert (Bu1 : bytes_ok (u1 ++ List.concat pieces)). { rewrite Ev, <- app_assoc in Bu. exact (proj2 (proj1 (Forall_app _ _ _) Bu)). }
      assert (Su1 : Z.of_nat (List.length (u1 ++ List.concat pieces)) < 2 ^ 31). { rewrite Ev, <- app_assoc, app_length in Su. lia. }
      destruct (IH (skipn n its) u1 h1 b1 later rest (fun x I => AR x (in_skipn n its x I)) (o_ok _ _ _ _ O) Bu1 Su1 H1) as (n' & ls' & h' & b' & u' & E' & Ev' & O' & Wt').
      exists (n + n')%nat, (ls ++ ls'), h', b', u'. cbn [arrivals]. fold v. rewrite E. cbn [bind]. rewrite E'. cbn [bind].
      assert (SK : skipn (n + n') its = skipn n' (skipn n its)). { clear. revert its. induction n as [|n IH]; intros its; [reflexivity|]. destruct its as [|a its]; [cbn; destruct n'; reflexivity|exact (IH its)]. }
      assert (FS : firstn (n + n') its = firstn n its ++ firstn n' (skipn n its)). { clear. revert its. induction n as [|n IH]; intros its; [reflexivity|]. destruct its as [|a its]; [cbn; destruct n'; reflexivity|cbn; f_equal; exact (IH its)]. }
      rewrite SK, FS. split; [reflexivity|]. split; [|split].
      + unfold stream. rewrite map_app, concat_app. fold (stream (firstn n its)) (stream (firstn n' (skipn n its))). rewrite Ev, <- !app_assoc. f_equal. exact Ev'.
      + eapply obtained_app; eauto.
      + intros _. destruct pieces as [|p2 pieces]; [|apply Wt'; discriminate].
        cbn [arrivals] in E'. injection E' as _ Ec Eu _ _. subst u'.
        cbn [List.concat] in Ev'. rewrite app_nil_r in Ev'. apply (f_equal (@List.length Z)) in Ev'. rewrite app_length in Ev'.
        destruct (Nat.eq_dec n' 0) as [->|N0]; [exact Wt|]. apply (f_equal (@List.length string)) in Ec. rewrite !map_length, (skipn_length n') in Ec.
        assert (Z0 : skipn n its = []) by (destruct (skipn n its) as [|a0 r0]; [reflexivity|cbn [List.length] in Ec; lia]). rewrite Z0. destruct n'; exact Logic.I.
  Qed.
End Items.

Definition m_wire (a : message * message) : list Z := ser Y (means (snd a)) (WObj (kind (snd a))).
Definition m_ok (a : message * message) (t : val) : Prop := equivalent t (means (snd a)) /\ (exact_form Y (means (fst a)) (WObj (kind (fst a))) = true -> t = means (snd a)).
Lemma items_arrive pr k d stat R W V E d0 h : enough k -> running stat R W V -> classes E = lib_classes -> heap_ok lib_classes h ->
  forall ms pre, (forall m, In m ms -> good h E (holding R W) d0 d m) -> bytes_ok pre -> Z.of_nat (List.length pre) + Z.of_nat (List.length (wires Y (filled Y (checksum E) pre ms))) < 2 ^ 31 ->
  forall a, In a (combine ms (filled Y (checksum E) pre ms)) -> arrives pr k d stat (kind (fst a)) (m_wire a) (m_ok a).
Proof.
  intros K Rn HE OK. induction ms as [|m ms IH]; intros pre G Bp Lp a I; [contradiction|]. cbn [filled combine] in I. unfold wires in Lp. cbn [filled map List.concat kind means] in Lp. rewrite app_length in Lp.
  destruct (G m (or_introl eq_refl)) as (F & Sh & Cm & Pa & Ca & _ & N2). pose proof (fits_object E h (HRef (place m)) (means m) (kind m) HE OK F ltac:(discriminate) Sh) as Ob.
  destruct (arrives_one pr k d stat R W V E (kind m) (means m) pre K Rn HE Ob Cm Pa Ca N2 Bp ltac:(lia)) as [AO Bb].
  destruct I as [<-|I]; [exact AO|]. apply (IH _ (fun x J => G x (or_intror J)) (proj2 (Forall_app _ _ _) (conj Bp Bb))); [|exact I]. rewrite app_length. fold (wires Y (filled Y (checksum E) (pre ++ ser Y (fill_in Y (checksum E) pre (means m) (WObj (kind m))) (WObj (kind m))) ms)) in Lp. lia.
Qed.
Lemma filled_kinds Z s : forall ms pre, map kind (filled Z s pre ms) = map kind ms.
Proof. induction ms as [|m ms IH]; intros pre; [reflexivity|]. cbn [filled map kind]. now rewrite IH. Qed.
Lemma stream_wires : forall ms ms1, map kind ms1 = map kind ms -> stream _ m_wire (combine ms ms1) = wires Y ms1.
Proof. induction ms as [|m ms IH]; intros [|m1 ms1] H; try discriminate; [reflexivity|]. cbn in H. injection H as _ H. unfold stream, wires in *. cbn [combine map List.concat]. now rewrite IH. Qed.
Lemma fst_combine {X} : forall ms ms1 : list X, List.length ms1 = List.length ms -> map fst (combine ms ms1) = ms.
Proof. induction ms as [|m ms IH]; intros [|m1 ms1] H; try discriminate; [reflexivity|]. cbn in *. f_equal. apply IH. lia. Qed.
Lemma skipn_combine {X} : forall n (ms ms1 : list X), skipn n (combine ms ms1) = combine (skipn n ms) (skipn n ms1).
Proof. induction n as [|n IH]; intros [|m ms] [|m1 ms1]; try reflexivity; cbn; [now destruct (skipn n ms)|apply IH]. Qed.
Lemma firstn_combine {X} n (ms ms1 : list X) : firstn n (combine ms ms1) = combine (firstn n ms) (firstn n ms1).
Proof. apply combine_firstn. Qed.

(* A sender encodes the messages ms one after the other into a buffer.  The bytes, followed by anything, reach a receiver in pieces of any sizes (empty ones too), so far perhaps not all of them.  The receiver decodes into a new object
   whenever a piece has come, and if that throws IndexOutOfBoundsException waits for the next piece.  After each piece it has got exactly the messages whose bytes have come completely, in order, and still has the other bytes. *)
Theorem C92_pieces : forall pr k k2 d d2 stat stat2 R W V R2 W2 V2 ms h b, enough k -> enough k2 -> running stat R W V -> running stat2 R2 W2 V2 ->
  heap_ok lib_classes h -> small h -> buf_wf b = true ->
  (forall m, In m ms -> good h (holding R W) (holding R2 W2) d d2 m) ->
  (forall i j m n, i <> j -> nth_error ms i = Some m -> nth_error ms j = Some n -> unrelated h (place m) (place n)) ->
  let ms1 := filled Y (checksum (holding R W)) (readable b) ms in
  Buffers.fits b (List.length (wires Y ms1)) ->
  exists h1 b1, sends pr k d (map place ms) (at_rest h b stat) = Ret tt (at_rest h1 b1 stat) /\ appended b (wires Y ms1) b1
  /\ forall mk h2 b2 pieces later rest, holder mk -> heap_ok lib_classes h2 -> pieces <> [] -> List.concat pieces ++ later = wires Y ms1 ++ rest ->
     (forall x, In x (List.concat pieces) -> 0 <= x < 256) -> Z.of_nat (List.length (List.concat pieces)) < 2 ^ 31 ->
     exists n ls ts u h4 b4, arrivals pr k2 d2 mk pieces (map kind ms) [] (at_rest h2 b2 stat2) = Ret (ls, map kind (skipn n ms), u) (at_rest h4 b4 stat2)
     /\ List.concat pieces = wires Y (firstn n ms1) ++ u
     /\ (forall m r, skipn n ms1 = m :: r -> (List.length u < List.length (ser Y (means m) (WObj (kind m))))%nat)
     /\ (later = [] -> skipn n ms1 = [] /\ u = rest)
     /\ Forall2 (fun l t => shows h4 (HRef l) t) ls ts /\ Forall2 (fun t m => equivalent t (means m)) ts (firstn n ms1)
     /\ (forallb (fun m => exact_form Y (means m) (WObj (kind m))) (firstn n ms) = true -> ts = map means (firstn n ms1))
     /\ heap_ok lib_classes h4 /\ Forall2 (fun l m => Sharing.fits h4 (HRef l) (TObj (kind m))) ls (firstn n ms)
     (* nothing of what was there has changed, what is received is new and no two received messages have anything in common *)
     /\ (forall m q, nth_error h2 m = Some q -> nth_error h4 m = Some q)
     /\ (forall l m, In l ls -> reach h4 (HRef l) m -> (List.length h2 <= m)%nat)
     /\ (forall i j l l', i <> j -> nth_error ls i = Some l -> nth_error ls j = Some l' -> unrelated h4 l l').
Proof.
  intros pr k k2 d d2 stat stat2 R W V R2 W2 V2 ms h b K K2 Rn Rn2 OK S Hb G U ms1 Fi.
  destruct (C85_streams pr k k2 d d2 stat stat2 R W V R2 W2 V2 ms h b K K2 Rn Rn2 OK S Hb G U Fi) as (h1 & b1 & J & Ap & _). fold ms1 in Ap. exists h1, b1. split; [exact J|]. split; [exact Ap|].
  intros mk h2 b2 pieces later rest MK OK2 NP H Bp Sp. set (its := combine ms ms1).
  assert (KK : map kind ms1 = map kind ms) by apply filled_kinds. assert (LL : List.length ms1 = List.length ms) by (rewrite <- (map_length kind ms1), KK; apply map_length).
  pose proof (proj1 (buf_wf_iff b) Hb) as Wb.
  assert (AR : forall a, In a its -> arrives pr k2 d2 stat2 (kind (fst a)) (m_wire a) (m_ok a)).
  { apply (items_arrive pr k2 d2 stat2 R2 W2 V2 (holding R W) d h K2 Rn2 eq_refl OK ms (readable b) G).
    - apply Forall_forall. intros x I. assert (BC : bytes_ok (content b)) by (apply content_bytes; exact Wb). rewrite Forall_forall in BC. apply BC. unfold readable in I. exact (in_skipn _ _ _ I).
    - fold ms1. rewrite readable_length by exact Wb. unfold Buffers.fits in Fi. pose proof (wf_ridx _ Wb). pose proof (wf_max _ Wb). lia. }
  assert (MC : map (fun a : message * message => kind (fst a)) its = map kind ms) by (rewrite <- (map_map fst kind); unfold its; now rewrite fst_combine).
  destruct (arrivals_ok pr k2 d2 stat2 mk _ (fun a => kind (fst a)) m_wire m_ok MK pieces its [] h2 b2 later rest AR OK2 ltac:(apply Forall_forall; exact Bp) Sp) as (n & ls & h4 & b4 & u & E & Eu & O & Wt).
  { cbn [app]. unfold its. rewrite stream_wires by exact KK. exact H. }
  rewrite MC in E. cbn [app] in Eu.
  assert (SN : map (fun a : message * message => kind (fst a)) (skipn n its) = map kind (skipn n ms)).
  { rewrite <- (map_map fst kind). unfold its. rewrite skipn_combine, fst_combine; [reflexivity|]. rewrite !skipn_length. lia. }
  assert (FN : firstn n its = combine (firstn n ms) (firstn n ms1)) by apply firstn_combine.
  assert (KF : map kind (firstn n ms1) = map kind (firstn n ms)) by (rewrite <- !firstn_map, KK; reflexivity).
  rewrite SN in E. rewrite FN in Eu, O. rewrite stream_wires in Eu by exact KF.
  specialize (Wt NP). unfold its in Wt. rewrite skipn_combine in Wt.
  assert (NX : forall m r, skipn n ms1 = m :: r -> (List.length u < List.length (ser Y (means m) (WObj (kind m))))%nat).
  { intros m r Q. rewrite Q in Wt. pose proof (skipn_length n ms) as L1. pose proof (skipn_length n ms1) as L2. rewrite Q in L2. cbn [List.length] in L2. destruct (skipn n ms) as [|m0 r0]; [cbn in L1; lia|]. exact Wt. }
  destruct O as [OK4 Un EA AP].
  assert (X : exists ts, Forall2 (fun l t => exists fp, owns h4 (HRef l) t fp /\ forall m, In m fp -> (List.length h2 <= m)%nat) ls ts /\ Forall2 (fun t a => m_ok a t) ts (combine (firstn n ms) (firstn n ms1))
     /\ Forall2 (fun l a => Sharing.fits h4 (HRef l) (TObj (kind (fst a)))) ls (combine (firstn n ms) (firstn n ms1))).
  { clear - EA. induction EA as [|l a ls its (t & fp & Ow & Q & F & Fp) EA IH]; [exists []; repeat constructor|]. destruct IH as (ts & I1 & I2 & I3). exists (t :: ts). repeat split; constructor; eauto. }
  destruct X as (ts & X1 & X2 & X3). assert (LF : List.length (firstn n ms1) = List.length (firstn n ms)) by (rewrite !firstn_length; lia).
  exists n, ls, ts, u, h4, b4. split; [exact E|]. split; [exact Eu|]. split; [exact NX|]. split.
  { intros ->. rewrite app_nil_r, Eu in H. rewrite <- (firstn_skipn n ms1) in H at 2. unfold wires in H. rewrite map_app, concat_app, <- app_assoc in H. apply app_inv_head in H.
    destruct (skipn n ms1) as [|m r] eqn:Q; [split; [reflexivity|exact H]|]. specialize (NX m r eq_refl). rewrite H in NX. cbn [map List.concat] in NX. rewrite !app_length in NX. lia. }
  split; [eapply Forall2_weaken; [|exact X1]; intros l t (fp & Ow & _); exact (proj1 (owns_shows h4) _ _ _ Ow)|].
  split. { clear - X2 LF. revert ts X2. generalize dependent (firstn n ms1). induction (firstn n ms) as [|m l IH]; intros [|m1 l1] LF ts X2; try discriminate; cbn in X2; inversion X2 as [|? ? ? ? Q1 Q2]; subst; [apply Forall2_nil|apply Forall2_cons; [apply Q1|apply IH; auto]]. }
  split. { clear - X2 LF. revert ts X2. generalize dependent (firstn n ms1). induction (firstn n ms) as [|m l IH]; intros [|m1 l1] LF ts X2 Q; try discriminate; cbn in X2; inversion X2 as [|? ? ? ? Q3 Q4]; subst; [reflexivity|].
    cbn in Q. apply andb_true_iff in Q as [Q1 Q2]. cbn [map]. f_equal; [apply Q3; exact Q1|]. apply IH; auto. }
  split; [exact OK4|]. split.
  { clear - X3 LF. revert ls X3. generalize dependent (firstn n ms1). induction (firstn n ms) as [|m l IH]; intros [|m1 l1] LF ls X3; try discriminate; cbn in X3; inversion X3 as [|? ? ? ? Q1 Q2]; subst; [apply Forall2_nil|apply Forall2_cons; [exact Q1|apply (IH l1); [cbn in LF; lia|exact Q2]]]. }
  split; [exact Un|]. split; [|exact AP].
  intros l m I Rl. clear - X1 I Rl. induction X1 as [|l0 t ls ts (fp & Ow & Fp) X IH]; [contradiction|]. destruct I as [->|I]; [|exact (IH I)]. exact (Fp m (proj1 (owns_reaches h4) _ _ _ Ow m Rl)).
Qed.

Lemma wrapped_holds : holder wrapped.
Proof.
  intros bs B L. split; [|split].
  - apply buf_wf_iff. constructor; cbn [arr ridx widx maxcap wrapped]; [apply Forall_forall; exact B| | | |]; lia.
  - left. reflexivity.
  - unfold readable, content. cbn [arr ridx widx wrapped skipn]. apply firstn_all.
Qed.
(* the messages of C85, in pieces that end within the first message, at its end, and within the third *)
Definition out_bytes : list Z := wires Y (filled Y (checksum (holding initial_cache lib_factories)) (readable used_buf) out).
Definition out_pieces : list (list Z) := [firstn 5 out_bytes; []; firstn 5 (skipn 5 out_bytes); firstn 40 (skipn 10 out_bytes)].
Example C92_meets : holder wrapped /\ List.length out_bytes = 52%nat /\ List.concat out_pieces ++ skipn 50 out_bytes = out_bytes ++ []
  /\ (forall x, In x (List.concat out_pieces) -> 0 <= x < 256) /\ map (@List.length Z) out_pieces = [5; 0; 5; 40]%nat
  /\ map (fun m => List.length (ser Y (means m) (WObj (kind m)))) (filled Y (checksum (holding initial_cache lib_factories)) (readable used_buf) out) = [10; 36; 6]%nat
  /\ (forall m, In m out -> good h_out (holding initial_cache lib_factories) (holding (clear_services initial_cache) lib_factories) 3 3 m).
Proof.
  split; [exact wrapped_holds|]. split; [vm_compute; reflexivity|]. split; [vm_compute; reflexivity|]. split.
  { assert (H : forallb is_byte (List.concat out_pieces) = true) by (vm_compute; reflexivity). rewrite forallb_forall in H. intros x I. specialize (H x I). unfold is_byte in H. apply andb_true_iff in H. lia. }
  split; [vm_compute; reflexivity|]. split; [vm_compute; reflexivity|]. apply C85_meets.
Qed.

(* a receiver whose buffers have spare capacity behind the bytes that have come (netty 4.1.100): it takes the first four of five bytes for a message and the fifth byte is lost *)
Definition roomy (bs : list Z) : bytebuf :=
  {| arr := bs ++ [88; 88; 88; 88]; ridx := 0; widx := List.length bs; maxcap := 2 ^ 31 - 1; cs_slack := true; policy := {| extra := fun _ => O; fill := fun _ => 0 |} |}.
Lemma extend_cut : let E := holding initial_cache lib_factories in
  match hdecode E 3 (fst (hnew E [] "bjse.Extend050"%string)) (HRef 0) (roomy [7; 0; 1; 65]) with
  | (None, h', b') => readable b' = [] /\ view h' 9 (HRef 0) = Some (build "bjse.Extend050" [("expirationDays", VInt 7); ("expirationType", VInt 1); ("shareProperty", str "AX")]%string)
  | _ => False
  end.
Proof. vm_compute. split; reflexivity. Qed.
Theorem C92_spare_capacity_refuted : exists pr k d stat V h' b' t, enough k /\ running stat initial_cache lib_factories V
  /\ buf_wf (roomy [7; 0; 1; 65]) = true /\ readable (roomy [7; 0; 1; 65]) = [7; 0; 1; 65]
  /\ ser Y (build "bjse.Extend050" [("expirationDays", VInt 7); ("expirationType", VInt 1); ("shareProperty", str "AB")]%string) (WObj "bjse.Extend050") = [7; 0; 1; 65; 66]
  /\ arrivals pr k d roomy [[7; 0; 1; 65]] ["bjse.Extend050"%string] [] (at_rest [] empty_buf stat) = Ret ([O], [], []) (at_rest h' b' stat)
  /\ shows h' (HRef 0) t /\ t = build "bjse.Extend050" [("expirationDays", VInt 7); ("expirationType", VInt 1); ("shareProperty", str "AX")]%string.
Proof.
  destruct some_state as (stat & V & Rn). assert (K : exists k, enough k) by (exists (Z.to_nat (2 ^ 31 + 4)); unfold enough; rewrite Z2Nat.id; lia). destruct K as (k & K).
  exists some_printers, k, 3%nat, stat, V. set (b := roomy [7; 0; 1; 65]). assert (Hb : buf_wf b = true) by reflexivity.
  assert (A : exists cd, assoc "bjse.Extend050"%string lib_classes = Some cd) by (eexists; vm_compute; reflexivity). destruct A as (cd & A).
  destruct (makes_new stat initial_cache lib_factories V "bjse.Extend050"%string cd [] b Rn A) as [CN HN].
  set (E := holding initial_cache lib_factories) in *.
  destruct (new_ok E [] "bjse.Extend050"%string) as (OK3 & _ & F3). { intros [|m] c fs H; discriminate. } rewrite HN in F3. change (classes E) with lib_classes in OK3. cbn [List.length] in *.
  pose proof (decode_runs some_printers k 3 stat initial_cache lib_factories V (fst (hnew E [] "bjse.Extend050"%string)) O "bjse.Extend050"%string b K Rn OK3 F3 Hb) as DR. fold E in DR.
  pose proof extend_cut as D. cbv zeta in D. fold E in D. fold b in D. destruct (hdecode E 3 (fst (hnew E [] "bjse.Extend050"%string)) (HRef 0) b) as [[[e|] h'] b']; [contradiction|]. destruct D as [Rb Vw].
  eexists h', b', _. split; [exact K|]. split; [exact Rn|]. split; [exact Hb|]. split; [reflexivity|]. split; [vm_compute; reflexivity|]. split; [|split; [|reflexivity]].
  - cbn [arrivals attempts app]. change (set_b (at_rest [] empty_buf stat) (roomy [7; 0; 1; 65])) with (at_rest [] b stat). rewrite CN. cbn [bind]. rewrite DR. cbn. rewrite Rb. reflexivity.
  - exact (view_shows _ 9 _ _ Vw).
Qed.
Print Assumptions C92_pieces.
Print Assumptions C92_spare_capacity_refuted.
