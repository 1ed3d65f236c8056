(* What other threads see of a message while a thread decodes into it (Model/DecodeThreads.v). *)
From Coq Require Import ZArith List Bool String Lia.
From Verif.Model Require Import JavaPrim ByteBuf Utf8 Codec Ast Interp Heap EncodeThreads DecodeThreads.
From Verif.Spec Require Import Sharing.
From Verif.Proofs Require Import HeapFacts DecodeThreadFacts.
Import ListNotations.
Open Scope nat_scope.

(* the field a statement assigns *)
Definition dtarget (s : dstmt) : option string :=
  match s with DRead _ _ f | DReadF _ _ f | DFix f _ _ _ | DDyn f _ _ | DList f _ _ _ | DNewIfNull f _ | DCreate f _ => Some f | DObj _ => None end.
Fixpoint dtargets (ss : list dstmt) : list string := match ss with [] => [] | s :: r => match dtarget s with Some f => f :: dtargets r | None => dtargets r end end.
Lemma dtargets_app a b : dtargets (a ++ b) = dtargets a ++ dtargets b.
Proof. induction a as [|s a IH]; cbn; auto. destruct (dtarget s); cbn; now rewrite IH. Qed.
Definition plain_stmt (s : dstmt) : bool := match s with DRead _ _ _ | DReadF _ _ _ | DFix _ _ _ _ | DDyn _ _ _ => true | _ => false end.

Lemma nth_upd {A} (H : list A) p x q : p < List.length H -> nth_error (upd H p x) q = if Nat.eqb q p then Some x else nth_error H q.
Proof.
  intros L. unfold upd. destruct (skipn p H) as [|y r] eqn:S; [apply (f_equal (@List.length A)) in S; rewrite skipn_length in S; cbn in S; lia|].
  assert (HE : H = firstn p H ++ y :: r) by (rewrite <- S; symmetry; apply firstn_skipn). assert (LF : List.length (firstn p H) = p) by (rewrite firstn_length; lia).
  destruct (PeanoNat.Nat.eqb_spec q p) as [->|N]; [rewrite nth_error_app2, LF, PeanoNat.Nat.sub_diag by lia; reflexivity|].
  rewrite HE at 2. destruct (PeanoNat.Nat.lt_ge_cases q p).
  - rewrite !nth_error_app1 by lia. reflexivity.
  - rewrite !nth_error_app2, LF by lia. destruct (q - p) as [|j] eqn:J; [lia|]. reflexivity.
Qed.
Lemma len_upd {A} (H : list A) p x : List.length (upd H p x) = List.length H.
Proof. unfold upd. rewrite app_length, firstn_length. destruct (skipn p H) as [|y r] eqn:S; apply (f_equal (@List.length A)) in S; rewrite skipn_length in S; cbn in *; lia. Qed.
Lemma in_hset f x fs g v : In (g, v) (hset f x fs) -> v = x \/ In (g, v) fs.
Proof. induction fs as [|[k a] fs IH]; cbn; [tauto|]. destruct (String.eqb f k); cbn; intros [I|I]; auto; [injection I as <- <-; auto|]. destruct (IH I); auto. Qed.
Lemma hget_in f fs : hget f fs = HNull \/ In (f, hget f fs) fs.
Proof. induction fs as [|[k a] fs IH]; cbn; auto. destruct (String.eqb_spec f k) as [->|]; [auto|]. destruct IH; auto. Qed.
Lemma hget_other f g x fs : f <> g -> hget g (hset f x fs) = hget g fs.
Proof. intros N. induction fs as [|[k a] fs IH]; cbn; auto. destruct (String.eqb_spec f k) as [->|]; cbn; destruct (String.eqb_spec g k) as [->|]; auto; congruence. Qed.
Lemma nth_lt {A} (H : list A) p k : nth_error H p = Some k -> p < List.length H.
Proof. intros Q. apply nth_error_Some. congruence. Qed.

Section Seen.
  Variable E : env.
  Variable h : heap.
  Variable l : nat.
  Variable c : string.
  Variable all : list dstmt.
  Variable Z : nat -> Prop.    (* where the parts of the message are, and all new objects *)
  Hypothesis ZL : ~ Z l.
  Hypothesis ZN : forall p, List.length h <= p -> Z p.
  Definition zin (v : hval) : Prop := match v with HRef p => Z p | _ => True end.
  Definition zcell (k : cell) : Prop := match k with CObj _ fs => forall f v, In (f, v) fs -> zin v | CList vs => forall v, In v vs -> zin v end.
  Definition near (p : nat) : Prop := p = l \/ Z p.
  Definition zc (H : heap) : Prop := List.length h <= List.length H /\ (exists fs, nth_error H l = Some (CObj c fs)) /\ forall p k, nth_error H p = Some k -> near p -> zcell k.
  (* H1 comes from H and the message has new values only in fields of G *)
  Definition goes (H : heap) (G : string -> Prop) (H1 : heap) : Prop := zc H1 /\ forall g, ~ G g -> field H1 l g = field H l g.
  Definition nothing (g : string) : Prop := False.
  Lemma goes_refl H G : zc H -> goes H G H. Proof. split; auto. Qed.
  Lemma goes_more H (G G' : string -> Prop) H1 : (forall g, G g -> G' g) -> goes H G H1 -> goes H G' H1.
  Proof. intros S [A B]. split; auto. Qed.
  Lemma goes_trans H G H1 H2 : goes H G H1 -> goes H1 G H2 -> goes H G H2.
  Proof. intros [A B] [A1 B1]. split; auto. intros g N. rewrite B1; auto. Qed.
  Lemma field_zin H p f : zc H -> near p -> zin (field H p f).
  Proof. intros (_ & _ & A) P. unfold field. destruct (nth_error H p) as [[c1 fs|vs]|] eqn:Q; try exact I. specialize (A p _ Q P). destruct (hget_in f fs) as [->|IN]; [exact I|]. eapply A; eauto. Qed.
  Lemma put_goes H p f v : zc H -> near p -> zin v -> goes H (fun g => p = l /\ g = f) (put_field H p f v).
  Proof.
    intros (LN & (fs0 & Q0) & A) P V. unfold put_field. destruct (nth_error H p) as [[c1 fs|vs]|] eqn:Q; [|apply goes_refl; split; [|split]; eauto..]. pose proof (nth_lt _ _ _ Q) as L. split.
    - split; [rewrite len_upd; exact LN|]. split.
      + rewrite nth_upd by exact L. destruct (PeanoNat.Nat.eqb_spec l p) as [<-|]; [|eauto]. rewrite Q0 in Q. injection Q as <- <-. eauto.
      + intros q k. rewrite nth_upd by exact L. destruct (PeanoNat.Nat.eqb_spec q p) as [->|]; [|apply A]. intros X _. injection X as <-. intros g w I. destruct (in_hset _ _ _ _ _ I) as [->|I2]; [exact V|]. apply (A p _ Q P g w I2).
    - intros g N. unfold field. rewrite nth_upd by exact L. destruct (PeanoNat.Nat.eqb_spec l p) as [<-|]; [|reflexivity]. rewrite Q. apply hget_other. intros ->. apply N. auto.
  Qed.
  Lemma add_goes H v x : zc H -> zin v -> zin x -> goes H nothing (list_add H v x).
  Proof.
    intros (LN & (fs0 & Q0) & A) V X. unfold list_add. destruct v as [| | | |p]; try (apply goes_refl; split; [|split]; eauto; fail). destruct (nth_error H p) as [[c1 fs|vs]|] eqn:Q; [apply goes_refl; split; [|split]; eauto| |apply goes_refl; split; [|split]; eauto].
    pose proof (nth_lt _ _ _ Q) as L. assert (NE : l <> p) by (intros <-; congruence). split.
    - split; [rewrite len_upd; exact LN|]. split; [rewrite nth_upd by exact L; destruct (PeanoNat.Nat.eqb_spec l p); [contradiction|eauto]|].
      intros q k. rewrite nth_upd by exact L. destruct (PeanoNat.Nat.eqb_spec q p) as [->|]; [|apply A]. intros Y _. injection Y as <-. intros w I. apply in_app_or in I. destruct I as [I|[<-|[]]]; [|exact X]. apply (A p _ Q (or_intror V) w I).
    - intros g _. unfold field. rewrite nth_upd by exact L. destruct (PeanoNat.Nat.eqb_spec l p); [contradiction|reflexivity].
  Qed.
  Lemma alloc_goes H k : zc H -> zcell k -> goes H nothing (H ++ [k]) /\ zin (HRef (List.length H)).
  Proof.
    intros (LN & (fs0 & Q0) & A) K. pose proof (nth_lt _ _ _ Q0) as L. split; [|cbn; apply ZN; exact LN]. split.
    - split; [rewrite app_length; lia|]. split; [exists fs0; rewrite nth_error_app1; auto|]. intros p k0 Q P. destruct (PeanoNat.Nat.lt_ge_cases p (List.length H)) as [B|B]; [rewrite nth_error_app1 in Q by exact B; eapply A; eauto|].
      rewrite nth_error_app2 in Q by exact B. destruct (p - List.length H) as [|j]; [injection Q as <-; exact K|destruct j; discriminate].
    - intros g _. unfold field. rewrite nth_error_app1 by exact L. reflexivity.
  Qed.
  Lemma new_goes H c1 : zc H -> goes H nothing (fst (hnew E H c1)) /\ zin (snd (hnew E H c1)).
  Proof.
    intros K. unfold hnew. destruct (find_class E c1) as [cd|]; [|split; [apply goes_refl; exact K|exact I]]. cbn [alloc_cell fst snd]. apply alloc_goes; [exact K|]. intros f v IN. apply in_map_iff in IN. destruct IN as ([f1 t1] & X & _). injection X as <- <-. destruct t1; exact I.
  Qed.
  Lemma nothing_goes H G H1 : goes H nothing H1 -> goes H G H1. Proof. apply goes_more. intros g []. Qed.

  Lemma elem_goes H p f y b e H1 b1 : zc H -> near p -> (forall k, y <> YObj k) -> hdec_elem no_call (hnew E) p f y (H, b) = (e, (H1, b1)) -> goes H nothing H1.
  Proof.
    intros K P N X. assert (ADD : forall v, zin v -> goes H nothing (list_add H (field H p f) v)) by (intros v V; apply add_goes; auto; apply field_zin; auto).
    destruct y; cbn [hdec_elem] in X; try (destruct (N c0); reflexivity); repeat match type of X with context [match ?y with _ => _ end] => destruct y end; injection X as <- <- <-; first [apply goes_refl; exact K|apply ADD; exact I].
  Qed.
  Lemma stmt_goes H p c1 s b e H1 b1 : zc H -> near p -> (forall f, s <> DObj f) -> (forall f n o y, s <> DList f n o y) -> hexec_dstmt no_call (hnew E) (factory E c1) p s (H, b) = (e, (H1, b1)) ->
    goes H (fun g => p = l /\ dtarget s = Some g) H1.
  Proof.
    intros K P N1 N2 X. assert (PUT : forall f v, dtarget s = Some f -> zin v -> goes H (fun g => p = l /\ dtarget s = Some g) (put_field H p f v)).
    { intros f v T V. eapply goes_more; [|apply put_goes; auto]. intros g [A ->]. auto. }
    assert (NEW : forall f k, dtarget s = Some f -> goes H (fun g => p = l /\ dtarget s = Some g) (put_field (fst (hnew E H k)) p f (snd (hnew E H k)))).
    { intros f k T. destruct (new_goes H k K) as [G1 V]. eapply goes_trans; [apply nothing_goes; exact G1|]. eapply goes_more; [|apply put_goes; [apply G1|exact P|exact V]]. intros g [A ->]. auto. }
    destruct s; cbn [hexec_dstmt] in X.
    - destruct (read_bytes n b) as [[x|bs] b2]; injection X as <- <- <-; [apply goes_refl; exact K|apply PUT; [reflexivity|exact I]].
    - destruct (read_bytes n b) as [[x|bs] b2]; injection X as <- <- <-; [apply goes_refl; exact K|apply PUT; [reflexivity|exact I]].
    - destruct (read_fixed len pad left b) as [[x|bs] b2]; injection X as <- <- <-; [apply goes_refl; exact K|apply PUT; [reflexivity|exact I]].
    - destruct (read_bytes n b) as [[x|bs] b2]; [injection X as <- <- <-; apply goes_refl; exact K|]. destruct (get_int o bs >? 0)%Z; [|injection X as <- <- <-; apply goes_refl; exact K]. destruct (read_chars (get_int o bs) b2) as [[x|cs] b3]; injection X as <- <- <-; [apply goes_refl; exact K|apply PUT; [reflexivity|exact I]].
    - destruct (N2 f n o y). reflexivity.
    - destruct (field H p f); try (injection X as <- <- <-; apply goes_refl; exact K). specialize (NEW f c0 eq_refl). destruct (hnew E H c0) as [h1 x]. injection X as <- <- <-. exact NEW.
    - destruct (N1 f). reflexivity.
    - destruct (hkey_of (field H p key)) as [kk|]; [|injection X as <- <- <-; apply goes_refl; exact K]. destruct (factory E c1 kk) as [c2|]; [|injection X as <- <- <-; apply goes_refl; exact K]. specialize (NEW f c2 eq_refl). destruct (hnew E H c2) as [h1 x]. injection X as <- <- <-. exact NEW.
  Qed.

  (* ---- the stack ---- *)
  Definition within (i : ditem) : Prop := match i with DBody p _ _ => Z p | DLoop p _ _ _ => near p | DAdd p _ x => near p /\ zin x end.
  Definition quiet (t : decoder) : Prop := dended t <> None \/ dstack t = [].
  Definition below (r : list dstmt) (t : decoder) : Prop := quiet t \/ exists ks, dstack t = ks ++ [DBody l c r] /\ Forall within ks.
  Definition settled (t : decoder) : Prop := quiet t \/ dstack t = [DBody l c []].
  Definition ok (H : heap) (t : decoder) (r : list dstmt) : Prop :=
    zc H /\ below r t /\ (exists pre, all = pre ++ r) /\ (r = [] -> (exists pre s, all = pre ++ [s] /\ plain_stmt s = true) -> settled t).
  Lemma below_goes ks r d e b : Forall within ks -> below r (dgoes_on (ks ++ [DBody l c r]) d e b).
  Proof. intros F. destruct e; [left; left; discriminate|]. right. exists ks. auto. Qed.
  Lemma below_enter H v ks r d b : zin v -> Forall within ks -> below r (denter E H v (ks ++ [DBody l c r]) d b).
  Proof.
    intros V F. assert (Q : forall e, below r {| dstack := []; droom := d; src := b; dended := Some (Some e) |}) by (intros e; left; left; discriminate). unfold denter. destruct v as [| | | |p]; destruct d; try apply Q. destruct (nth_error H p) as [[c1 fs|vs]|]; try apply Q. destruct (find_class E c1) as [cd|]; [|apply Q].
    right. exists (DBody p c1 (c_dec cd) :: ks). split; [reflexivity|]. constructor; [exact V|exact F].
  Qed.
  Lemma settled_step H t H1 t1 : settled t -> decoder_step E H t = (H1, t1) -> H1 = H /\ settled t1.
  Proof.
    intros [[Q|Q]|Q] X; unfold decoder_step in X.
    - destruct (dended t) as [e|] eqn:DE; [|contradiction]. injection X as <- <-. split; [auto|]. left. left. congruence.
    - destruct (dended t) as [e|] eqn:DE; [injection X as <- <-; split; [auto|]; left; left; congruence|]. rewrite Q in X. injection X as <- <-. split; [auto|]. left. left. discriminate.
    - destruct (dended t) as [e|] eqn:DE; [injection X as <- <-; split; [auto|]; left; left; congruence|]. rewrite Q in X. injection X as <- <-. split; [auto|]. left. right. reflexivity.
  Qed.
  Lemma quiet_step H t H1 t1 : quiet t -> decoder_step E H t = (H1, t1) -> H1 = H /\ quiet t1.
  Proof.
    intros [Q|Q] X; unfold decoder_step in X.
    - destruct (dended t) as [e|] eqn:DE; [|contradiction]. injection X as <- <-. split; [auto|]. left. congruence.
    - destruct (dended t) as [e|] eqn:DE; [injection X as <- <-; split; [auto|]; left; congruence|]. rewrite Q in X. injection X as <- <-. split; [auto|]. left. discriminate.
  Qed.
  (* one step *)
  Lemma ok_step H t r H1 t1 : ok H t r -> decoder_step E H t = (H1, t1) ->
    exists pre r1, r = pre ++ r1 /\ ok H1 t1 r1 /\ forall g, ~ In g (dtargets pre) -> field H1 l g = field H l g.
  Proof.
    intros (K & B & (P0 & PRE) & ST) X. destruct B as [Q|(ks & DS & W)].
    { destruct (quiet_step H t H1 t1 Q X) as [-> Q1]. exists [], r. split; [auto|]. split; [|auto]. split; [exact K|]. split; [left; exact Q1|]. split; [eauto|]. intros _ _. left. exact Q1. }
    destruct (dended t) as [e0|] eqn:DE.
    { unfold decoder_step in X. rewrite DE in X. injection X as <- <-. exists [], r. split; [auto|]. split; [|auto]. assert (Q : quiet t) by (left; congruence). split; [exact K|]. split; [left; exact Q|]. split; [eauto|]. intros _ _. left. exact Q. }
    assert (SAME : goes H nothing H1 -> below r t1 -> (r = [] -> settled t -> settled t1) -> exists pre r1, r = pre ++ r1 /\ ok H1 t1 r1 /\ forall g, ~ In g (dtargets pre) -> field H1 l g = field H l g).
    { intros [K1 F] B1 S1. exists [], r. split; [auto|]. split; [|intros g _; apply F; intros []]. split; [exact K1|]. split; [exact B1|]. split; [eauto|]. intros R0 PL. apply S1; auto. }
    assert (SET : r = [] -> settled t -> settled t1) by (intros _ S; apply (settled_step H t H1 t1 S X)).
    unfold decoder_step in X. rewrite DE, DS in X. destruct ks as [|i ks]; cbn [app] in X.
    - (* a statement of the message itself *)
      destruct r as [|s r].
      + injection X as <- <-. apply SAME; [apply goes_refl; exact K|left; right; reflexivity|]. intros _ _. left. right. reflexivity.
      + assert (DONE : forall H2 t2, goes H (fun g => dtarget s = Some g) H2 -> below r t2 -> (plain_stmt s = true -> r = [] -> settled t2) -> (H2, t2) = (H1, t1) ->
          exists pre r1, s :: r = pre ++ r1 /\ ok H1 t1 r1 /\ forall g, ~ In g (dtargets pre) -> field H1 l g = field H l g).
        { intros H2 t2 [K2 F] B2 S2 Y. apply pair_equal_spec in Y. destruct Y as [<- <-]. exists [s], r. split; [reflexivity|]. split; [|intros g N; apply F; intros T; apply N; cbn; rewrite T; now left].
          split; [exact K2|]. split; [exact B2|]. split; [exists (P0 ++ [s]); rewrite <- app_assoc; exact PRE|]. intros R0 (p1 & s1 & A1 & PL). subst r. rewrite PRE in A1. apply app_inj_tail in A1. destruct A1 as [_ ->]. apply S2; auto. }
        assert (PL : (forall f, s <> DObj f) -> (forall f n o y, s <> DList f n o y) ->
          (let '(e, (h', b')) := hexec_dstmt no_call (hnew E) (factory E c) l s (H, src t) in (h', dgoes_on [DBody l c r] (droom t) e b')) = (H1, t1) ->
          exists pre r1, s :: r = pre ++ r1 /\ ok H1 t1 r1 /\ forall g, ~ In g (dtargets pre) -> field H1 l g = field H l g).
        { intros N1 N2 Y. destruct (hexec_dstmt no_call (hnew E) (factory E c) l s (H, src t)) as [e [H2 b2]] eqn:HX. apply (DONE H2 (dgoes_on [DBody l c r] (droom t) e b2)); [|apply (below_goes []); constructor| |exact Y].
          - eapply goes_more; [|eapply (stmt_goes H l c s); eauto; left; reflexivity]. intros g [_ T]. exact T.
          - intros _ ->. destruct e; [left; left; discriminate|right; reflexivity]. }
        destruct s as [n o f|n o f|f len pad lft|f n o|f n o y|f c1|f|f key]; try (apply PL; [discriminate|discriminate|exact X]).
        * (* list *) destruct (read_bytes n (src t)) as [[x|bs] b2] eqn:RB; [apply (DONE H (dgoes_on [DBody l c r] (droom t) (Some x) b2)); [apply goes_refl; exact K|left; left; discriminate|discriminate|exact X]|].
          destruct (get_int o bs >? 0)%Z; [|apply (DONE H (dgoes_on [DBody l c r] (droom t) None b2)); [apply goes_refl; exact K|apply (below_goes []); constructor|discriminate|exact X]].
          cbn [alloc_cell] in X. destruct (alloc_goes H (CList []) K) as [G1 V]; [intros v []|].
          eapply DONE; [| | |exact X]; [|apply (below_goes [DLoop l f y _]); constructor; [left; reflexivity|constructor]|discriminate].
          eapply goes_trans; [apply nothing_goes; exact G1|]. eapply goes_more; [|apply put_goes; [apply G1|left; reflexivity|exact V]]. intros g [_ ->]. reflexivity.
        * (* object *) apply (DONE H (denter E H (field H l f) [DBody l c r] (droom t) (src t))); [apply goes_refl; exact K|apply (below_enter H (field H l f) []); [apply field_zin; [exact K|left; reflexivity]|constructor]|discriminate|exact X].
    - (* something inside *)
      inversion W as [|? ? W1 W2]; subst. assert (NS : r = [] -> settled t -> settled t1) by exact SET.
      assert (NEXT : forall H2 t2, goes H nothing H2 -> below r t2 -> (H2, t2) = (H1, t1) -> exists pre r1, r = pre ++ r1 /\ ok H1 t1 r1 /\ forall g, ~ In g (dtargets pre) -> field H1 l g = field H l g).
      { intros H2 t2 G2 B2 Y. apply pair_equal_spec in Y. destruct Y as [<- <-]. apply SAME; auto. }
      destruct i as [p c1 [|s ss]|p f y [|n]|p f x].
      + apply (NEXT H (dgoes_on (ks ++ [DBody l c r]) (S (droom t)) None (src t))); [apply goes_refl; exact K|apply below_goes; exact W2|exact X].
      + cbn in W1. assert (NP : p <> l) by (intros ->; contradiction). assert (WB : Forall within (DBody p c1 ss :: ks)) by (constructor; assumption).
        assert (PL : (forall f, s <> DObj f) -> (forall f n o y, s <> DList f n o y) ->
          (let '(e, (h', b')) := hexec_dstmt no_call (hnew E) (factory E c1) p s (H, src t) in (h', dgoes_on (DBody p c1 ss :: ks ++ [DBody l c r]) (droom t) e b')) = (H1, t1) ->
          exists pre r1, r = pre ++ r1 /\ ok H1 t1 r1 /\ forall g, ~ In g (dtargets pre) -> field H1 l g = field H l g).
        { intros N1 N2 Y. destruct (hexec_dstmt no_call (hnew E) (factory E c1) p s (H, src t)) as [e [H2 b2]] eqn:HX. apply (NEXT H2 (dgoes_on ((DBody p c1 ss :: ks) ++ [DBody l c r]) (droom t) e b2)); [|apply below_goes; exact WB|exact Y].
          eapply goes_more; [|eapply (stmt_goes H p c1 s); eauto; right; exact W1]. intros g [A _]. contradiction. }
        destruct s as [n o f|n o f|f len pad lft|f n o|f n o y|f c2|f|f key]; try (apply PL; [discriminate|discriminate|exact X]).
        * destruct (read_bytes n (src t)) as [[x|bs] b2]; [apply (NEXT H (dgoes_on (DBody p c1 ss :: ks ++ [DBody l c r]) (droom t) (Some x) b2)); [apply goes_refl; exact K|left; left; discriminate|exact X]|].
          destruct (get_int o bs >? 0)%Z; [|apply (NEXT H (dgoes_on ((DBody p c1 ss :: ks) ++ [DBody l c r]) (droom t) None b2)); [apply goes_refl; exact K|apply below_goes; exact WB|exact X]].
          cbn [alloc_cell] in X. destruct (alloc_goes H (CList []) K) as [G1 V]; [intros v []|].
          eapply NEXT; [| |exact X]; [|apply (below_goes (DLoop p f y _ :: DBody p c1 ss :: ks)); constructor; [right; exact W1|exact WB]].
          eapply goes_trans; [exact G1|]. eapply goes_more; [|apply put_goes; [apply G1|right; exact W1|exact V]]. intros g [A _]. contradiction.
        * apply (NEXT H (denter E H (field H p f) ((DBody p c1 ss :: ks) ++ [DBody l c r]) (droom t) (src t))); [apply goes_refl; exact K|apply below_enter; [apply field_zin; [exact K|right; exact W1]|exact WB]|exact X].
      + apply (NEXT H (dgoes_on (ks ++ [DBody l c r]) (droom t) None (src t))); [apply goes_refl; exact K|apply below_goes; exact W2|exact X].
      + assert (WB : Forall within (DLoop p f y n :: ks)) by (constructor; assumption).
        assert (EL : (forall k, y <> YObj k) -> (let '(e, (h', b')) := hdec_elem no_call (hnew E) p f y (H, src t) in (h', dgoes_on (DLoop p f y n :: ks ++ [DBody l c r]) (droom t) e b')) = (H1, t1) ->
          exists pre r1, r = pre ++ r1 /\ ok H1 t1 r1 /\ forall g, ~ In g (dtargets pre) -> field H1 l g = field H l g).
        { intros N Y. destruct (hdec_elem no_call (hnew E) p f y (H, src t)) as [e [H2 b2]] eqn:HX. apply (NEXT H2 (dgoes_on ((DLoop p f y n :: ks) ++ [DBody l c r]) (droom t) e b2)); [|apply below_goes; exact WB|exact Y]. eapply elem_goes; eauto. }
        destruct y as [m o|m o|len pad lft|m o|c1]; try (apply EL; [discriminate|exact X]). destruct (new_goes H c1 K) as [G1 V]. destruct (hnew E H c1) as [h1 x] eqn:HN. cbn [fst snd] in *.
        apply (NEXT h1 (denter E h1 x ((DAdd p f x :: DLoop p f (YObj c1) n :: ks) ++ [DBody l c r]) (droom t) (src t))); [exact G1|apply below_enter; [exact V|constructor; [split; [exact W1|exact V]|exact WB]]|exact X].
      + destruct W1 as [W1 V]. apply (NEXT (list_add H (field H p f) x) (dgoes_on (ks ++ [DBody l c r]) (droom t) None (src t))); [apply add_goes; auto; apply field_zin; auto|apply below_goes; exact W2|exact X].
  Qed.
  Lemma ok_steps : forall n H t r, ok H t r -> exists pre r1, r = pre ++ r1 /\ ok (fst (dsteps E n (H, t))) (snd (dsteps E n (H, t))) r1 /\ forall g, ~ In g (dtargets pre) -> field (fst (dsteps E n (H, t))) l g = field H l g.
  Proof.
    induction n as [|n IH]; intros H t r K; cbn [dsteps fst snd]; [exists [], r; auto|]. destruct (decoder_step E H t) as [H1 t1] eqn:S. destruct (ok_step H t r H1 t1 K S) as (p1 & r1 & -> & K1 & F1). destruct (IH H1 t1 r1 K1) as (p2 & r2 & -> & K2 & F2).
    exists (p1 ++ p2), r2. split; [apply app_assoc|]. split; [exact K2|]. intros g N. rewrite dtargets_app in N. rewrite F2, F1; auto; intros I; apply N; apply in_or_app; auto.
  Qed.
  Lemma settled_steps : forall n H t, settled t -> fst (dsteps E n (H, t)) = H.
  Proof. induction n as [|n IH]; intros H t S; [reflexivity|]. cbn [dsteps fst snd]. destruct (decoder_step E H t) as [H1 t1] eqn:X. destruct (settled_step H t H1 t1 S X) as [-> S1]. apply IH. exact S1. Qed.
End Seen.

(* lists only grow *)
Section Lists.
  Variable E : env.
  Definition grows (H H1 : heap) : Prop := (forall p vs, nth_error H p = Some (CList vs) -> exists ws, nth_error H1 p = Some (CList (vs ++ ws))) /\ (forall p k fs, nth_error H p = Some (CObj k fs) -> exists gs, nth_error H1 p = Some (CObj k gs)).
  Lemma grows_refl H : grows H H.
  Proof. split; [intros p vs Q; exists []; now rewrite app_nil_r|eauto]. Qed.
  Lemma grows_trans H H1 H2 : grows H H1 -> grows H1 H2 -> grows H H2.
  Proof.
    intros [A B] [A1 B1]. split.
    - intros p vs Q. destruct (A p vs Q) as (ws & Q1). destruct (A1 p _ Q1) as (us & Q2). exists (ws ++ us). now rewrite app_assoc.
    - intros p k fs Q. destruct (B p k fs Q) as (gs & Q1). eauto.
  Qed.
  Lemma grows_put H p f v : grows H (put_field H p f v).
  Proof.
    unfold put_field. destruct (nth_error H p) as [[c fs|vs]|] eqn:Q; try apply grows_refl. pose proof (nth_lt _ _ _ Q) as L. split.
    - intros q vs Q1. rewrite nth_upd by exact L. destruct (PeanoNat.Nat.eqb_spec q p) as [->|]; [congruence|]. exists []. now rewrite app_nil_r.
    - intros q k gs Q1. rewrite nth_upd by exact L. destruct (PeanoNat.Nat.eqb_spec q p) as [->|]; [rewrite Q in Q1; injection Q1 as <- <-; eauto|eauto].
  Qed.
  Lemma grows_add H v x : grows H (list_add H v x).
  Proof.
    unfold list_add. destruct v as [| | | |p]; try apply grows_refl. destruct (nth_error H p) as [[c fs|vs]|] eqn:Q; try apply grows_refl. pose proof (nth_lt _ _ _ Q) as L. split.
    - intros q ws Q1. rewrite nth_upd by exact L. destruct (PeanoNat.Nat.eqb_spec q p) as [->|]; [rewrite Q in Q1; injection Q1 as <-; eauto|]. exists []. now rewrite app_nil_r.
    - intros q k gs Q1. rewrite nth_upd by exact L. destruct (PeanoNat.Nat.eqb_spec q p) as [->|]; [congruence|eauto].
  Qed.
  Lemma grows_alloc H k : grows H (H ++ [k]).
  Proof. split; [intros p vs Q; exists []; rewrite app_nil_r|intros p k1 fs Q; exists fs]; rewrite nth_error_app1; eauto using nth_lt. Qed.
  Lemma grows_new H c : grows H (fst (hnew E H c)).
  Proof. unfold hnew. destruct (find_class E c); [apply grows_alloc|apply grows_refl]. Qed.
  Lemma grows_step H t H1 t1 : decoder_step E H t = (H1, t1) -> grows H H1.
  Proof.
    intros X. unfold decoder_step in X. destruct (dended t); [injection X as <- <-; apply grows_refl|]. destruct (dstack t) as [|[p c [|s ss]|p f y [|n]|p f x] k]; try (apply pair_equal_spec in X; destruct X as [<- _]; apply grows_refl).
    - assert (PL : (let '(e, (h', b')) := hexec_dstmt no_call (hnew E) (factory E c) p s (H, src t) in (h', dgoes_on (DBody p c ss :: k) (droom t) e b')) = (H1, t1) -> (forall f, s <> DObj f) -> (forall f n o y, s <> DList f n o y) -> grows H H1).
      { intros Y N1 N2. destruct (hexec_dstmt no_call (hnew E) (factory E c) p s (H, src t)) as [e [H2 b2]] eqn:HX. apply pair_equal_spec in Y. destruct Y as [<- _].
        assert (NEW : forall f k, grows H (put_field (fst (hnew E H k)) p f (snd (hnew E H k)))) by (intros f0 k0; eapply grows_trans; [apply grows_new|apply grows_put]).
        destruct s as [n o f|n o f|f len pad lft|f n o|f n o y|f c1|f|f key]; cbn [hexec_dstmt] in HX; try (destruct (N1 f); reflexivity); try (destruct (N2 f n o y); reflexivity).
        1-4: repeat match type of HX with context [match ?y with _ => _ end] => destruct y end; injection HX as <- <- <-; first [apply grows_refl|apply grows_put].
        - destruct (field H p f); try (injection HX as <- <- <-; apply grows_refl). specialize (NEW f c1). destruct (hnew E H c1) as [h1 x]. injection HX as <- <- <-. exact NEW.
        - destruct (hkey_of (field H p key)) as [kk|]; [|injection HX as <- <- <-; apply grows_refl]. destruct (factory E c kk) as [c2|]; [|injection HX as <- <- <-; apply grows_refl]. specialize (NEW f c2). destruct (hnew E H c2) as [h1 x]. injection HX as <- <- <-. exact NEW. }
      destruct s as [n o f|n o f|f len pad lft|f n o|f n o y|f c1|f|f key]; try (apply PL; [exact X|discriminate|discriminate]).
      + destruct (read_bytes n (src t)) as [[x|bs] b2]; [apply pair_equal_spec in X; destruct X as [<- _]; apply grows_refl|]. destruct (get_int o bs >? 0)%Z; [|apply pair_equal_spec in X; destruct X as [<- _]; apply grows_refl]. cbn [alloc_cell] in X. apply pair_equal_spec in X. destruct X as [<- _]. eapply grows_trans; [apply grows_alloc|apply grows_put].
      + apply pair_equal_spec in X. destruct X as [<- _]. apply grows_refl.
    - assert (EL : (let '(e, (h', b')) := hdec_elem no_call (hnew E) p f y (H, src t) in (h', dgoes_on (DLoop p f y n :: k) (droom t) e b')) = (H1, t1) -> (forall k, y <> YObj k) -> grows H H1).
      { intros Y N. destruct (hdec_elem no_call (hnew E) p f y (H, src t)) as [e [H2 b2]] eqn:HX. apply pair_equal_spec in Y. destruct Y as [<- _]. destruct y as [m o|m o|len pad lft|m o|c1]; cbn [hdec_elem] in HX; try (destruct (N c1); reflexivity).
        all: repeat match type of HX with context [match ?y with _ => _ end] => destruct y end; injection HX as <- <- <-; first [apply grows_refl|apply grows_add]. }
      destruct y as [m o|m o|len pad lft|m o|c1]; try (apply EL; [exact X|discriminate]). pose proof (grows_new H c1) as G. destruct (hnew E H c1) as [h1 x]. apply pair_equal_spec in X. destruct X as [<- _]. exact G.
    - apply pair_equal_spec in X. destruct X as [<- _]. apply grows_add.
  Qed.
  Lemma grows_steps : forall n H t, grows H (fst (dsteps E n (H, t))).
  Proof. induction n as [|n IH]; intros H t; [apply grows_refl|]. cbn [dsteps fst snd]. destruct (decoder_step E H t) as [H1 t1] eqn:X. eapply grows_trans; [eapply grows_step; exact X|apply IH]. Qed.
End Lists.
