(* C95: what getters in other threads see of a message while decode fills it. *)
From Coq Require Import ZArith List Bool String Lia.
From Verif.Model Require Import JavaPrim ByteBuf Utf8 Codec Ast Interp Library Heap EncodeThreads DecodeThreads.
From Verif.Spec Require Import Bytes Wire Layouts LayoutSample Sharing Seen.
From Verif.Proofs Require Import HeapFacts DecodeThreadFacts SeenFacts.
From Verif.Props Require Import Samples MessageProps HeapProps.
Import ListNotations.
Open Scope list_scope.
Open Scope nat_scope.

Notation Y := lib_layouts.

(* ---- the classes of the library ---- *)
Fixpoint distinct (l : list string) : bool := match l with [] => true | x :: r => negb (existsb (String.eqb x) r) && distinct r end.
Lemma distinct_nodup l : distinct l = true -> NoDup l.
Proof.
  induction l as [|x l IH]; cbn; [constructor|]. rewrite andb_true_iff, negb_true_iff. intros [A B]. constructor; auto. intros I. apply not_true_iff_false in A. apply A. apply existsb_exists. exists x. split; [exact I|apply String.eqb_refl].
Qed.
Lemma hval_eq_dec (x y : hval) : {x = y} + {x <> y}.
Proof. decide equality; first [apply Z.eq_dec|apply PeanoNat.Nat.eq_dec|apply list_eq_dec; apply Z.eq_dec]. Qed.
Definition in_turn (ccd : string * class_def) : bool :=
  match find (fst ccd) Y with
  | Some L => (if list_eq_dec string_dec (dtargets (c_dec (snd ccd))) (map fst L) then true else false) && distinct (map fst L)
      && match rev L, rev (c_dec (snd ccd)) with (_, (WObj _ | WBody _ | WList _ _ _)) :: _, _ => true | _, s :: _ => plain_stmt s | _, [] => true end
  | None => false
  end.
Lemma library_in_turn : forall c cd L, assoc c lib_classes = Some cd -> find c Y = Some L -> dtargets (c_dec cd) = map fst L /\ NoDup (map fst L)
  /\ forall A g w, L = A ++ [(g, w)] -> single_value w -> exists pre s, c_dec cd = pre ++ [s] /\ plain_stmt s = true.
Proof.
  intros c cd L K FL. assert (Q : forallb in_turn lib_classes = true) by (vm_compute; reflexivity). rewrite forallb_forall in Q. specialize (Q (c, cd)). unfold in_turn in Q. cbn [fst snd] in Q.
  assert (IN : In (c, cd) lib_classes).
  { clear - K. revert K. generalize lib_classes. induction l as [|[k a] l IH]; cbn [assoc]; intros A; [discriminate|]. destruct (String.eqb_spec c k) as [->|]; [injection A as ->; left; auto|right; auto]. }
  specialize (Q IN). rewrite FL, !andb_true_iff in Q. destruct Q as [[Q1 Q2] Q3]. destruct (list_eq_dec string_dec _ _) as [D|]; [|discriminate]. pose proof (distinct_nodup _ Q2) as N. split; [exact D|]. split; [exact N|].
  intros A g w -> SV. rewrite rev_app_distr in Q3. cbn [rev app] in Q3. destruct (rev (c_dec cd)) as [|s r] eqn:R.
  - exfalso. apply (f_equal (@rev dstmt)) in R. rewrite rev_involutive in R. rewrite R in D. destruct A; discriminate.
  - exists (rev r), s. split; [apply (f_equal (@rev dstmt)) in R; rewrite rev_involutive in R; exact R|]. destruct w; try exact Q3; destruct SV.
Qed.

(* ---- steps ---- *)
Lemma iter_dsteps E st : forall n, Nat.iter n (fun st => decoder_step E (fst st) (snd st)) st = dsteps E n st.
Proof. induction n as [|n IH]; [reflexivity|]. cbn [Nat.iter nat_rect]. change (nat_rect _ _ _ n) with (Nat.iter n (fun st => decoder_step E (fst st) (snd st)) st). rewrite IH. rewrite <- (PeanoNat.Nat.add_1_r n), dsteps_add. reflexivity. Qed.
Lemma ended_stays E : forall n H t, dended t <> None -> dsteps E n (H, t) = (H, t).
Proof. induction n as [|n IH]; intros H t D; [reflexivity|]. cbn [dsteps fst snd]. unfold decoder_step. destruct (dended t) eqn:Q; [|contradiction]. apply IH. congruence. Qed.
(* from some step on, one sees the end *)
Lemma seen_end E h l d b : exists N, forall m, N <= m -> seen_after E h l d b m = seen_at_end E h l d b.
Proof.
  destruct (decoder_alone E d h (HRef l) b) as (N & t & e & X & D & _). exists N. intros m M. unfold seen_after, seen_at_end. rewrite iter_dsteps. replace m with (N + (m - N)) by lia. rewrite dsteps_add, X, ended_stays by congruence. reflexivity.
Qed.

Lemma reach_on h v p q : reach h v p -> reach h (HRef p) q -> reach h v q.
Proof. induction 1; intros R; [exact R|eapply reach_field; eauto|eapply reach_elem; eauto]. Qed.

Section Message.
  Variable E : env.
  Hypothesis HE : classes E = lib_classes.
  Variables (h : heap) (l : nat) (c : string) (fs : list (string * hval)) (d : nat) (b : bytebuf).
  Hypothesis Q : nth_error h l = Some (CObj c fs).
  Hypothesis OWN : forall f v, In (f, v) fs -> ~ reach h v l.
  Definition parts (p : nat) : Prop := (exists f v, In (f, v) fs /\ reach h v p) \/ List.length h <= p.
  Lemma parts_out : ~ parts l.
  Proof. intros [(f & v & I & R)|L]; [exact (OWN f v I R)|]. apply nth_lt in Q. lia. Qed.
  Lemma parts_new p : List.length h <= p -> parts p. Proof. right. assumption. Qed.
  Lemma parts_closed : zc h l c parts h.
  Proof.
    split; [lia|]. split; [eauto|]. assert (REF : forall v, (exists p, (p = l \/ parts p) /\ exists k, nth_error h p = Some k /\ match k with CObj _ gs => exists f, In (f, v) gs | CList vs => In v vs end) -> zin parts v).
    { intros v (p & P & k & K & M). destruct v as [| | | |q]; try exact Logic.I. cbn. left. destruct P as [->|[(f & v & I & R)|L]].
      - rewrite Q in K. injection K as <-. destruct M as (f & I). exists f, (HRef q). split; [exact I|constructor].
      - exists f, v. split; [exact I|]. apply (reach_on h v p q R). destruct k as [k gs|vs]; [destruct M as (g & M); eapply reach_field; eauto; constructor|eapply reach_elem; eauto; constructor].
      - apply nth_lt in K. lia. }
    intros p k K P. destruct k as [k gs|vs]; [intros f v I|intros v I]; apply REF; exists p; split; auto; eexists; split; eauto; cbn; eauto.
  Qed.
  Section Class.
    Variables (cd : class_def) (L : layout).
    Hypothesis FC : assoc c lib_classes = Some cd.
    Hypothesis FL : find c Y = Some L.
    Lemma start_ok : ok h l c (c_dec cd) parts h (denter E h (HRef l) [] d b) (c_dec cd).
    Proof.
      split; [exact parts_closed|]. split; [|split; [exists []; reflexivity|]].
      - unfold denter. destruct d as [|d0]; [left; left; discriminate|]. rewrite Q. unfold find_class. rewrite HE, FC. right. exists []. auto.
      - intros R (pre & s & A & _). rewrite R in A. destruct pre; discriminate.
    Qed.
    (* at any time there is a rest of decode; what has been assigned before does not change *)
    Lemma at_time n : exists pre r, c_dec cd = pre ++ r
      /\ (forall g, ~ In g (dtargets pre) -> Heap.field (seen_after E h l d b n) l g = Heap.field h l g)
      /\ (forall m g, n <= m -> ~ In g (dtargets r) -> Heap.field (seen_after E h l d b m) l g = Heap.field (seen_after E h l d b n) l g)
      /\ (r = [] -> (exists p s, c_dec cd = p ++ [s] /\ plain_stmt s = true) -> forall m, n <= m -> seen_after E h l d b m = seen_after E h l d b n).
    Proof.
      destruct (ok_steps E h l c (c_dec cd) parts parts_out parts_new n _ _ _ start_ok) as (pre & r & A & K & F). exists pre, r. split; [exact A|]. unfold seen_after. rewrite iter_dsteps. split; [exact F|].
      assert (ON : forall m, n <= m -> Nat.iter m (fun st => decoder_step E (fst st) (snd st)) (h, denter E h (HRef l) [] d b) = dsteps E (m - n) (dsteps E n (h, denter E h (HRef l) [] d b))).
      { intros m M. rewrite iter_dsteps, <- dsteps_add. f_equal. lia. }
      destruct (dsteps E n (h, denter E h (HRef l) [] d b)) as [H1 t1]. cbn [fst snd] in *. split.
      - intros m g M N. rewrite (ON m M). destruct (ok_steps E h l c (c_dec cd) parts parts_out parts_new (m - n) _ _ _ K) as (p2 & r2 & -> & _ & F2). apply F2. intros I. apply N. rewrite dtargets_app. apply in_or_app. auto.
      - intros R PL m M. rewrite (ON m M). apply (settled_steps E l c). apply K; assumption.
    Qed.
    Lemma split_order f g A B : not_after L f g -> map fst L = A ++ B -> In g A -> ~ In f B.
    Proof.
      intros O M I J. destruct (library_in_turn c cd L FC FL) as (_ & ND & _). destruct O as [[-> _]|(L1 & L2 & L3 & w & w' & ->)].
      - rewrite M in ND. apply in_split in I. destruct I as (a1 & a2 & ->). rewrite <- app_assoc in ND. apply NoDup_remove_2 in ND. apply ND. rewrite !in_app_iff. auto.
      - rewrite map_app in M, ND. cbn [map fst] in M, ND. rewrite map_app in M, ND. cbn [map fst] in M, ND. set (X := map fst L1) in *. set (Y1 := map fst L2) in *. set (Z1 := map fst L3) in *.
        assert (S : X ++ f :: Y1 ++ g :: Z1 = (X ++ f :: Y1) ++ g :: Z1) by (rewrite <- app_assoc; reflexivity).
        apply in_split in J. destruct J as (b1 & b2 & ->). apply in_split in I. destruct I as (a1 & a2 & ->).
        (* f at two places: in X ++ [f] and after g *)
        assert (E1 : X = (a1 ++ g :: a2) ++ b1).
        { clear S. assert (U : forall (x y x' y' : list string), x ++ f :: y = x' ++ f :: y' -> NoDup (x ++ f :: y) -> x = x').
          { induction x as [|a x IH]; intros y [|a' x'] y' Heq Hnd; cbn in *; auto; injection Heq as Ea Er.
            - subst. exfalso. apply NoDup_cons_iff in Hnd. apply (proj1 Hnd). apply in_or_app. right. now left.
            - subst. exfalso. apply NoDup_cons_iff in Hnd. apply (proj1 Hnd). apply in_or_app. right. now left.
            - subst. f_equal. apply NoDup_cons_iff in Hnd. eapply IH; eauto. apply (proj2 Hnd). }
          apply (U X (Y1 ++ g :: Z1) ((a1 ++ g :: a2) ++ b1) b2); [rewrite M, <- !app_assoc; reflexivity|exact ND]. }
        rewrite S in ND. apply NoDup_remove_2 in ND. apply ND. rewrite !in_app_iff. left. left. rewrite E1, !in_app_iff. left. right. now left.
    Qed.
    Lemma order f g n m : not_after L f g -> n <= m -> Heap.field (seen_after E h l d b n) l g <> Heap.field h l g -> Heap.field (seen_after E h l d b m) l f = Heap.field (seen_after E h l d b n) l f.
    Proof.
      intros O M N. destruct (at_time n) as (pre & r & A & F & G & _). destruct (library_in_turn c cd L FC FL) as (D & _ & _). apply G; [exact M|]. rewrite A, dtargets_app in D. apply (split_order f g (dtargets pre)); [exact O|auto|].
      destruct (in_dec string_dec g (dtargets pre)) as [I|I]; [exact I|]. destruct (N (F g I)).
    Qed.
    Lemma whole A g w n m : L = A ++ [(g, w)] -> single_value w -> n <= m -> Heap.field (seen_after E h l d b n) l g <> Heap.field h l g -> seen_after E h l d b m = seen_after E h l d b n.
    Proof.
      intros EQ SV M N. destruct (library_in_turn c cd L FC FL) as (D & ND & PL). destruct (at_time n) as (pre & r & B & F & _ & S). destruct (PL A g w EQ SV) as (p & s & PS & PP). apply S; [|exists p, s; auto|exact M].
      assert (IG : In g (dtargets pre)) by (destruct (in_dec string_dec g (dtargets pre)) as [I|I]; [exact I|destruct (N (F g I))]).
      destruct r as [|x r] using rev_ind; [reflexivity|]. exfalso. clear IHr. rewrite B, app_assoc in PS. apply app_inj_tail in PS. destruct PS as [_ ->]. rewrite B, app_assoc, dtargets_app, EQ, map_app in D. rewrite dtargets_app in D.
      assert (T : exists f, dtargets [s] = [f]) by (destruct s; try discriminate; cbn; eauto). destruct T as (f & T). rewrite T in D. cbn [map fst] in D. apply app_inj_tail in D. destruct D as [D ->]. rewrite EQ, map_app, <- D in ND. cbn [map fst] in ND. apply NoDup_remove_2 in ND. apply ND. rewrite app_nil_r. apply in_or_app. auto.
    Qed.
  End Class.
End Message.

(* a message that is not part of itself is decoded *)
(* a getter gives what the field held before decode, or what it holds in the end *)
Theorem C95_either E h l c fs L f d b n : classes E = lib_classes -> nth_error h l = Some (CObj c fs) -> (forall g v, In (g, v) fs -> ~ reach h v l) -> find c Y = Some L -> In f (map fst L) ->
  Heap.field (seen_after E h l d b n) l f = Heap.field h l f \/ Heap.field (seen_after E h l d b n) l f = Heap.field (seen_at_end E h l d b) l f.
Proof.
  intros HE Q OWN FL IF. destruct (seen_end E h l d b) as (N & SE). destruct (assoc c lib_classes) as [cd|] eqn:FC.
  - destruct (hval_eq_dec (Heap.field (seen_after E h l d b n) l f) (Heap.field h l f)) as [D|D]; [left; exact D|right]. rewrite <- (SE (n + N)) by lia. symmetry. eapply (order E HE h l c fs d b Q OWN cd L FC FL f f); [left; auto|lia|exact D].
  - left. unfold seen_after. rewrite iter_dsteps. rewrite ended_stays; [reflexivity|]. unfold denter, find_class. destruct d; [discriminate|]. rewrite Q, HE, FC. discriminate.
Qed.
Lemma no_class E h l c fs d b n : classes E = lib_classes -> nth_error h l = Some (CObj c fs) -> assoc c lib_classes = None -> seen_after E h l d b n = h.
Proof. intros HE Q FC. unfold seen_after. rewrite iter_dsteps. rewrite ended_stays; [reflexivity|]. unfold denter, find_class. destruct d; [discriminate|]. rewrite Q, HE, FC. discriminate. Qed.
(* who has seen the new value of a field sees from then on the final values of that field and of all fields before it *)
Theorem C95_order E h l c fs L f g d b n m : classes E = lib_classes -> nth_error h l = Some (CObj c fs) -> (forall g v, In (g, v) fs -> ~ reach h v l) -> find c Y = Some L -> not_after L f g ->
  n <= m -> Heap.field (seen_after E h l d b n) l g <> Heap.field h l g -> Heap.field (seen_after E h l d b m) l f = Heap.field (seen_at_end E h l d b) l f.
Proof.
  intros HE Q OWN FL O M D. destruct (seen_end E h l d b) as (N & SE). destruct (assoc c lib_classes) as [cd|] eqn:FC.
  - rewrite <- (SE (m + N)) by lia. rewrite (order E HE h l c fs d b Q OWN cd L FC FL f g n m O M D). rewrite (order E HE h l c fs d b Q OWN cd L FC FL f g n (m + N) O ltac:(lia) D). reflexivity.
  - destruct D. rewrite (no_class E h l c fs d b n HE Q FC). reflexivity.
Qed.
(* if the last field is a number or a string (the checksum of a frame): who has seen its new value sees all objects and lists as decode leaves them *)
Theorem C95_last E h l c fs L A g w d b n : classes E = lib_classes -> nth_error h l = Some (CObj c fs) -> (forall g v, In (g, v) fs -> ~ reach h v l) -> find c Y = Some L -> L = A ++ [(g, w)] -> single_value w ->
  Heap.field (seen_after E h l d b n) l g <> Heap.field h l g -> seen_after E h l d b n = seen_at_end E h l d b.
Proof.
  intros HE Q OWN FL EQ SV D. destruct (seen_end E h l d b) as (N & SE). destruct (assoc c lib_classes) as [cd|] eqn:FC.
  - rewrite <- (SE (n + N)) by lia. symmetry. eapply (whole E HE h l c fs d b Q OWN cd L FC FL); eauto. lia.
  - destruct D. rewrite (no_class E h l c fs d b n HE Q FC). reflexivity.
Qed.
(* a list, once seen, only gets more elements, and no object changes its class *)
Theorem C95_grow E h l d b n m p : n <= m ->
  match nth_error (seen_after E h l d b n) p with
  | Some (CList vs) => exists ws, nth_error (seen_after E h l d b m) p = Some (CList (vs ++ ws))
  | Some (CObj c _) => exists gs, nth_error (seen_after E h l d b m) p = Some (CObj c gs)
  | None => True
  end.
Proof.
  intros M. unfold seen_after. rewrite !iter_dsteps. replace m with (n + (m - n)) by lia. rewrite dsteps_add. destruct (dsteps E n (h, denter E h (HRef l) [] d b)) as [H1 t1]. cbn [fst]. destruct (grows_steps E (m - n) H1 t1) as [G1 G2]. destruct (nth_error H1 p) as [[c fs|vs]|] eqn:X; eauto.
Qed.

Definition fresh_root : heap := [ obj "sample.RootPacket" [] ]%string.
Definition arriving : bytebuf := snd (encode lib_env 3 s_root_nested empty_buf).
(* a reused message whose fields all change; the body and the list appear before they are filled *)
Definition used_root : heap := [ obj "sample.RootPacket" [("msgType", HInt 1); ("payload", HRef 1); ("checksum", HInt 5)]; obj "sample.BasicPacket" [] ]%string.
Example C95_meets : exists fs L A w, nth_error used_root 0 = Some (CObj "sample.RootPacket" fs) /\ (forall g v, In (g, v) fs -> ~ reach used_root v 0) /\ find "sample.RootPacket"%string Y = Some L
  /\ L = A ++ [("checksum"%string, w)] /\ single_value w /\ not_after L "msgType" "payload" /\ not_after L "payload" "payload"
  /\ map (fun n => map (Heap.field (seen_after lib_env used_root 0 3 arriving n) 0) ["msgType"; "payloadLen"; "payload"; "checksum"]%string) [0; 1; 2; 3; 36; 37; 99]
     = [ [HInt 1; HInt 0; HRef 1; HInt 5]; [HInt 3; HInt 0; HRef 1; HInt 5]; [HInt 3; HInt 38; HRef 1; HInt 5]; [HInt 3; HInt 38; HRef 2; HInt 5]; [HInt 3; HInt 38; HRef 2; HInt 5];
         [HInt 3; HInt 38; HRef 2; HInt (-575507354)]; [HInt 3; HInt 38; HRef 2; HInt (-575507354)] ]%Z
  /\ seen_at_end lib_env used_root 0 3 arriving = seen_after lib_env used_root 0 3 arriving 37.
Proof.
  eexists _, _, (removelast sample_RootPacket_layout), _. split; [reflexivity|]. split; [|split; [vm_compute; reflexivity|]].
  { assert (NO : forall v p, reach used_root v p -> v <> HRef 0 -> p <> 0).
    { induction 1 as [l|l c fs f v m N I R IH|l vs v m N I R IH]; intros K.
      - intros ->. apply K. reflexivity.
      - apply IH. intros ->. destruct l as [|[|l]]; [destruct K; reflexivity| |destruct l; discriminate]. vm_compute in N. injection N as <- <-. repeat (destruct I as [I|I]; [discriminate|]). destruct I.
      - destruct l as [|[|l]]; [discriminate|discriminate|destruct l; discriminate]. }
    intros g v I R. apply (NO v 0 R); [|reflexivity]. intros ->. vm_compute in I. repeat (destruct I as [I|I]; [discriminate|]). destruct I. }
  split; [vm_compute; reflexivity|]. split; [exact Logic.I|]. split; [right; eexists [], [_], _, _, _; cbn [app]; reflexivity|]. split; [left; split; [reflexivity|vm_compute; auto]|].
  split; vm_compute; reflexivity.
Qed.
(* who sees the new body does not always see its content, and who sees a list does not always see all its elements *)
Theorem C95_parts_refuted : (exists h l d b n f p g, Heap.field (seen_after lib_env h l d b n) l f = HRef p /\ HRef p <> Heap.field h l f /\ fst (fst (hdecode lib_env d h (HRef l) b)) = None
    /\ Heap.field (seen_after lib_env h l d b n) p g <> Heap.field (seen_at_end lib_env h l d b) p g)
  /\ (exists h l d b n p f q vs ws, Heap.field (seen_after lib_env h l d b n) p f = HRef q /\ nth_error (seen_after lib_env h l d b n) q = Some (CList vs) /\ nth_error (seen_at_end lib_env h l d b) q = Some (CList ws)
    /\ fst (fst (hdecode lib_env d h (HRef l) b)) = None /\ Heap.field (seen_at_end lib_env h l d b) p f = HRef q /\ List.length vs < List.length ws).
Proof.
  split.
  - exists fresh_root, 0, 3, arriving, 4, "payload"%string, 1, "subPacket"%string. vm_compute. split; [reflexivity|]. split; [discriminate|]. split; [reflexivity|discriminate].
  - exists fresh_root, 0, 3, arriving, 21, 1, "subPacketList"%string, 4. eexists _, _. split; [vm_compute; reflexivity|]. split; [vm_compute; reflexivity|]. split; [vm_compute; reflexivity|]. split; [vm_compute; reflexivity|]. split; [vm_compute; reflexivity|]. cbn. lia.
Qed.

Print Assumptions C95_either.
Print Assumptions C95_order.
Print Assumptions C95_last.
Print Assumptions C95_grow.
Print Assumptions C95_parts_refuted.
