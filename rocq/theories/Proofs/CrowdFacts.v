(* Workers whose registries change: each is as by itself, with the same changes. *)
From Coq Require Import ZArith List Bool String Lia.
From Verif.Model Require Import JavaPrim ByteBuf Utf8 Codec Checksum Ast Interp Factory Heap EncodeThreads DecodeThreads FactoryRace Crowd.
From Verif.Model Require Threads.
From Verif.Proofs Require Import DecodeFacts HeapFacts EncodeSteps EncodeRace EncodeEnds DecodeThreadFacts WorkerFacts.
From Verif.Spec Require Import Sharing Apart Crowds.
Import ListNotations.
Open Scope nat_scope.

(* the environments at the turns so far, the last one first *)
Fixpoint esteps (es : list env) (st : heap * worker) : heap * worker := match es with [] => st | E :: r => worker_step E (fst (esteps r st)) (snd (esteps r st)) end.
Lemma esteps_todo es st c : In c (todo (snd (esteps es st))) -> In c (todo (snd st)).
Proof. induction es as [|E es IH]; cbn; auto. intros H. apply IH. eapply todo_shrinks; eauto. Qed.

Section Crowd.
  Variable h0 : heap.
  Variable jobs : list (bytebuf * list call).
  Notation mine := (mine h0 jobs).
  Hypothesis Sound : forall j c, In j jobs -> In c (snd j) -> sound_below h0 (on c).
  Hypothesis Apart : forall i k x y c d, i <> k -> nth_error jobs i = Some x -> nth_error jobs k = Some y -> In c (snd x) -> In d (snd y) -> unrelated h0 (on c) (on d).
  Notation solo j es := (esteps es (h0, ready (fst j) (snd j))).
  Definition beside (trace : nat -> list env) (h : heap) (ws : list worker) : Prop :=
    exists Rs, List.length ws = List.length jobs /\ (forall i j, nth_error jobs i = Some j -> exists w, nth_error ws i = Some w /\ pairs (Rs i) (fst (solo j (trace i))) h /\ worker_same (Rs i) (snd (solo j (trace i))) w
        /\ (forall a b, mine i a b -> Rs i a b) /\ (forall a b, Rs i a b -> mine i a b \/ List.length h0 <= b))
      /\ (forall i k x y a a' b, i <> k -> nth_error jobs i = Some x -> nth_error jobs k = Some y -> Rs i a b -> Rs k a' b -> False)
      /\ List.length h0 <= List.length h
      /\ (forall b, b < List.length h0 -> (forall i j a, nth_error jobs i = Some j -> ~ Rs i a b) -> nth_error h b = nth_error h0 b).
  Lemma beside_start : beside (fun _ => []) h0 (map (fun j => ready (fst j) (snd j)) jobs).
  Proof.
    exists mine. split; [apply map_length|]. split; [|split; [|split]]; auto.
    - intros i j J. exists (ready (fst j) (snd j)). rewrite nth_error_map, J. split; auto. split; [apply (mine_pairs h0 jobs Sound i j J)|]. split; [repeat split; cbn; auto|]. split; auto.
    - intros i k x y a a' b N Jx Jy (<- & x' & c & Jx' & Ic & R) (-> & y' & d & Jy' & Id & R'). rewrite Jx in Jx'. rewrite Jy in Jy'. injection Jx' as <-. injection Jy' as <-.
      exact (Apart i k x y c d N Jx Jy Ic Id a R R').
  Qed.
  Lemma beside_step E trace h ws i h' ws' : beside trace h ws -> workers_step E i h ws = (h', ws') -> beside (fun k => if k =? i then E :: trace k else trace k) h' ws'.
  Proof.
    intros (Rs & LW & W & D & L & U) S. destruct (workers_step_one E i h ws h' ws' S) as [(N & -> & ->)|(w & w' & N & ST & N' & O)].
    - exists Rs. split; auto. split; auto. intros k j J. destruct (k =? i) eqn:K; [|auto]. apply Nat.eqb_eq in K. subst. destruct (W i j J) as (w & Q & _). congruence.
    - destruct (nth_error jobs i) as [j|] eqn:J.
      2: { (* no such job, so no such worker *) exfalso. apply nth_error_None in J. assert (i < List.length ws) by (apply nth_error_Some; congruence). lia. }
      destruct (W i j J) as (w0 & Q & P & SA & M1 & M2). rewrite N in Q. injection Q as <-.
      destruct (worker_step_same E (Rs i) _ h _ w P SA) as (R' & MV & SA').
      { intros c C. apply M1. split; auto. exists j, c. split; auto. split; [|constructor]. apply (esteps_todo _ _ _ C). }
      rewrite ST in MV, SA'. cbn [fst snd] in MV, SA'. pose proof MV as (P' & MO & NEW & LEN & FR).
      exists (fun k => if k =? i then R' else Rs k). split; [rewrite <- LW; apply (workers_length E i h ws h' ws' S)|]. split; [|split; [|split; [lia|]]].
      + intros k x Jx. destruct (k =? i) eqn:K.
        * apply Nat.eqb_eq in K. subst k. rewrite J in Jx. injection Jx as <-. exists w'. split; auto. cbn [esteps]. split; [exact P'|]. split; [exact SA'|]. split; [auto|].
          intros a b H. destruct (NEW a b H) as [H1|H1]; [auto|right; lia].
        * apply Nat.eqb_neq in K. destruct (W k x Jx) as (wk & Qk & Pk & Sk & Mk). exists wk. rewrite O by exact K. split; auto. split; [|split; auto].
          destruct Pk as [Pk Jk]. split; auto. intros a b H. destruct (Pk a b H) as (p & q & A & B & C). exists p, q. split; auto. split; auto. rewrite <- B. apply FR; [apply nth_error_Some; congruence|].
          intros a' H'. exact (D i k j x a' a b ltac:(congruence) J Jx H' H).
      + intros k k' x y a a' b NE Jx Jy H H'.
        assert (OLD : forall k x a b, k <> i -> nth_error jobs k = Some x -> Rs k a b -> b < List.length h). { intros k1 x1 a1 b1 _ J1 H1. destruct (W k1 x1 J1) as (_ & _ & P1 & _). apply (pairs_bound _ _ _ _ _ P1 H1). }
        destruct (k =? i) eqn:K, (k' =? i) eqn:K'; rewrite ?Nat.eqb_eq, ?Nat.eqb_neq in *; subst; [congruence| | |].
        * pose proof (OLD k' y a' b K' Jy H'). destruct (NEW a b H) as [H1|H1]; [|lia]. exact (D i k' x y a a' b NE Jx Jy H1 H').
        * pose proof (OLD k x a b K Jx H). destruct (NEW a' b H') as [H1|H1]; [|lia]. exact (D k i x y a a' b NE Jx Jy H H1).
        * exact (D k k' x y a a' b NE Jx Jy H H').
      + intros b Hb Hn.
        assert (NO : forall k x a, nth_error jobs k = Some x -> ~ Rs k a b).
        { intros k x a Jx H. apply (Hn k x a Jx). destruct (k =? i) eqn:K; [|exact H]. apply Nat.eqb_eq in K. subst. apply MO. exact H. }
        rewrite FR; [apply U; auto|lia|]. intros a. apply (NO i j a J).
  Qed.
  Variable C : list (string * class_def).
  Notation envs ms := (map (fun x => env_of C (snd x) (fst x)) ms).
  Lemma beside_ext t t' h ws : (forall i, t i = t' i) -> beside t h ws -> beside t' h ws.
  Proof. intros Q (Rs & L & W & X). exists Rs. split; [exact L|]. split; [|exact X]. intros i j J. rewrite <- Q. exact (W i j J). Qed.
  Lemma beside_run : forall sched R W ts trace h ws R' W' h' ws', beside trace h ws -> crowd_run C sched R W ts h ws = (R', W', h', ws') ->
    beside (fun i => rev (envs (moments i sched R W ts)) ++ trace i) h' ws'.
  Proof.
    induction sched as [|[i|i|x] sched IH]; intros R W ts trace h ws R' W' h' ws' B Q; cbn [crowd_run moments] in *.
    - injection Q as <- <- <- <-. exact B.
    - destruct (workers_step (env_of C W R) i h ws) as [g us] eqn:S. apply (IH _ _ _ _ _ _ _ _ _ _ (beside_step _ trace h ws i g us B S)) in Q. eapply beside_ext; [|exact Q]. intros k. cbv beta.
      rewrite (Nat.eqb_sym i k). destruct (k =? i); [|reflexivity]. cbn [map rev fst snd]. rewrite <- app_assoc. reflexivity.
    - destruct (Threads.step i R ts) as [R1 ts1] eqn:S. cbn [fst snd]. exact (IH _ _ _ _ _ _ _ _ _ _ B Q).
    - exact (IH _ _ _ _ _ _ _ _ _ _ B Q).
  Qed.
  Lemma itself_steps : forall ms h w es, by_itself C ms (fst (esteps es (h, w))) (snd (esteps es (h, w))) = esteps (rev (envs ms) ++ es) (h, w).
  Proof.
    induction ms as [|[R W] ms IH]; intros h w es; cbn [by_itself map rev app fst snd]; [destruct (esteps es (h, w)); reflexivity|].
    rewrite <- app_assoc. cbn [app]. rewrite <- IH. cbn [esteps]. destruct (worker_step (env_of C W R) (fst (esteps es (h, w))) (snd (esteps es (h, w)))). reflexivity.
  Qed.
  Theorem crowd_as_alone sched R W ts R' W' h' ws : crowd_run C sched R W ts h0 (map (fun j => ready (fst j) (snd j)) jobs) = (R', W', h', ws) ->
    (forall i j w, nth_error jobs i = Some j -> nth_error ws i = Some w ->
       exists hs w1, by_itself C (moments i sched R W ts) h0 (ready (fst j) (snd j)) = (hs, w1) /\ done w1 = done w /\ its_buffer (now w1) = its_buffer (now w) /\ alike hs (targets (snd j)) h' (targets (snd j)))
    /\ (forall i k x y c d, i <> k -> nth_error jobs i = Some x -> nth_error jobs k = Some y -> In c (snd x) -> In d (snd y) -> unrelated h' (on c) (on d))
    /\ (forall l, l < List.length h0 -> (forall j c, In j jobs -> In c (snd j) -> ~ reach h0 (HRef (on c)) l) -> nth_error h' l = nth_error h0 l).
  Proof.
    intros Q. pose proof (beside_run sched R W ts _ _ _ _ _ _ _ beside_start Q) as (Rs & _ & WW & D & L & U). split; [|split].
    - intros i j w J N. destruct (WW i j J) as (w' & N' & P & S & M1 & _). rewrite N in N'. injection N' as <-. destruct (done_same _ _ _ S) as [Q1 B].
      exists (fst (solo j (rev (envs (moments i sched R W ts)) ++ []))), (snd (solo j (rev (envs (moments i sched R W ts)) ++ []))). split; [|split; [exact Q1|split; [exact B|]]].
      { rewrite <- surjective_pairing, <- itself_steps. reflexivity. }
      exists (Rs i). split; auto. unfold targets.
      assert (G : forall cs, (forall c, In c cs -> In c (snd j)) -> Forall2 (same_value (Rs i)) (map (fun c => HRef (on c)) cs) (map (fun c => HRef (on c)) cs)).
      { induction cs as [|c cs IH]; intros I; cbn [map]; constructor; [|apply IH; intros; apply I; right; auto]. cbn. apply M1. split; auto. exists j, c. split; auto. split; [apply I; left; reflexivity|constructor]. }
      apply G. auto.
    - intros i k x y c d NE Jx Jy Ic Id m R1 R2. destruct (WW i x Jx) as (_ & _ & P1 & _ & M1 & _). destruct (WW k y Jy) as (_ & _ & P2 & _ & M2 & _).
      destruct (pairs_reach _ _ _ (on c) (on c) m P1 ltac:(apply M1; split; auto; exists x, c; repeat split; auto; constructor) R1) as (a1 & A1).
      destruct (pairs_reach _ _ _ (on d) (on d) m P2 ltac:(apply M2; split; auto; exists y, d; repeat split; auto; constructor) R2) as (a2 & A2). exact (D i k x y a1 a2 m NE Jx Jy A1 A2).
    - intros l Hl Hn. apply U; auto. intros i j a J H. destruct (WW i j J) as (_ & _ & _ & _ & _ & M2). destruct (M2 a l H) as [(-> & j' & c & J' & IC & RE)|X]; [|lia].
      exact (Hn j' c (nth_error_In _ _ J') IC RE).
  Qed.
End Crowd.

(* ---- one call ---- *)
Lemma itself_first i : forall sched R W ts, moments i sched R W ts = [] \/
  exists R1 W1 ts1 sched1, moments i sched R W ts = (R1, W1) :: moments i sched1 R1 W1 ts1.
Proof.
  induction sched as [|[k|k|x] sched IH]; intros R W ts; cbn [moments]; [auto| |apply IH|apply IH].
  destruct (k =? i); [|apply IH]. right. exists R, W, ts, sched. reflexivity.
Qed.
