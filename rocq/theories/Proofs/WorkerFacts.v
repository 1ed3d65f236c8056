(* Threads that encode and decode messages that have nothing in common: each is as alone. *)
From Coq Require Import ZArith List Bool String Lia.
From Verif.Model Require Import JavaPrim ByteBuf Utf8 Codec Ast Interp Heap EncodeThreads DecodeThreads.
From Verif.Proofs Require Import DecodeFacts HeapFacts EncodeSteps EncodeRace EncodeEnds DecodeThreadFacts.
From Verif.Spec Require Import Sharing Apart.
Import ListNotations.
Open Scope nat_scope.

Section Workers.
  Variable E : env.
  Definition thread_same (R : nat -> nat -> Prop) (t u : thread) : Prop :=
    match t, u with Encoding t, Encoding u => encoder_same R t u | Decoding t, Decoding u => decoder_same R t u | _, _ => False end.
  Definition worker_same (R : nat -> nat -> Prop) (w x : worker) : Prop := thread_same R (now w) (now x) /\ todo w = todo x.
  Lemma thread_same_finished R t u : thread_same R t u -> finished t = finished u /\ its_buffer t = its_buffer u.
  Proof. destruct t, u; cbn; try contradiction; unfold encoder_same, decoder_same; intuition congruence. Qed.
  Lemma thread_step_same R h g t u : pairs R h g -> thread_same R t u ->
    exists R', moved R h g R' (fst (thread_step E h t)) (fst (thread_step E g u)) /\ thread_same R' (snd (thread_step E h t)) (snd (thread_step E g u)).
  Proof.
    intros P S. destruct t as [t|t], u as [u|u]; cbn [thread_same] in S; try contradiction; cbn [thread_step].
    - exists R. pose proof (encoder_step_same E R h g t u P S) as X. destruct (encoder_step E h t), (encoder_step E g u). exact X.
    - pose proof (decoder_step_same E R h g t u P S) as X. destruct (decoder_step E h t), (decoder_step E g u). exact X.
  Qed.
  Lemma starts_same R h g b c : pairs R h g -> R (on c) (on c) -> thread_same R (starts E h b c) (starts E g b c).
  Proof. intros P H. unfold starts. destruct (does c); cbn [thread_same]; [apply enter_same; auto|apply denter_same; auto]. Qed.
  Lemma worker_step_same R h g w x : pairs R h g -> worker_same R w x -> (forall c, In c (todo w) -> R (on c) (on c)) ->
    exists R', moved R h g R' (fst (worker_step E h w)) (fst (worker_step E g x)) /\ worker_same R' (snd (worker_step E h w)) (snd (worker_step E g x)).
  Proof.
    intros P [S T] C. unfold worker_step. destruct (thread_same_finished R _ _ S) as [F B]. rewrite <- F, <- B, <- T. destruct (finished (now w)) as [[e|]|].
    - exists R. split; [apply moved_refl; auto|split; auto].
    - destruct (todo w) as [|c r] eqn:Q. { exists R. cbn [fst snd]. split; [apply moved_refl; auto|split; congruence]. }
      exists R. cbn [fst snd]. split; [apply moved_refl; auto|]. split; [|reflexivity]. cbn [now]. apply starts_same; auto. apply C. left. reflexivity.
    - destruct (thread_step_same R h g _ _ P S) as (R' & M & S'). destruct (thread_step E h (now w)), (thread_step E g (now x)). exists R'. split; auto. split; auto.
  Qed.
  Lemma todo_shrinks h w c : In c (todo (snd (worker_step E h w))) -> In c (todo w).
  Proof.
    unfold worker_step. destruct (finished (now w)) as [[e|]|]; auto.
    - destruct (todo w) as [|c' r] eqn:Q; cbn; auto. rewrite Q. auto.
    - destruct (thread_step E h (now w)). auto.
  Qed.

  (* ---- alone ---- *)
  Fixpoint wsteps (n : nat) (st : heap * worker) : heap * worker := match n with O => st | S n => worker_step E (fst (wsteps n st)) (snd (wsteps n st)) end.
  Lemma wsteps_add n m st : wsteps (n + m) st = wsteps m (wsteps n st).
  Proof. induction m; [now rewrite Nat.add_0_r|]. rewrite Nat.add_succ_r. cbn [wsteps]. now rewrite IHm. Qed.
  Lemma wsteps_done n h w e : done w = Some e -> wsteps n (h, w) = (h, w).
  Proof.
    intros D. induction n as [|n IH]; cbn; auto. rewrite IH. cbn. unfold worker_step, done in *. destruct (finished (now w)) as [[x|]|]; auto; destruct (todo w); auto; discriminate.
  Qed.
  Lemma wsteps_todo n st c : In c (todo (snd (wsteps n st))) -> In c (todo (snd st)).
  Proof. induction n; cbn; auto. intros H. apply IHn. eapply todo_shrinks; eauto. Qed.
  Fixpoint tsteps (n : nat) (st : heap * thread) : heap * thread := match n with O => st | S n => tsteps n (thread_step E (fst st) (snd st)) end.
  Lemma thread_kept h t e : finished t = Some e -> thread_step E h t = (h, t).
  Proof.
    destruct t as [t|t]; cbn; intros F.
    - unfold encoder_step. rewrite F. reflexivity.
    - unfold decoder_step. rewrite F. reflexivity.
  Qed.
  (* from the start of a call to its end *)
  Lemma thread_worker cs : forall n h t h' t' e, tsteps n (h, t) = (h', t') -> finished t' = Some e ->
    exists m, wsteps m (h, {| now := t; todo := cs |}) = (h', {| now := t'; todo := cs |}).
  Proof.
    induction n as [|n IH]; intros h t h' t' e H F; cbn [tsteps] in H. { injection H as <- <-. exists 0. reflexivity. }
    destruct (finished t) as [x|] eqn:Q.
    - cbn [fst snd] in H. rewrite (thread_kept h t x Q) in H. apply (IH _ _ _ _ _ H F).
    - cbn [fst snd] in H. destruct (thread_step E h t) as [h1 t1] eqn:S. destruct (IH _ _ _ _ _ H F) as (m & M). exists (1 + m). rewrite wsteps_add. cbn [wsteps fst snd]. unfold worker_step. cbn [now todo]. rewrite Q, S. exact M.
  Qed.
  Lemma encode_alone h b c : does c = Encodes -> exists n t e, tsteps n (h, starts E h b c) = (snd (fst (hencode E (deep c) h (HRef (on c)) b)), t)
    /\ finished t = Some e /\ e = fst (fst (hencode E (deep c) h (HRef (on c)) b)) /\ its_buffer t = snd (hencode E (deep c) h (HRef (on c)) b).
  Proof.
    intros D. unfold starts. rewrite D. set (t0 := begin E h (HRef (on c)) (deep c) b). set (n := weight E h t0).
    assert (RUN : forall n h t, exists h' t', tsteps n (h, Encoding t) = (h', Encoding t') /\ encoders_run E (repeat 0 n) h [t] = (h', [t'])).
    { clear. induction n as [|n IH]; intros h t; cbn [tsteps repeat encoders_run encoders_step]; [eauto|]. cbn [fst snd thread_step]. destruct (encoder_step E h t) as [h1 t1]. apply IH. }
    destruct (RUN n h t0) as (h' & t' & T & R). exists n, (Encoding t'). destruct (outcome_alone E _ h t0 h' _ R) as (t2 & Q & O). injection Q as <-.
    assert (C : count_occ PeanoNat.Nat.eq_dec (repeat 0 n) 0 = n) by (clear; induction n; cbn; auto).
    pose proof (run_ends E 0 _ h _ h' [t'] t0 t' R eq_refl eq_refl ltac:(rewrite C; apply Nat.le_refl)) as EN. unfold outcome in O at 1. destruct (ended t') as [e|] eqn:Q; [|contradiction]. exists e.
    assert (O2 : hencode E (deep c) h (HRef (on c)) b = (e, h', out t')).
    { rewrite O. unfold t0, begin. rewrite outcome_enter. cbn [room out]. destruct (hencode E (deep c) h (HRef (on c)) b) as [[[x|] g] y]; reflexivity. }
    rewrite O2. cbn [fst snd finished its_buffer]. auto.
  Qed.
  Lemma decode_alone h b c : does c = Decodes -> exists n t e, tsteps n (h, starts E h b c) = (snd (fst (hdecode E (deep c) h (HRef (on c)) b)), t)
    /\ finished t = Some e /\ e = fst (fst (hdecode E (deep c) h (HRef (on c)) b)) /\ its_buffer t = snd (hdecode E (deep c) h (HRef (on c)) b).
  Proof.
    intros D. unfold starts. rewrite D.
    assert (RUN : forall n h t h' t', dsteps E n (h, t) = (h', t') -> tsteps n (h, Decoding t) = (h', Decoding t')).
    { clear. induction n as [|n IH]; intros h t h' t'; cbn [tsteps dsteps]; [congruence|]. cbn [fst snd thread_step]. destruct (decoder_step E h t) as [h1 t1]. apply IH. }
    destruct (decoder_alone E (deep c) h (HRef (on c)) b) as (n & t & e & N & F & Q & B). exists n, (Decoding t), e. split; [apply RUN; exact N|]. auto.
  Qed.
  Lemma worker_alone : forall cs h t, finished t = Some None ->
    exists n w, wsteps n (h, {| now := t; todo := cs |}) = (snd (fst (alone E h (its_buffer t) cs)), w)
      /\ done w = Some (fst (fst (alone E h (its_buffer t) cs))) /\ its_buffer (now w) = snd (alone E h (its_buffer t) cs).
  Proof.
    induction cs as [|c r IH]; intros h t F. { exists 0, {| now := t; todo := [] |}. unfold done. cbn. rewrite F. auto. }
    cbn [alone]. set (res := (match does c with Encodes => hencode | Decodes => hdecode end) E (deep c) h (HRef (on c)) (its_buffer t)).
    assert (X : exists n t' e, tsteps n (h, starts E h (its_buffer t) c) = (snd (fst res), t') /\ finished t' = Some e /\ e = fst (fst res) /\ its_buffer t' = snd res).
    { unfold res. destruct (does c) eqn:D; [apply encode_alone|apply decode_alone]; exact D. }
    destruct X as (n & t' & e & N & F' & Qe & Qb). destruct (thread_worker r n _ _ _ _ _ N F') as (m & M).
    assert (S1 : wsteps 1 (h, {| now := t; todo := c :: r |}) = (h, {| now := starts E h (its_buffer t) c; todo := r |})). { cbn. unfold worker_step. cbn. rewrite F. reflexivity. }
    assert (S2 : wsteps (1 + m) (h, {| now := t; todo := c :: r |}) = (snd (fst res), {| now := t'; todo := r |})) by (rewrite wsteps_add, S1; exact M).
    destruct res as [[[x|] h'] b']; cbn [fst snd] in *; subst e.
    - exists (1 + m), {| now := t'; todo := r |}. split; [exact S2|]. unfold done. cbn [now todo]. rewrite F'. auto.
    - destruct (IH h' t' F') as (k & w & K & D & B). exists (1 + m + k), w. rewrite wsteps_add, S2, <- Qb. auto.
  Qed.

  (* ---- together ---- *)
  Lemma workers_step_one i : forall h ws h' ws', workers_step E i h ws = (h', ws') ->
    (nth_error ws i = None /\ h' = h /\ ws' = ws) \/ exists w w', nth_error ws i = Some w /\ worker_step E h w = (h', w') /\ nth_error ws' i = Some w' /\ forall k, k <> i -> nth_error ws' k = nth_error ws k.
  Proof.
    induction i as [|i IH]; intros h ws h' ws' S; destruct ws as [|w r]; cbn [workers_step] in S.
    - left. injection S as <- <-. auto.
    - destruct (worker_step E h w) as [g w'] eqn:Q. injection S as <- <-. right. exists w, w'. repeat split; auto. intros [|k] N; [congruence|reflexivity].
    - left. injection S as <- <-. auto.
    - destruct (workers_step E i h r) as [g r'] eqn:Q. injection S as <- <-. destruct (IH _ _ _ _ Q) as [(A & -> & ->)|(u & u' & A & B & C & D)].
      + left. auto.
      + right. exists u, u'. repeat split; auto. intros [|k] N; [reflexivity|]. cbn. apply D. congruence.
  Qed.

  Lemma workers_length i : forall h ws h' ws', workers_step E i h ws = (h', ws') -> List.length ws' = List.length ws.
  Proof.
    induction i as [|i IH]; intros h ws h' ws' S; destruct ws as [|w r]; cbn [workers_step] in S; try (injection S as <- <-; reflexivity).
    - destruct (worker_step E h w). injection S as <- <-. reflexivity.
    - destruct (workers_step E i h r) as [g r'] eqn:Q. injection S as <- <-. cbn. f_equal. eapply IH; eauto.
  Qed.

  Variable h0 : heap.
  Variable jobs : list (bytebuf * list call).
  Definition mine (i a b : nat) : Prop := a = b /\ exists j c, nth_error jobs i = Some j /\ In c (snd j) /\ reach h0 (HRef (on c)) a.
  Hypothesis Sound : forall j c, In j jobs -> In c (snd j) -> sound_below h0 (on c).
  Hypothesis Apart : forall i k x y c d, i <> k -> nth_error jobs i = Some x -> nth_error jobs k = Some y -> In c (snd x) -> In d (snd y) -> unrelated h0 (on c) (on d).
  Definition solo (j : bytebuf * list call) (n : nat) : heap * worker := wsteps n (h0, ready (fst j) (snd j)).
  Definition together (turns : nat -> nat) (h : heap) (ws : list worker) : Prop :=
    exists Rs, List.length ws = List.length jobs /\ (forall i j, nth_error jobs i = Some j -> exists w, nth_error ws i = Some w /\ pairs (Rs i) (fst (solo j (turns i))) h /\ worker_same (Rs i) (snd (solo j (turns i))) w
        /\ (forall a b, mine i a b -> Rs i a b) /\ (forall a b, Rs i a b -> mine i a b \/ List.length h0 <= b))
      /\ (forall i k x y a a' b, i <> k -> nth_error jobs i = Some x -> nth_error jobs k = Some y -> Rs i a b -> Rs k a' b -> False)
      /\ List.length h0 <= List.length h
      /\ (forall b, b < List.length h0 -> (forall i j a, nth_error jobs i = Some j -> ~ Rs i a b) -> nth_error h b = nth_error h0 b).
  Lemma reach_step v l k n : reach h0 v l -> nth_error h0 l = Some k -> match k with CObj _ fs => exists f, In (f, HRef n) fs | CList vs => In (HRef n) vs end -> reach h0 v n.
  Proof.
    intros R Q P. induction R as [l|l c fs f v m A B R IH|l vs v m A B R IH].
    - destruct k as [c fs|vs]; [destruct P as (f & P); eapply reach_field; eauto; constructor|eapply reach_elem; eauto; constructor].
    - eapply reach_field; eauto.
    - eapply reach_elem; eauto.
  Qed.
  Lemma mine_pairs i j : nth_error jobs i = Some j -> pairs (mine i) h0 h0.
  Proof.
    intros J. split.
    - intros a b (<- & j' & c & J' & C & R). rewrite J in J'. injection J' as <-. pose proof (Sound j c (nth_error_In _ _ J) C a R) as L. destruct (nth_error h0 a) as [k|] eqn:Q; [|apply nth_error_Some in L; congruence].
      exists k, k. split; auto. split; auto.
      assert (ST : forall n, match k with CObj _ fs => exists f, In (f, HRef n) fs | CList vs => In (HRef n) vs end -> mine i n n).
      { intros n P. split; auto. exists j, c. split; auto. split; auto. eapply reach_step; eauto. }
      assert (SV : forall v, (forall n, v = HRef n -> mine i n n) -> same_value (mine i) v v) by (intros [] V; cbn; auto).
      destruct k as [c' fs|vs]; cbn [same_cell].
      + split; auto. assert (G : forall fs0 : list (string * hval), (forall f n, In (f, HRef n) fs0 -> mine i n n) -> Forall2 (fun x y => fst x = fst y /\ same_value (mine i) (snd x) (snd y)) fs0 fs0).
        { induction fs0 as [|[f v] fs0 IH]; intros H; constructor; [cbn [fst snd]; split; auto; apply SV; intros n ->; apply (H f); left; reflexivity|]. apply IH. intros f' n I. apply (H f'). right. exact I. }
        apply G. intros f n I. apply ST. eauto.
      + assert (G : forall vs0, (forall n, In (HRef n) vs0 -> mine i n n) -> Forall2 (same_value (mine i)) vs0 vs0).
        { induction vs0 as [|v vs0 IH]; intros H; constructor; [apply SV; intros n ->; apply H; left; reflexivity|]. apply IH. intros n I. apply H. right. exact I. }
        apply G. intros n I. apply ST. exact I.
    - intros a b a' b' (<- & _) (<- & _). tauto.
  Qed.
  Lemma together_start : together (fun _ => 0) h0 (map (fun j => ready (fst j) (snd j)) jobs).
  Proof.
    exists mine. split; [apply map_length|]. split; [|split; [|split]]; auto.
    - intros i j J. exists (ready (fst j) (snd j)). rewrite nth_error_map, J. split; auto. split; [apply (mine_pairs i j J)|]. split; [repeat split; cbn; auto|]. split; auto.
    - intros i k x y a a' b N Jx Jy (<- & x' & c & Jx' & Ic & R) (-> & y' & d & Jy' & Id & R'). rewrite Jx in Jx'. rewrite Jy in Jy'. injection Jx' as <-. injection Jy' as <-.
      exact (Apart i k x y c d N Jx Jy Ic Id a R R').
  Qed.
  Lemma together_step turns h ws i h' ws' : together turns h ws -> workers_step E i h ws = (h', ws') -> together (fun k => if k =? i then S (turns k) else turns k) h' ws'.
  Proof.
    intros (Rs & LW & W & D & L & U) S. destruct (workers_step_one i h ws h' ws' S) as [(N & -> & ->)|(w & w' & N & ST & N' & O)].
    - exists Rs. split; auto. split; auto. intros k j J. destruct (k =? i) eqn:K; [|auto]. apply Nat.eqb_eq in K. subst. destruct (W i j J) as (w & Q & _). congruence.
    - destruct (nth_error jobs i) as [j|] eqn:J.
      2: { (* no such job, so no such worker *) exfalso. apply nth_error_None in J. assert (i < List.length ws) by (apply nth_error_Some; congruence). lia. }
      destruct (W i j J) as (w0 & Q & P & SA & M1 & M2). rewrite N in Q. injection Q as <-.
      destruct (worker_step_same (Rs i) _ h _ w P SA) as (R' & MV & SA').
      { intros c C. apply M1. split; auto. exists j, c. split; auto. split; [|constructor]. apply (wsteps_todo _ _ _ C). }
      rewrite ST in MV, SA'. cbn [fst snd] in MV, SA'. pose proof MV as (P' & MO & NEW & LEN & FR).
      exists (fun k => if k =? i then R' else Rs k). split; [rewrite <- LW; apply (workers_length i h ws h' ws' S)|]. split; [|split; [|split; [lia|]]].
      + intros k x Jx. destruct (k =? i) eqn:K.
        * apply Nat.eqb_eq in K. subst k. rewrite J in Jx. injection Jx as <-. exists w'. split; auto. cbn [wsteps solo]. split; [exact P'|]. split; [exact SA'|]. split; [auto|].
          intros a b H. destruct (NEW a b H) as [H1|H1]; [auto|right; lia].
        * apply Nat.eqb_neq in K. destruct (W k x Jx) as (wk & Qk & Pk & Sk & Mk). exists wk. rewrite O by exact K. split; auto. split; [|split; auto].
          destruct Pk as [Pk Jk]. split; auto. intros a b H. destruct (Pk a b H) as (p & q & A & B & C). exists p, q. split; auto. split; auto. rewrite <- B. apply FR; [apply nth_error_Some; congruence|].
          intros a' H'. exact (D i k j x a' a b ltac:(congruence) J Jx H' H).
      + intros k k' x y a a' b NE Jx Jy H H'.
        assert (OLD : forall k x a b, k <> i -> nth_error jobs k = Some x -> Rs k a b -> b < List.length h). { intros k1 x1 a1 b1 _ J1 H1. destruct (W k1 x1 J1) as (_ & _ & P1 & _). apply (pairs_bound _ _ _ _ _ P1 H1). }
        destruct (k =? i) eqn:K, (k' =? i) eqn:K'; rewrite ?Nat.eqb_eq, ?Nat.eqb_neq in *; subst; [congruence| | |].
        * pose proof (OLD k' y a' b K' Jy H'). destruct (NEW a b H) as [H1|H1]; [|lia]. exact (D i k' x y a a' b NE Jx Jy H1 H').
        * pose proof (OLD k x a b K Jx H). destruct (NEW a' b H') as [H1|H1]; [|lia]. exact (D k i x y a a' b NE Jx Jy H H1).
        * exact (D k k' x y a a' b NE Jx Jy H H').
      + intros b Hb Hn.
        assert (NO : forall k x a, nth_error jobs k = Some x -> ~ Rs k a b).
        { intros k x a Jx H. apply (Hn k x a Jx). destruct (k =? i) eqn:K; [|exact H]. apply Nat.eqb_eq in K. subst. apply MO. exact H. }
        rewrite FR; [apply U; auto|lia|]. intros a. apply (NO i j a J).
  Qed.
  Lemma together_run : forall sched turns h ws h' ws', together turns h ws -> workers_run E sched h ws = (h', ws') -> exists turns', together turns' h' ws' /\ forall i, turns' i = turns i + count_occ Nat.eq_dec sched i.
  Proof.
    induction sched as [|i sched IH]; intros turns h ws h' ws' T R; cbn [workers_run] in R.
    - injection R as <- <-. exists turns. split; auto.
    - destruct (workers_step E i h ws) as [g us] eqn:S. destruct (IH _ _ _ _ _ (together_step turns h ws i g us T S) R) as (turns' & T' & C). exists turns'. split; auto. intros k. rewrite C. cbn [count_occ].
      destruct (Nat.eq_dec i k) as [->|NE]; [rewrite Nat.eqb_refl; lia|]. destruct (k =? i) eqn:Q; [apply Nat.eqb_eq in Q; congruence|lia].
  Qed.
  (* what is reached from a paired location is paired *)
  Lemma pairs_reach R h g a b m : pairs R h g -> R a b -> reach g (HRef b) m -> exists a', R a' m.
  Proof.
    intros [P _] H RE. remember (HRef b) as v eqn:V. revert a b H V. induction RE as [l|l c fs f v m A B RE IH|l vs v m A B RE IH]; intros a b H V; injection V as ->.
    - eauto.
    - destruct (P a b H) as (p & q & X & Y & C). rewrite A in Y. injection Y as <-. destruct p as [c' gs|]; cbn in C; [|contradiction]. destruct C as [_ F].
      assert (exists u, same_value R u v) as (u & SV). { clear -F B. induction F as [|x y l l' [_ S] F IH]; [contradiction|]. destruct B as [->|B]; eauto. }
      destruct v as [| | | |n]; try (inversion RE; fail). destruct u; cbn in SV; try contradiction. eapply IH; eauto.
    - destruct (P a b H) as (p & q & X & Y & C). rewrite A in Y. injection Y as <-. destruct p as [|ws]; cbn in C; [contradiction|].
      assert (exists u, same_value R u v) as (u & SV). { clear -C B. induction C as [|x y l l' S F IH]; [contradiction|]. destruct B as [->|B]; eauto. }
      destruct v as [| | | |n]; try (inversion RE; fail). destruct u; cbn in SV; try contradiction. eapply IH; eauto.
  Qed.
  Lemma done_same R w x : worker_same R w x -> done w = done x /\ its_buffer (now w) = its_buffer (now x).
  Proof. intros [S T]. destruct (thread_same_finished R _ _ S) as [F B]. unfold done. rewrite F, T. auto. Qed.
  (* once ended, alone is alone *)
  Lemma solo_ended j n e : done (snd (solo j n)) = Some e -> alone E h0 (fst j) (snd j) = (e, fst (solo j n), its_buffer (now (snd (solo j n)))).
  Proof.
    intros D. destruct (worker_alone (snd j) h0 (now (ready (fst j) (snd j))) eq_refl) as (m & w & M & DW & BW). cbn [now ready its_buffer out] in *. change {| now := _; todo := snd j |} with (ready (fst j) (snd j)) in M. fold (solo j m) in M.
    assert (Q : solo j n = solo j m).
    { destruct (Nat.le_ge_cases n m) as [LE|LE].
      - replace m with (n + (m - n)) by lia. unfold solo. rewrite wsteps_add. fold (solo j n). destruct (solo j n) as [hn wn]. symmetry. eapply wsteps_done. exact D.
      - replace n with (m + (n - m)) by lia. unfold solo. rewrite wsteps_add. fold (solo j m). rewrite M. eapply wsteps_done. exact DW. }
    rewrite Q, M in *. cbn [fst snd] in *. rewrite DW in D. injection D as <-. rewrite BW. destruct (alone E h0 (fst j) (snd j)) as [[? ?] ?]. reflexivity.
  Qed.
  Lemma solo_ends j : exists n, forall m, n <= m -> exists e, done (snd (solo j m)) = Some e.
  Proof.
    destruct (worker_alone (snd j) h0 (now (ready (fst j) (snd j))) eq_refl) as (n & w & M & DW & BW). change {| now := _; todo := snd j |} with (ready (fst j) (snd j)) in M. fold (solo j n) in M.
    exists n. intros m LE. replace m with (n + (m - n)) by lia. unfold solo. rewrite wsteps_add. fold (solo j n). rewrite M. erewrite wsteps_done by exact DW. eauto.
  Qed.
  Theorem workers_as_alone sched h' ws : workers_run E sched h0 (map (fun j => ready (fst j) (snd j)) jobs) = (h', ws) ->
    (forall i j w e, nth_error jobs i = Some j -> nth_error ws i = Some w -> done w = Some e ->
       exists hs, alone E h0 (fst j) (snd j) = (e, hs, its_buffer (now w)) /\ alike hs (targets (snd j)) h' (targets (snd j)))
    /\ (forall i k x y c d, i <> k -> nth_error jobs i = Some x -> nth_error jobs k = Some y -> In c (snd x) -> In d (snd y) -> unrelated h' (on c) (on d))
    /\ (forall l, l < List.length h0 -> (forall j c, In j jobs -> In c (snd j) -> ~ reach h0 (HRef (on c)) l) -> nth_error h' l = nth_error h0 l).
  Proof.
    intros R. destruct (together_run sched _ _ _ _ _ together_start R) as (turns & (Rs & _ & W & D & L & U) & _). split; [|split].
    - intros i j w e J N F. destruct (W i j J) as (w' & N' & P & S & M1 & _). rewrite N in N'. injection N' as <-. destruct (done_same _ _ _ S) as [Q B]. rewrite F in Q. exists (fst (solo j (turns i))). rewrite <- B.
      split; [apply solo_ended; exact Q|]. exists (Rs i). split; auto. unfold targets.
      assert (G : forall cs, (forall c, In c cs -> In c (snd j)) -> Forall2 (same_value (Rs i)) (map (fun c => HRef (on c)) cs) (map (fun c => HRef (on c)) cs)).
      { induction cs as [|c cs IH]; intros I; cbn [map]; constructor; [|apply IH; intros; apply I; right; auto]. cbn. apply M1. split; auto. exists j, c. split; auto. split; [apply I; left; reflexivity|constructor]. }
      apply G. auto.
    - intros i k x y c d NE Jx Jy Ic Id m R1 R2. destruct (W i x Jx) as (_ & _ & P1 & _ & M1 & _). destruct (W k y Jy) as (_ & _ & P2 & _ & M2 & _).
      destruct (pairs_reach _ _ _ (on c) (on c) m P1 ltac:(apply M1; split; auto; exists x, c; repeat split; auto; constructor) R1) as (a1 & A1).
      destruct (pairs_reach _ _ _ (on d) (on d) m P2 ltac:(apply M2; split; auto; exists y, d; repeat split; auto; constructor) R2) as (a2 & A2). exact (D i k x y a1 a2 m NE Jx Jy A1 A2).
    - intros l Hl Hn. apply U; auto. intros i j a J H. destruct (W i j J) as (_ & _ & _ & _ & _ & M2). destruct (M2 a l H) as [(-> & j' & c & J' & C & RE)|X]; [|lia].
      exact (Hn j' c (nth_error_In _ _ J') C RE).
  Qed.
  Theorem workers_end i j : nth_error jobs i = Some j -> exists n, forall sched h' ws w, n <= count_occ Nat.eq_dec sched i -> workers_run E sched h0 (map (fun j => ready (fst j) (snd j)) jobs) = (h', ws) ->
    nth_error ws i = Some w -> done w <> None.
  Proof.
    intros J. destruct (solo_ends j) as (n & H). exists n. intros sched h' ws w LE R N. destruct (together_run sched _ _ _ _ _ together_start R) as (turns & (Rs & _ & W & _) & C).
    destruct (W i j J) as (w' & N' & P & S & _). rewrite N in N'. injection N' as <-. destruct (done_same _ _ _ S) as [Q _]. rewrite <- Q. destruct (H (turns i)) as (e & He); [rewrite C; lia|]. rewrite He. discriminate.
  Qed.
End Workers.

(* ---- what can be observed of graphs of the same shape ---- *)
Lemma pairs_sym R h g : pairs R h g -> pairs (fun a b => R b a) g h.
Proof.
  intros [P J]. split.
  - intros a b H. destruct (P b a H) as (k & m & A & B & C). exists m, k. split; auto. split; auto.
    assert (SV : forall v w, same_value R v w -> same_value (fun a b => R b a) w v) by (intros [] []; cbn; auto; congruence).
    destruct k, m; cbn in C; try contradiction; cbn.
    + destruct C as [-> F]. split; auto. clear -F SV. induction F as [|x y l l' [X Y] F IH]; constructor; auto.
    + clear -C SV. induction C; constructor; auto.
  - intros a b a' b' H H'. split; intros; apply (J b a b' a'); auto.
Qed.
Scheme shows_sch := Induction for shows Sort Prop with shows_all_sch := Induction for shows_all Sort Prop.
Lemma pairs_shows R h g : pairs R h g -> forall v t, shows h v t -> forall w, same_value R v w -> shows g w t.
Proof.
  intros [P _] v t S. revert v t S.
  apply (shows_sch h (fun v t _ => forall w, same_value R v w -> shows g w t) (fun vs ts _ => forall ws, Forall2 (same_value R) vs ws -> shows_all g ws ts)).
  - intros [] H; cbn in H; try contradiction; try discriminate; constructor.
  - intros z [] H; cbn in H; try contradiction; try discriminate. injection H as <-. constructor.
  - intros z [] H; cbn in H; try contradiction; try discriminate. injection H as <-. constructor.
  - intros z [] H; cbn in H; try contradiction; try discriminate. injection H as <-. constructor.
  - intros l vs ts Q SA IH [] H; cbn in H; try contradiction. destruct (P _ _ H) as (k & m & A & B & C). rewrite Q in A. injection A as <-. destruct m as [|ws]; cbn in C; [contradiction|]. eapply shows_list; eauto.
  - intros l c fs gs Q N SA IH [] H; cbn in H; try contradiction. destruct (P _ _ H) as (k & m & A & B & C). rewrite Q in A. injection A as <-. destruct m as [c' fs'|]; cbn in C; [|contradiction]. destruct C as [<- F].
    eapply shows_obj; eauto.
    + rewrite N. clear -F. induction F as [|x y l l' [X _] F IH]; cbn; congruence.
    + apply IH. clear -F. induction F as [|x y l l' [_ X] F IH]; cbn; constructor; auto.
  - intros ws F. inversion F. constructor.
  - intros v t vs ts S IH SA IHs ws F. inversion F; subst. constructor; auto.
Qed.
Theorem alike_shows h vs g ws i v w t : alike h vs g ws -> nth_error vs i = Some v -> nth_error ws i = Some w -> (shows h v t <-> shows g w t).
Proof.
  intros (R & P & F) V W. assert (S : same_value R v w).
  { clear P. revert i V W. induction F as [|x y l l' X F IH]; intros [|i] V W; cbn in V, W; try discriminate; [congruence|eapply IH; eauto]. }
  split; intros H; [eapply pairs_shows; eauto|]. eapply pairs_shows; [apply pairs_sym; exact P|exact H|]. clear -S. destruct v, w; cbn in *; auto; congruence.
Qed.
