(* C102: threads with any number of calls end, if they keep getting turns. *)
From Coq Require Import ZArith List Bool String Lia.
From Verif.Model Require Import JavaPrim ByteBuf Utf8 Codec Checksum Ast Interp Factory Library Heap EncodeThreads DecodeThreads FactoryRace Crowd.
From Verif.Model Require Threads RegistryThreads.
From Verif.Spec Require Import Bytes Buffers Wire Layouts Sharing Together Apart Worlds Crowds.
From Verif.Proofs Require Import BufFacts HeapFacts WorkerFacts CrowdFacts.
From Verif.Props Require Import Samples HeapProps WorkerProps FactoryRaceProps CrowdProps MixedProps.
From Verif.Props Require RegistryThreadProps.
Import ListNotations.
Open Scope nat_scope.
Open Scope list_scope.

Notation started jobs := (map (fun j => ready (fst j) (snd j)) jobs).
(* a schedule that goes on for ever, its first n turns, and what follows them *)
Definition upto (s : nat -> who) (n : nat) : list who := map s (seq 0 n).
Definition from (s : nat -> who) (n : nat) : nat -> who := fun k => s (n + k).
(* worker i always gets another turn *)
Definition goes_on (i : nat) (s : nat -> who) : Prop := forall n, exists m, n <= m /\ s m = Worker i.

Lemma upto_add s n m : upto s (n + m) = upto s n ++ upto (from s n) m.
Proof.
  unfold upto, from. rewrite seq_app, map_app. f_equal. cbn [Nat.add]. rewrite <- (Nat.add_0_r n) at 1. generalize 0. induction m as [|m IH]; intros k; [reflexivity|]. cbn [seq map]. f_equal. rewrite <- Nat.add_succ_r. apply IH.
Qed.
Lemma upto_length s n : List.length (upto s n) = n. Proof. unfold upto. rewrite map_length, seq_length. reflexivity. Qed.
Lemma upto_split s n p q : upto s n = p ++ q -> p = upto s (List.length p) /\ List.length p <= n.
Proof.
  intros E. assert (L : List.length p <= n) by (apply (f_equal (@List.length who)) in E; rewrite upto_length, app_length in E; lia). split; [|exact L].
  replace n with (List.length p + (n - List.length p)) in E by lia. rewrite upto_add in E. apply (f_equal (firstn (List.length p))) in E. rewrite !firstn_app, upto_length, Nat.sub_diag, !firstn_O, !app_nil_r, firstn_all in E.
  rewrite <- E. rewrite firstn_all2; [rewrite upto_length; reflexivity|rewrite upto_length; lia].
Qed.
Lemma goes_from i s n : goes_on i s -> goes_on i (from s n).
Proof. intros G k. destruct (G (n + k)) as (m & L & E). exists (m - n). split; [lia|]. unfold from. replace (n + (m - n)) with m by lia. exact E. Qed.

(* registry, factories and the threads of the registry after some turns *)
Fixpoint after (sched : list who) (R : cache) (W : factories) (ts : list Threads.thread) : cache * factories * list Threads.thread :=
  match sched with
  | [] => (R, W, ts)
  | Worker _ :: r => after r R W ts
  | Services k :: r => after r (fst (Threads.step k R ts)) W (snd (Threads.step k R ts))
  | Registers x :: r => after r R (changed x W) ts
  end.
Lemma moments_app i p q : forall R W ts, moments i (p ++ q) R W ts = moments i p R W ts ++ (let '(R1, W1, ts1) := after p R W ts in moments i q R1 W1 ts1).
Proof. induction p as [|[k|k|x] p IH]; intros R W ts; cbn [app moments after]; [reflexivity| |apply IH|apply IH]. destruct (Nat.eqb k i); rewrite IH; reflexivity. Qed.
Lemma itself_app C a b : forall h w, by_itself C (a ++ b) h w = let '(h1, w1) := by_itself C a h w in by_itself C b h1 w1.
Proof. induction a as [|[R W] a IH]; intros h w; cbn [app by_itself]; [reflexivity|]. destruct (worker_step (env_of C W R) h w). apply IH. Qed.
Lemma has_turn i q : In (Worker i) q -> forall R W ts, 1 <= List.length (moments i q R W ts).
Proof.
  induction q as [|x q IH]; intros I R W ts; [contradiction|]. destruct I as [->|I]; [cbn [moments]; rewrite Nat.eqb_refl; cbn; lia|].
  destruct x as [k|k|x]; cbn [moments]; [destruct (Nat.eqb k i); cbn [List.length]; [lia|auto]|auto|auto].
Qed.
Lemma first_turn i q : In (Worker i) q -> exists p p', q = p ++ Worker i :: p' /\ forall R W ts, moments i p R W ts = [].
Proof.
  induction q as [|x q IH]; intros I; [contradiction|]. assert (X : x = Worker i \/ x <> Worker i /\ In (Worker i) q).
  { destruct x as [k|k|x]; [destruct (Nat.eq_dec k i) as [->|NE]; [auto|]| |]; right; (split; [congruence|]); destruct I as [Q|I]; try exact I; congruence. }
  destruct X as [->|[NE J]]; [exists [], q; split; reflexivity|]. destruct (IH J) as (p & p' & -> & M). exists (x :: p), p'. split; [reflexivity|]. intros R W ts.
  destruct x as [k|k|x]; cbn [moments]; auto. destruct (Nat.eqb_spec k i) as [->|]; [congruence|auto].
Qed.
Lemma plenty i : forall n s R W ts, goes_on i s -> exists N, n <= List.length (moments i (upto s N) R W ts).
Proof.
  induction n as [|n IH]; intros s R W ts G; [exists 0; lia|]. destruct (IH s R W ts G) as (N & L). destruct (G N) as (m & Lm & E). exists (N + S (m - N)). rewrite upto_add, moments_app, app_length. destruct (after (upto s N) R W ts) as [[R1 W1] ts1].
  pose proof (has_turn i (upto (from s N) (S (m - N)))) as T. specialize (T ltac:(apply in_map_iff; exists (m - N); split; [unfold from; replace (N + (m - N)) with m by lia; exact E|apply in_seq; lia]) R1 W1 ts1). lia.
Qed.
(* one call ends after a number of turns *)
Lemma call_ends h b c : exists n, forall i sched R W ts, n <= List.length (moments i sched R W ts) -> finished (now (snd (by_itself lib_classes (moments i sched R W ts) h (calls_one (starts (env_of lib_classes W R) h b c))))) <> None.
Proof.
  destruct (RegistryThreadProps.C98_ends lib_factories h (HRef (on c)) (deep c) b) as (n & Hn). destruct (C99_ends (deep c)) as (m & Hm). exists (Nat.max n m).
  intros i sched R1 W1 ts1 LE. unfold starts. destruct (does c).
  - destruct (itself_mixed i lib_factories sched R1 W1 ts1 h (begin (world lib_factories R1) h (HRef (on c)) (deep c) b)) as (R2 & ts2 & h2 & t2 & MR & BI2).
    change (begin (world lib_factories R1) h (HRef (on c)) (deep c) b) with (begin (world W1 R1) h (HRef (on c)) (deep c) b) in BI2. rewrite BI2. cbn [snd now calls_one finished].
    apply Hn in MR; [exact MR|]. rewrite (mixed_registries i sched R1 W1 ts1), map_length. lia.
  - destruct (itself_decode i R1 sched R1 W1 ts1 h (denter (world W1 R1) h (HRef (on c)) [] (deep c) b)) as (W2 & h2 & t2 & MR & BI2). rewrite BI2. cbn [snd now calls_one finished].
    apply Hm in MR; [exact MR|]. rewrite (decode_worlds i sched R1 W1 ts1), map_length. lia.
Qed.
(* with further calls to make it is the same, until the call has ended *)
Lemma until_then i cs : forall q R W ts h t, finished (now (snd (by_itself lib_classes (moments i q R W ts) h (calls_one t)))) <> None ->
  exists p p' h1 t1 e, q = p ++ p' /\ by_itself lib_classes (moments i p R W ts) h {| now := t; todo := cs |} = (h1, {| now := t1; todo := cs |}) /\ finished t1 = Some e.
Proof.
  assert (NOW : forall q R W ts h t e, finished t = Some e -> exists p p' h1 t1 e, q = p ++ p' /\ by_itself lib_classes (moments i p R W ts) h {| now := t; todo := cs |} = (h1, {| now := t1; todo := cs |}) /\ finished t1 = Some e).
  { intros q R W ts h t e F. exists [], q, h, t, e. split; [reflexivity|]. split; [reflexivity|exact F]. }
  induction q as [|x q IH]; intros R W ts h t F; (destruct (finished t) as [e|] eqn:FT; [eapply NOW; eauto|]); [cbn in F; congruence|].
  destruct x as [k|k|x]; cbn [moments] in F.
  - destruct (Nat.eqb k i) eqn:KI.
    + cbn [by_itself] in F. unfold worker_step, calls_one in F. cbn [now todo] in F. rewrite FT in F. destruct (thread_step (env_of lib_classes W R) h t) as [g u] eqn:TS. destruct (IH R W ts g u F) as (p & p' & h1 & t1 & e & -> & B & F1).
      exists (Worker k :: p), p', h1, t1, e. split; [reflexivity|]. split; [|exact F1]. cbn [moments]. rewrite KI. cbn [by_itself]. unfold worker_step. cbn [now todo]. rewrite FT, TS. exact B.
    + destruct (IH R W ts h t F) as (p & p' & h1 & t1 & e & -> & B & F1). exists (Worker k :: p), p', h1, t1, e. split; [reflexivity|]. cbn [moments]. rewrite KI. auto.
  - destruct (IH _ W _ h t F) as (p & p' & h1 & t1 & e & -> & B & F1). exists (Services k :: p), p', h1, t1, e. split; [reflexivity|]. auto.
  - destruct (IH R _ ts h t F) as (p & p' & h1 & t1 & e & -> & B & F1). exists (Registers x :: p), p', h1, t1, e. split; [reflexivity|]. auto.
Qed.
Lemma itself_ends i : forall cs s R W ts h t, goes_on i s -> finished t = Some None -> exists n, done (snd (by_itself lib_classes (moments i (upto s n) R W ts) h {| now := t; todo := cs |})) <> None.
Proof.
  induction cs as [|c r IH]; intros s R W ts h t G F.
  - exists 0. cbn. unfold done. cbn [now todo]. rewrite F. discriminate.
  - destruct (G 0) as (m & _ & E). destruct (first_turn i (upto s (S m))) as (p & p' & U & M); [apply in_map_iff; exists m; split; [exact E|apply in_seq; lia]|].
    assert (U1 : upto s (List.length p + 1) = p ++ [Worker i]).
    { change (Worker i :: p') with ([Worker i] ++ p') in U. rewrite app_assoc in U. apply upto_split in U. destruct U as [U _]. rewrite app_length in U. cbn [List.length] in U. symmetry. exact U. }
    set (n1 := List.length p + 1) in *. pose proof (goes_from i s n1 G) as G1. destruct (after p R W ts) as [[R1 W1] ts1] eqn:AF.
    assert (B1 : by_itself lib_classes (moments i (upto s n1) R W ts) h {| now := t; todo := c :: r |} = (h, {| now := starts (env_of lib_classes W1 R1) h (its_buffer t) c; todo := r |})).
    { rewrite U1, moments_app, M, AF. cbn [app moments]. rewrite Nat.eqb_refl. cbn [by_itself]. unfold worker_step. cbn [now todo]. rewrite F. reflexivity. }
    assert (A1 : after (upto s n1) R W ts = (R1, W1, ts1)).
    { rewrite U1. clear - AF. revert R W ts AF. induction p as [|[k|k|x] p IH]; intros R W ts AF; cbn [app after] in *; auto. }
    destruct (call_ends h (its_buffer t) c) as (n & Hn). destruct (plenty i n (from s n1) R1 W1 ts1 G1) as (N & L). specialize (Hn i _ R1 W1 ts1 L).
    destruct (until_then i r _ _ _ _ _ _ Hn) as (p2 & q2 & h1 & t1 & e & U2 & B2 & F1). apply upto_split in U2. destruct U2 as [U2 _]. set (n2 := List.length p2) in *.
    assert (B12 : by_itself lib_classes (moments i (upto s (n1 + n2)) R W ts) h {| now := t; todo := c :: r |} = (h1, {| now := t1; todo := r |})).
    { rewrite upto_add, moments_app, A1, itself_app, B1, <- U2. exact B2. }
    destruct e as [x|].
    + exists (n1 + n2). rewrite B12. unfold done. cbn [snd now todo]. rewrite F1. discriminate.
    + destruct (after (upto s (n1 + n2)) R W ts) as [[R2 W2] ts2] eqn:A2. destruct (IH (from s (n1 + n2)) R2 W2 ts2 h1 t1 (goes_from i s _ G) F1) as (n3 & D). exists (n1 + n2 + n3).
      rewrite upto_add, moments_app, A2, itself_app, B12. exact D.
Qed.
Lemma done_stays C : forall ms h w, done w <> None -> by_itself C ms h w = (h, w).
Proof.
  induction ms as [|[R W] ms IH]; intros h w D; cbn [by_itself]; [reflexivity|]. assert (X : worker_step (env_of C W R) h w = (h, w)); [|rewrite X; auto].
  unfold done in D. unfold worker_step. destruct (finished (now w)) as [[x|]|]; destruct (todo w); try reflexivity; congruence.
Qed.
(* whatever the others do: a worker that always gets another turn ends, with any number of calls *)
Theorem C102_all_calls_end : forall h jobs i b cs s R W ts, own_messages h jobs -> nth_error jobs i = Some (b, cs) -> goes_on i s ->
  exists n, forall m R' W' h' ws w, n <= m -> crowd_run lib_classes (upto s m) R W ts h (started jobs) = (R', W', h', ws) -> nth_error ws i = Some w -> done w <> None.
Proof.
  intros h jobs i b cs s R W ts OM J G. destruct (itself_ends i cs s R W ts h (now (ready b cs)) G eq_refl) as (n & D). exists n. intros m R' W' h' ws w LE Q N.
  destruct (C102_as_alone _ R W ts h jobs R' W' h' ws OM Q) as [A _]. destruct (A i _ w J N) as (hs & w1 & BI & <- & _ & _). cbn [fst snd] in BI.
  replace m with (n + (m - n)) in BI by lia. rewrite upto_add, moments_app, itself_app in BI. unfold ready in BI. cbn [now ready] in D.
  destruct (by_itself lib_classes (moments i (upto s n) R W ts) h _) as [h2 w2]. cbn [snd] in D. destruct (after (upto s n) R W ts) as [[R1 W1] ts1]. rewrite done_stays in BI by exact D. injection BI as <- <-. exact D.
Qed.
(* all take turns: two workers, the thread that uses the registry, and one that removes a message type again and again *)
Definition round (n : nat) : who := match n mod 4 with 0 => Worker 0 | 1 => Services 0 | 2 => Worker 1 | _ => Registers (FRem "sample.RootPacket" (KInt 9)) end.
Example C102_all_calls_meet : own_messages h_work relay /\ goes_on 0 round /\ goes_on 1 round
  /\ map outcome_of (snd (crowd_run lib_classes (upto round 600) [] lib_factories others h_work (started relay))) = [(Some None, 36, 108); (Some None, 91, 91)]
  /\ map outcome_of (snd (crowd_run lib_classes (upto round 100) [] lib_factories others h_work (started relay))) <> [(Some None, 36, 108); (Some None, 91, 91)].
Proof.
  split; [exact relay_own|]. split; [|split; [|split]].
  - intros n. exists (n * 4). split; [lia|]. unfold round. rewrite Nat.mod_mul by lia. reflexivity.
  - intros n. exists (2 + n * 4). split; [lia|]. unfold round. rewrite Nat.mod_add by lia. reflexivity.
  - vm_compute. reflexivity.
  - vm_compute. discriminate.
Qed.
Print Assumptions C102_all_calls_end.
