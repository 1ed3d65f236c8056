(* C102: threads that encode and decode messages of their own, while others change the checksum registry and the factories. *)
From Coq Require Import ZArith List Bool String Lia.
From Verif.Model Require Import JavaPrim ByteBuf Utf8 Codec Checksum Ast Interp Factory Library Heap EncodeThreads DecodeThreads FactoryRace Crowd.
From Verif.Model Require Threads RegistryThreads.
From Verif.Spec Require Import Bytes Buffers Wire Layouts Sharing Together Apart Worlds Crowds.
From Verif.Spec Require Registries.
From Verif.Proofs Require Import BufFacts DecodeInv HeapFacts HeapCheck WorkerFacts CrowdFacts.
From Verif.Proofs Require HeapTypes.
From Verif.Props Require Import Samples HeapProps HeapMoreProps WorkerProps FactoryRaceProps.
From Verif.Props Require RegistryThreadProps EncodeThreadProps JavaWireProps.
Import ListNotations.
Open Scope Z_scope.
Open Scope list_scope.

Notation Y := lib_layouts.
Definition own_messages (h : heap) (jobs : list (bytebuf * list call)) : Prop :=
  (forall j c, In j jobs -> In c (snd j) -> sound_below h (on c))
  /\ (forall i k x y c d, i <> k -> nth_error jobs i = Some x -> nth_error jobs k = Some y -> In c (snd x) -> In d (snd y) -> unrelated h (on c) (on d)).
Notation started jobs := (map (fun j => ready (fst j) (snd j)) jobs).

(* every worker is, at every moment, as it would be by itself with the same states of registry and factories at its turns; messages of different workers have
   nothing in common, and nothing else changes *)
Theorem C102_as_alone : forall sched R W ts h jobs R' W' h' ws, own_messages h jobs -> crowd_run lib_classes sched R W ts h (started jobs) = (R', W', h', ws) ->
  (forall i j w, nth_error jobs i = Some j -> nth_error ws i = Some w ->
     exists hs w1, by_itself lib_classes (moments i sched R W ts) h (ready (fst j) (snd j)) = (hs, w1) /\ done w1 = done w /\ its_buffer (now w1) = its_buffer (now w) /\ alike hs (targets (snd j)) h' (targets (snd j)))
  /\ (forall i k x y c d, i <> k -> nth_error jobs i = Some x -> nth_error jobs k = Some y -> In c (snd x) -> In d (snd y) -> unrelated h' (on c) (on d))
  /\ (forall l, (l < List.length h)%nat -> (forall j c, In j jobs -> In c (snd j) -> ~ reach h (HRef (on c)) l) -> nth_error h' l = nth_error h l).
Proof. intros sched R W ts h jobs R' W' h' ws [S A] Q. exact (crowd_as_alone h jobs S A lib_classes sched R W ts R' W' h' ws Q). Qed.

(* ---- one call, and the runs of C98 and C99 ---- *)
Fixpoint to_mixed (i : nat) (sched : list who) : list RegistryThreads.turn :=
  match sched with
  | [] => []
  | Worker k :: r => if Nat.eqb k i then RegistryThreads.Mine :: to_mixed i r else to_mixed i r
  | Services k :: r => RegistryThreads.Theirs k :: to_mixed i r
  | Registers _ :: r => to_mixed i r
  end.
Fixpoint to_decode (i : nat) (sched : list who) : list fturn :=
  match sched with
  | [] => []
  | Worker k :: r => if Nat.eqb k i then FMine :: to_decode i r else to_decode i r
  | Services _ :: r => to_decode i r
  | Registers FMine :: r => to_decode i r
  | Registers x :: r => x :: to_decode i r
  end.
Lemma mixed_registries i : forall sched R W ts, Registries.registries (to_mixed i sched) R ts = map fst (moments i sched R W ts).
Proof.
  induction sched as [|[k|k|x] sched IH]; intros R W ts; cbn [to_mixed moments]; [reflexivity| | |apply IH].
  - destruct (Nat.eqb k i); cbn [Registries.registries map fst]; [f_equal|]; apply IH.
  - cbn [Registries.registries]. apply IH.
Qed.
Lemma decode_worlds i : forall sched R W ts, worlds (to_decode i sched) W = map snd (moments i sched R W ts).
Proof.
  induction sched as [|[k|k|x] sched IH]; intros R W ts; cbn [to_decode moments]; [reflexivity| |apply IH|].
  - destruct (Nat.eqb k i); cbn [worlds map snd]; [f_equal|]; apply IH.
  - destruct x; cbn [worlds changed]; apply IH.
Qed.
Lemma encoder_any C W W' R h t : encoder_step (env_of C W R) h t = encoder_step (env_of C W' R) h t.
Proof. reflexivity. Qed.
Lemma decoder_any C W R R' h t : decoder_step (env_of C W R) h t = decoder_step (env_of C W R') h t.
Proof. reflexivity. Qed.
Definition calls_one (t : thread) : worker := {| now := t; todo := [] |}.
Lemma encoding_step E h t : worker_step E h (calls_one (Encoding t)) = (fst (encoder_step E h t), calls_one (Encoding (snd (encoder_step E h t)))).
Proof.
  unfold worker_step, calls_one. cbn [now todo finished thread_step]. destruct (ended t) as [[e|]|] eqn:Q; [unfold encoder_step; rewrite Q; reflexivity|unfold encoder_step; rewrite Q; reflexivity|].
  destruct (encoder_step E h t). reflexivity.
Qed.
Lemma decoding_step E h t : worker_step E h (calls_one (Decoding t)) = (fst (decoder_step E h t), calls_one (Decoding (snd (decoder_step E h t)))).
Proof.
  unfold worker_step, calls_one. cbn [now todo finished thread_step]. destruct (dended t) as [[e|]|] eqn:Q; [unfold decoder_step; rewrite Q; reflexivity|unfold decoder_step; rewrite Q; reflexivity|].
  destruct (decoder_step E h t). reflexivity.
Qed.
Lemma itself_mixed i W0 : forall sched R W ts h t, exists R' ts' h' t', RegistryThreads.mixed_run lib_classes W0 (to_mixed i sched) R ts h t = (R', ts', h', t')
  /\ by_itself lib_classes (moments i sched R W ts) h (calls_one (Encoding t)) = (h', calls_one (Encoding t')).
Proof.
  induction sched as [|[k|k|x] sched IH]; intros R W ts h t; cbn [to_mixed moments].
  - exists R, ts, h, t. split; reflexivity.
  - destruct (Nat.eqb k i); [|apply IH]. cbn [RegistryThreads.mixed_run by_itself]. rewrite (encoder_any lib_classes W0 W R h t), encoding_step.
    destruct (encoder_step (env_of lib_classes W R) h t) as [h1 t1]. apply IH.
  - cbn [RegistryThreads.mixed_run]. destruct (Threads.step k R ts) as [R1 ts1]. apply IH.
  - apply IH.
Qed.
Lemma itself_decode i R0 : forall sched R W ts h t, exists W' h' t', decode_run lib_classes R0 (to_decode i sched) W h t = (W', h', t')
  /\ by_itself lib_classes (moments i sched R W ts) h (calls_one (Decoding t)) = (h', calls_one (Decoding t')).
Proof.
  induction sched as [|[k|k|x] sched IH]; intros R W ts h t; cbn [to_decode moments].
  - exists W, h, t. split; reflexivity.
  - destruct (Nat.eqb k i); [|apply IH]. cbn [decode_run by_itself]. rewrite (decoder_any lib_classes W R0 R h t), decoding_step.
    destruct (decoder_step (env_of lib_classes W R) h t) as [h1 t1]. apply IH.
  - apply IH.
  - destruct x; cbn [decode_run changed]; apply IH.
Qed.

(* a worker that calls encode: the bytes, and the message, that encode alone makes with a state the registry had at one of its turns *)
Theorem C102_encode : forall sched R W ts h jobs R' W' h' ws i b c w e, own_messages h jobs -> crowd_run lib_classes sched R W ts h (started jobs) = (R', W', h', ws) ->
  nth_error jobs i = Some (b, [c]) -> does c = Encodes -> plain_below Y h (on c) -> nth_error ws i = Some w -> done w = Some e ->
  exists R1 hs, In R1 (map fst (moments i sched R W ts)) /\ hencode (world W R1) (deep c) h (HRef (on c)) b = (e, hs, its_buffer (now w)) /\ alike hs [HRef (on c)] h' [HRef (on c)].
Proof.
  intros sched R W ts h jobs R' W' h' ws i b c w e OM Q J DC PB N D. destruct (C102_as_alone sched R W ts h jobs R' W' h' ws OM Q) as [A _]. destruct (A i _ w J N) as (hs & w1 & BI & D1 & B1 & AL). cbn [fst snd] in *. rewrite D in D1. rewrite <- B1. clear A.
  destruct (itself_first i sched R W ts) as [M|(R1 & W1 & ts1 & s1 & M)]; rewrite M in *.
  { injection BI as <- <-. discriminate D1. }
  cbn [by_itself] in BI. unfold worker_step, ready in BI. cbn [now todo finished ended its_buffer out] in BI. unfold starts in BI. rewrite DC in BI.
  destruct (itself_mixed i W s1 R1 W1 ts1 h (begin (world W R1) h (HRef (on c)) (deep c) b)) as (R2 & ts2 & h2 & t2 & MR & BI2). unfold calls_one in BI2 at 1.
  change (begin (world W R1) h (HRef (on c)) (deep c) b) with (begin (world W1 R1) h (HRef (on c)) (deep c) b) in BI2. rewrite BI2 in BI. injection BI as <- <-.
  assert (E2 : ended t2 = Some e) by (unfold done, calls_one in D1; cbn [now todo finished] in D1; destruct (ended t2) as [[x|]|]; congruence).
  destruct (RegistryThreadProps.C98_one_registry W _ _ _ _ _ _ _ _ _ _ _ _ PB MR E2) as (c1 & I & HE).
  exists c1, h2. split; [|split; [exact HE|exact AL]]. unfold Registries.seen_registries in I. rewrite (mixed_registries i s1 R1 W1 ts1) in I. cbn [map fst].
  destruct (map fst (moments i s1 R1 W1 ts1)); [destruct I as [<-|[]]; left; reflexivity|right; exact I].
Qed.
(* a worker that calls decode: what decode alone makes with a state of every factory that it had at one of its turns *)
Theorem C102_decode : forall rank sched R W ts h jobs R' W' h' ws i b c w e, own_messages h jobs -> crowd_run lib_classes sched R W ts h (started jobs) = (R', W', h', ws) ->
  nth_error jobs i = Some (b, [c]) -> does c = Decodes -> heap_ok lib_classes h -> (forall x, In x (moments i sched R W ts) -> layered rank (snd x)) -> nth_error ws i = Some w -> done w = Some e ->
  exists W1 hs, patched (map snd (moments i sched R W ts)) W1 /\ hdecode (world W1 R) (deep c) h (HRef (on c)) b = (e, hs, its_buffer (now w)) /\ alike hs [HRef (on c)] h' [HRef (on c)].
Proof.
  intros rank sched R W ts h jobs R' W' h' ws i b c w e OM Q J DC OK LA N D. destruct (C102_as_alone sched R W ts h jobs R' W' h' ws OM Q) as [A _]. destruct (A i _ w J N) as (hs & w1 & BI & D1 & B1 & AL). cbn [fst snd] in *. rewrite D in D1. rewrite <- B1. clear A.
  destruct (itself_first i sched R W ts) as [M|(R1 & W1 & ts1 & s1 & M)]; rewrite M in *.
  { injection BI as <- <-. discriminate D1. }
  cbn [by_itself] in BI. unfold worker_step, ready in BI. cbn [now todo finished ended its_buffer out] in BI. unfold starts in BI. rewrite DC in BI.
  destruct (itself_decode i R s1 R1 W1 ts1 h (denter (world W1 R) h (HRef (on c)) [] (deep c) b)) as (W2 & h2 & t2 & MR & BI2). unfold calls_one in BI2 at 1.
  change (denter (world W1 R) h (HRef (on c)) [] (deep c) b) with (denter (world W1 R1) h (HRef (on c)) [] (deep c) b) in BI2. rewrite BI2 in BI. injection BI as <- <-.
  assert (E2 : dended t2 = Some e) by (unfold done, calls_one in D1; cbn [now todo finished] in D1; destruct (dended t2) as [[x|]|]; congruence).
  assert (LB : forall V, In V (worlds (to_decode i s1) W1) -> layered rank V) by (intros V I; rewrite (decode_worlds i s1 R1 W1 ts1) in I; apply in_map_iff in I; destruct I as (x & <- & I); apply LA; right; exact I).
  destruct (C99_one_state_each R rank _ _ _ _ _ _ _ _ _ _ OK LB MR E2) as (W3 & P & HD).
  exists W3, h2. split; [|split; [exact HD|exact AL]]. intros o. destruct (P o) as (V & I & S). exists V. split; [|exact S]. unfold seen_worlds in I. rewrite (decode_worlds i s1 R1 W1 ts1) in I. cbn [map snd].
  destruct (map snd (moments i s1 R1 W1 ts1)); [destruct I as [<-|[]]; left; reflexivity|right; exact I].
Qed.
(* ---- several calls ---- *)
(* from the start of a call: the part of the schedule in which it runs, and the rest *)
Lemma itself_split i e : forall sched R W ts h t cs h2 w2, by_itself lib_classes (moments i sched R W ts) h {| now := t; todo := cs |} = (h2, w2) -> done w2 = Some e ->
  exists p R1 W1 ts1 q h1 t1 e1, moments i sched R W ts = moments i p R W ts ++ moments i q R1 W1 ts1 /\ by_itself lib_classes (moments i p R W ts) h (calls_one t) = (h1, calls_one t1)
    /\ finished t1 = Some e1 /\ by_itself lib_classes (moments i q R1 W1 ts1) h1 {| now := t1; todo := cs |} = (h2, w2).
Proof.
  assert (NOW : forall sched R W ts h t cs h2 w2 e1, finished t = Some e1 -> by_itself lib_classes (moments i sched R W ts) h {| now := t; todo := cs |} = (h2, w2) ->
    exists p R1 W1 ts1 q h1 t1 e1, moments i sched R W ts = moments i p R W ts ++ moments i q R1 W1 ts1 /\ by_itself lib_classes (moments i p R W ts) h (calls_one t) = (h1, calls_one t1)
    /\ finished t1 = Some e1 /\ by_itself lib_classes (moments i q R1 W1 ts1) h1 {| now := t1; todo := cs |} = (h2, w2)).
  { intros sched R W ts h t cs h2 w2 e1 F B. exists [], R, W, ts, sched, h, t, e1. split; [reflexivity|]. split; [reflexivity|]. split; [exact F|exact B]. }
  induction sched as [|[k|k|x] sched IH]; intros R W ts h t cs h2 w2 B D.
  - cbn [moments by_itself] in B. injection B as <- <-. destruct (finished t) as [e1|] eqn:F; [|unfold done in D; cbn [now todo] in D; rewrite F in D; discriminate]. exact (NOW [] R W ts h t cs _ _ e1 F eq_refl).
  - destruct (finished t) as [e1|] eqn:F; [exact (NOW _ R W ts h t cs _ _ e1 F B)|]. cbn [moments] in *. destruct (Nat.eqb k i) eqn:KI.
    + cbn [by_itself] in B. unfold worker_step in B. cbn [now todo] in B. rewrite F in B. destruct (thread_step (env_of lib_classes W R) h t) as [g u] eqn:TS.
      destruct (IH R W ts g u cs h2 w2 B D) as (p & R1 & W1 & ts1 & q & h1 & t1 & e1 & M & B1 & F1 & B2). exists (Worker k :: p), R1, W1, ts1, q, h1, t1, e1. cbn [moments]. rewrite KI. split; [cbn [app]; rewrite <- M; reflexivity|].
      split; [|split; [exact F1|exact B2]]. cbn [by_itself]. unfold worker_step, calls_one. cbn [now todo]. rewrite F, TS. exact B1.
    + destruct (IH R W ts h t cs h2 w2 B D) as (p & R1 & W1 & ts1 & q & X). exists p, R1, W1, ts1, q. exact X.
  - cbn [moments] in *. destruct (IH _ W _ h t cs h2 w2 B D) as (p & R1 & W1 & ts1 & q & X). exists (Services k :: p), R1, W1, ts1, q. exact X.
  - cbn [moments] in *. destruct (IH R _ ts h t cs h2 w2 B D) as (p & R1 & W1 & ts1 & q & X). exists (Registers x :: p), R1, W1, ts1, q. exact X.
Qed.
(* what is known of one call carries over to all of them; OK: what holds before each call *)
Lemma itself_calls i R0 W0 (LA : factories -> Prop) (OK : heap -> bytebuf -> Prop) (cs0 : list call) :
  (forall c R1 W1 ts1 s1 h b e h1 w1, In c cs0 -> OK h b -> (forall x, In x ((R1, W1) :: moments i s1 R1 W1 ts1) -> LA (snd x)) ->
     by_itself lib_classes (moments i s1 R1 W1 ts1) h (calls_one (starts (env_of lib_classes W1 R1) h b c)) = (h1, w1) -> finished (now w1) = Some e ->
     called lib_classes R0 W0 ((R1, W1) :: moments i s1 R1 W1 ts1) h b c e h1 (its_buffer (now w1)) /\ (e = None -> OK h1 (its_buffer (now w1)))) ->
  forall cs sched R W ts h t h2 w2 e, incl cs cs0 -> OK h (its_buffer t) -> (forall x, In x (moments i sched R W ts) -> LA (snd x)) -> finished t = Some None ->
  by_itself lib_classes (moments i sched R W ts) h {| now := t; todo := cs |} = (h2, w2) -> done w2 = Some e ->
  each_in_turn (called lib_classes R0 W0) (moments i sched R W ts) h (its_buffer t) cs e h2 (its_buffer (now w2)).
Proof.
  intros ONE. assert (STAY : forall ms h w x, finished (now w) = Some (Some x) \/ (finished (now w) = Some None /\ todo w = []) -> by_itself lib_classes ms h w = (h, w)).
  { induction ms as [|[R W] ms IH]; intros h w x F; cbn [by_itself]; [reflexivity|]. unfold worker_step. destruct F as [F|[F T]]; rewrite F; [destruct (todo w); apply (IH h w x); auto|rewrite T; apply (IH h w x); auto]. }
  induction cs as [|c r IH]; intros sched R W ts h t h2 w2 e IN HOK HLA F B D.
  - rewrite (STAY _ _ _ NPE) in B by (right; auto). injection B as <- <-. unfold done in D. cbn [now todo] in D. rewrite F in D. injection D as <-. constructor.
  - destruct (itself_first i sched R W ts) as [M|(R1 & W1 & ts1 & s1 & M)]; rewrite M in *.
    { cbn [by_itself] in B. injection B as <- <-. unfold done in D. cbn [now todo] in D. rewrite F in D. discriminate. }
    cbn [by_itself] in B. unfold worker_step in B. cbn [now todo] in B. rewrite F in B.
    destruct (itself_split i e s1 R1 W1 ts1 _ _ _ _ _ B D) as (p & R2 & W2 & ts2 & q & h1 & t1 & e1 & M1 & B1 & F1 & B2). rewrite M1 in *. rewrite app_comm_cons.
    destruct (ONE c R1 W1 ts1 p h (its_buffer t) e1 h1 (calls_one t1)) as [CA OK1]; [apply IN; left; reflexivity|exact HOK| |exact B1|exact F1|].
    { intros x [<-|I]; apply HLA; [left; reflexivity|right; apply in_or_app; left; exact I]. }
    cbn [now calls_one] in CA, OK1. destruct e1 as [x|].
    + rewrite (STAY _ _ _ x) in B2 by (left; exact F1). injection B2 as <- <-. unfold done in D. cbn [now todo] in D. rewrite F1 in D. injection D as <-. apply turn_last. exact CA.
    + apply turn_next with h1 (its_buffer t1); [exact CA|]. specialize (OK1 eq_refl). apply (IH q R2 W2 ts2 h1 t1 h2 w2 e); auto; [intros y I; apply IN; right; exact I|]. intros x I. apply HLA. right. apply in_or_app. right. exact I.
Qed.
Lemma one_encode i R0 W c R1 W1 ts1 s1 h b e h1 w1 : does c = Encodes -> plain_below Y h (on c) ->
  by_itself lib_classes (moments i s1 R1 W1 ts1) h (calls_one (starts (env_of lib_classes W1 R1) h b c)) = (h1, w1) -> finished (now w1) = Some e ->
  called lib_classes R0 W ((R1, W1) :: moments i s1 R1 W1 ts1) h b c e h1 (its_buffer (now w1)).
Proof.
  intros DC PB BI FE. unfold starts in BI. rewrite DC in BI. unfold called. rewrite DC.
  destruct (itself_mixed i W s1 R1 W1 ts1 h (begin (world W R1) h (HRef (on c)) (deep c) b)) as (R2 & ts2 & h2 & t2 & MR & BI2).
  change (begin (world W R1) h (HRef (on c)) (deep c) b) with (begin (world W1 R1) h (HRef (on c)) (deep c) b) in BI2. rewrite BI2 in BI. injection BI as <- <-.
  destruct (RegistryThreadProps.C98_one_registry W _ _ _ _ _ _ _ _ _ _ _ _ PB MR FE) as (c1 & I & HE).
  exists c1. split; [|exact HE]. unfold Registries.seen_registries in I. rewrite (mixed_registries i s1 R1 W1 ts1) in I. cbn [map fst].
  destruct (map fst (moments i s1 R1 W1 ts1)); [destruct I as [<-|[]]; left; reflexivity|right; exact I].
Qed.
Lemma one_decode i rank R W c R1 W1 ts1 s1 h b e h1 w1 : does c = Decodes -> heap_ok lib_classes h -> (forall x, In x ((R1, W1) :: moments i s1 R1 W1 ts1) -> layered rank (snd x)) ->
  by_itself lib_classes (moments i s1 R1 W1 ts1) h (calls_one (starts (env_of lib_classes W1 R1) h b c)) = (h1, w1) -> finished (now w1) = Some e ->
  called lib_classes R W ((R1, W1) :: moments i s1 R1 W1 ts1) h b c e h1 (its_buffer (now w1)).
Proof.
  intros DC OK LA BI FE. unfold starts in BI. rewrite DC in BI. unfold called. rewrite DC.
  destruct (itself_decode i R s1 R1 W1 ts1 h (denter (world W1 R) h (HRef (on c)) [] (deep c) b)) as (W2 & h2 & t2 & MR & BI2).
  change (denter (world W1 R) h (HRef (on c)) [] (deep c) b) with (denter (world W1 R1) h (HRef (on c)) [] (deep c) b) in BI2. rewrite BI2 in BI. injection BI as <- <-.
  assert (LB : forall V, In V (worlds (to_decode i s1) W1) -> layered rank V) by (intros V I; rewrite (decode_worlds i s1 R1 W1 ts1) in I; apply in_map_iff in I; destruct I as (x & <- & I); apply LA; right; exact I).
  destruct (C99_one_state_each R rank _ _ _ _ _ _ _ _ _ _ OK LB MR FE) as (W3 & P & HD).
  exists W3. split; [|exact HD]. intros o. destruct (P o) as (V & I & S). exists V. split; [|exact S]. unfold seen_worlds in I. rewrite (decode_worlds i s1 R1 W1 ts1) in I. cbn [map snd].
  destruct (map snd (moments i s1 R1 W1 ts1)); [destruct I as [<-|[]]; left; reflexivity|right; exact I].
Qed.
Lemma plain_kept E d h v b l : classes E = lib_classes -> plain_below Y h l -> plain_below Y (snd (fst (hencode E d h v b))) l.
Proof.
  intros HE PB. destruct (C57_encode_frame E d h v b HE) as [LE T]. cbv zeta in LE, T. set (h1 := snd (fst (hencode E d h v b))) in *. assert (T' : forall l q q', nth_error h l = Some q -> nth_error h1 l = Some q' -> touched Y q q') by (intros l0 q q' A B; exact (proj1 (T l0 q q' A B))).
  assert (OLD : forall l k', nth_error h1 l = Some k' -> exists k, nth_error h l = Some k) by (intros l0 k' A; destruct (nth_error h l0) as [k|] eqn:Q; [eauto|]; apply nth_error_None in Q; assert (l0 < List.length h1)%nat by (apply nth_error_Some; congruence); lia).
  intros c fs f w m c' gs g A I R M. destruct (OLD _ _ A) as (k & K). destruct (OLD _ _ M) as (k2 & K2). pose proof (T' _ _ _ K A) as TA. pose proof (T' _ _ _ K2 M) as TM.
  destruct k as [c0 fs0|vs]; [|discriminate TA]. destruct k2 as [c2 gs2|vs]; [|discriminate TM]. destruct TA as (<- & NA & VA). destruct TM as (-> & _ & _).
  apply In_nth_error in I. destruct I as (j & J). assert (J0 : exists w0, nth_error fs0 j = Some (f, w0)).
  { assert (X : nth_error (map fst fs) j = Some f) by (rewrite nth_error_map, J; reflexivity). rewrite NA, nth_error_map in X. destruct (nth_error fs0 j) as [[f0 w0]|]; [|discriminate]. injection X as <-. eauto. }
  destruct J0 as (w0 & J0). destruct (VA j f w0 w J0 J) as [->|(_ & z & ->)]; [|inversion R]. apply (PB c fs0 f w0 m c2 gs2 g K (nth_error_In _ _ J0)); [|exact K2]. exact (JavaWireProps.touched_reach h h1 LE T' _ _ R).
Qed.
(* a sender: it calls encode, on one message after the other *)
Theorem C102_sender : forall sched R W ts h jobs R' W' h' ws i b cs w e, own_messages h jobs -> crowd_run lib_classes sched R W ts h (started jobs) = (R', W', h', ws) ->
  nth_error jobs i = Some (b, cs) -> (forall c, In c cs -> does c = Encodes /\ plain_below Y h (on c)) -> nth_error ws i = Some w -> done w = Some e ->
  exists hs, each_in_turn (called lib_classes R W) (moments i sched R W ts) h b cs e hs (its_buffer (now w)) /\ alike hs (targets cs) h' (targets cs).
Proof.
  intros sched R W ts h jobs R' W' h' ws i b cs w e OM Q J EN N D. destruct (C102_as_alone sched R W ts h jobs R' W' h' ws OM Q) as [A _]. destruct (A i _ w J N) as (hs & w1 & BI & D1 & B1 & AL). cbn [fst snd] in *. rewrite D in D1. exists hs. split; [|exact AL]. rewrite <- B1.
  apply (itself_calls i R W (fun _ => True) (fun g _ => forall c, In c cs -> plain_below Y g (on c)) cs) with (t := now (ready b cs)); auto.
  - intros c R1 W1 ts1 s1 g y e1 g1 u I OK _ B F. pose proof (one_encode i R W c R1 W1 ts1 s1 g y e1 g1 u (proj1 (EN c I)) (OK c I) B F) as CA. split; [exact CA|intros _].
    unfold called in CA. rewrite (proj1 (EN c I)) in CA. destruct CA as (R2 & _ & HE). intros c' I'. pose proof (plain_kept (world W R2) (deep c) g (HRef (on c)) y (on c') eq_refl (OK c' I')) as X. rewrite HE in X. exact X.
  - intros c I; exact I.
  - intros c I. apply EN. exact I.
Qed.
(* a receiver: it calls decode, on one message after the other *)
Theorem C102_receiver : forall rank sched R W ts h jobs R' W' h' ws i b cs w e, own_messages h jobs -> crowd_run lib_classes sched R W ts h (started jobs) = (R', W', h', ws) ->
  nth_error jobs i = Some (b, cs) -> (forall c, In c cs -> does c = Decodes) -> heap_ok lib_classes h -> buf_wf b = true -> (forall x, In x (moments i sched R W ts) -> layered rank (snd x)) -> nth_error ws i = Some w -> done w = Some e ->
  exists hs, each_in_turn (called lib_classes R W) (moments i sched R W ts) h b cs e hs (its_buffer (now w)) /\ alike hs (targets cs) h' (targets cs).
Proof.
  intros rank sched R W ts h jobs R' W' h' ws i b cs w e OM Q J EN OK WF LA N D. destruct (C102_as_alone sched R W ts h jobs R' W' h' ws OM Q) as [A _]. destruct (A i _ w J N) as (hs & w1 & BI & D1 & B1 & AL). cbn [fst snd] in *. rewrite D in D1. exists hs. split; [|exact AL]. rewrite <- B1.
  apply (itself_calls i R W (layered rank) (fun g y => heap_ok lib_classes g /\ bk y) cs) with (t := now (ready b cs)); auto.
  - intros c R1 W1 ts1 s1 g y e1 g1 u I [OKg OKy] LB B F. pose proof (one_decode i rank R W c R1 W1 ts1 s1 g y e1 g1 u (EN c I) OKg LB B F) as CA. split; [exact CA|intros _].
    unfold called in CA. rewrite (EN c I) in CA. destruct CA as (W2 & _ & HD). pose proof (HeapTypes.typing_decode (world W2 R) (lib_flat (world W2 R) eq_refl) (lib_nodup (world W2 R) eq_refl) (lib_fine (world W2 R) eq_refl) (deep c) g (HRef (on c)) y OKg OKy) as X. rewrite HD in X. exact X.
  - intros c I; exact I.
  - split; [exact OK|]. apply bk_wf, buf_wf_iff. exact WF.
Qed.
(* and it ends, whatever the others do, after a number of its own turns *)
Theorem C102_ends : forall h jobs i b c, own_messages h jobs -> nth_error jobs i = Some (b, [c]) ->
  exists n, forall sched R W ts R' W' h' ws w, (n <= List.length (moments i sched R W ts))%nat -> crowd_run lib_classes sched R W ts h (started jobs) = (R', W', h', ws) -> nth_error ws i = Some w -> done w <> None.
Proof.
  intros h jobs i b c OM J. destruct (RegistryThreadProps.C98_ends lib_factories h (HRef (on c)) (deep c) b) as (n & Hn). destruct (C99_ends (deep c)) as (m & Hm). exists (S (Nat.max n m)).
  intros sched R W ts R' W' h' ws w LE Q N. destruct (C102_as_alone sched R W ts h jobs R' W' h' ws OM Q) as [A _]. destruct (A i _ w J N) as (hs & w1 & BI & <- & _ & _). cbn [fst snd] in *. clear A.
  destruct (itself_first i sched R W ts) as [M|(R1 & W1 & ts1 & s1 & M)]; rewrite M in *; cbn [List.length] in LE; [lia|].
  cbn [by_itself] in BI. unfold worker_step, ready in BI. cbn [now todo finished ended its_buffer out] in BI. unfold starts in BI. destruct (does c).
  - destruct (itself_mixed i lib_factories s1 R1 W1 ts1 h (begin (world lib_factories R1) h (HRef (on c)) (deep c) b)) as (R2 & ts2 & h2 & t2 & MR & BI2). unfold calls_one in BI2 at 1.
    change (begin (world lib_factories R1) h (HRef (on c)) (deep c) b) with (begin (world W1 R1) h (HRef (on c)) (deep c) b) in BI2. rewrite BI2 in BI. injection BI as <- <-.
    apply Hn in MR; [|rewrite (mixed_registries i s1 R1 W1 ts1), map_length; lia]. unfold done, calls_one. cbn [now todo finished]. destruct (ended t2) as [[x|]|]; [discriminate..|congruence].
  - destruct (itself_decode i R1 s1 R1 W1 ts1 h (denter (world W1 R1) h (HRef (on c)) [] (deep c) b)) as (W2 & h2 & t2 & MR & BI2). unfold calls_one in BI2 at 1. rewrite BI2 in BI. injection BI as <- <-.
    apply Hm in MR; [|rewrite (decode_worlds i s1 R1 W1 ts1), map_length; lia]. unfold done, calls_one. cbn [now todo finished]. destruct (dended t2) as [[x|]|]; [discriminate..|congruence].
Qed.

(* three workers (one sends the frame at 4, one receives into 6, one receives into 7), one thread that registers and removes a service, one that changes a factory *)
Definition three : list (bytebuf * list call) :=
  [ (empty_buf, [ {| does := Encodes; on := 4; deep := 3 |} ]); (incoming_strings, [ {| does := Decodes; on := 6; deep := 4 |} ]); (incoming_strings, [ {| does := Decodes; on := 7; deep := 4 |} ]) ].
Definition seven : service := {| algorithm := "CRC32"; calc := fun _ => 7 |}.
Definition rush : list who :=
  [Worker 0; Worker 1; Services 0; Worker 1; Worker 1; Worker 1; Worker 2; Registers (FRem "sample.RootPacket" (KInt 2)); Services 0]
  ++ List.concat (repeat [Worker 2; Worker 0; Worker 1] 60) ++ [Services 0; Registers (FReg "sample.RootPacket" (KInt 2) "sample.StringPacket")] ++ [Worker 0].
Definition others : list Threads.thread := [Threads.start [Threads.CReg seven; Threads.CRem "CRC32"]].
Lemma three_own : own_messages h_work three.
Proof.
  split.
  - intros j c [<-|[<-|[<-|[]]]] [<-|[]]; cbn [on]; [apply (closedb_sound h_work [0; 1; 2; 3; 4; 5]%nat)|apply (closedb_sound h_work [6]%nat)|apply (closedb_sound h_work [7]%nat)]; (vm_compute; reflexivity) || (cbn; tauto).
  - assert (W : forall i x c, nth_error three i = Some x -> In c (snd x) -> exists p, nth_error parts i = Some p /\ In (on c) p).
    { intros [|[|[|[|i]]]] x c J I; cbn in J; try discriminate; injection J as <-; (destruct I as [<-|[]]; eexists; (split; [reflexivity|cbn; tauto])). }
    assert (C : forall i p, nth_error parts i = Some p -> closedb h_work p = true).
    { intros [|[|[|[|i]]]] p J; cbn in J; try discriminate; injection J as <-; vm_compute; reflexivity. }
    assert (D : forall i k p q, i <> k -> nth_error parts i = Some p -> nth_error parts k = Some q -> forallb (fun l => negb (existsb (Nat.eqb l) q)) p = true).
    { intros [|[|[|[|i]]]] [|[|[|[|k]]]] p q N J K; cbn in J, K; try discriminate; try congruence; injection J as <-; injection K as <-; reflexivity. }
    intros i k x y c d N Jx Jy Ic Id. destruct (W i x c Jx Ic) as (p & P & Ip). destruct (W k y d Jy Id) as (q & Q & Iq). apply (closedb_apart h_work p q); eauto.
Qed.
Example C102_meets : own_messages h_work three /\ plain_below Y h_work 4 /\ heap_ok lib_classes h_work
  /\ (forall i x, In i [0; 1; 2]%nat -> In x (moments i rush [] lib_factories others) -> layered lib_rank (snd x))
  /\ List.length (moments 0 rush [] lib_factories others) = 62%nat
  /\ map outcome_of (snd (crowd_run lib_classes rush [] lib_factories others h_work (started three))) = [(Some None, 0, 36); (Some None, 91, 91); (Some (Some IAE), 6, 91)]%nat.
Proof.
  split; [exact three_own|]. split; [apply (EncodeThreadProps.plainb_plain _ _ [0; 1; 2; 3]%nat); vm_compute; reflexivity|]. split; [apply cells_ok; vm_compute; reflexivity|]. split.
  { intros i x I M. apply layered_check. assert (X : forallb (fun i => forallb (fun m => layeredb (snd m)) (moments i rush [] lib_factories others)) [0; 1; 2]%nat = true) by (vm_compute; reflexivity).
    rewrite forallb_forall in X. specialize (X i I). cbv beta in X. rewrite forallb_forall in X. apply (X x M). }
  split; vm_compute; reflexivity.
Qed.
(* a sender that sends the frame at 4 twice, a receiver of two messages *)
Definition two_come : bytebuf := snd (encode lib_env 3 s_root incoming_strings).
Definition both : list (bytebuf * list call) :=
  [ (empty_buf, [ {| does := Encodes; on := 4; deep := 3 |}; {| does := Encodes; on := 4; deep := 3 |} ]); (two_come, [ {| does := Decodes; on := 6; deep := 4 |}; {| does := Decodes; on := 7; deep := 4 |} ]) ].
Lemma both_own : own_messages h_work both.
Proof.
  assert (W : forall i x c, nth_error both i = Some x -> In c (snd x) -> exists p, nth_error [[0; 1; 2; 3; 4; 5]; [6; 7]]%nat i = Some p /\ In (on c) p).
  { intros [|[|i]] x c J I; cbn in J; [| |destruct i; discriminate]; injection J as <-; (destruct I as [<-|[<-|[]]]; eexists; (split; [reflexivity|cbn; tauto])). }
  assert (C : forall i p, nth_error [[0; 1; 2; 3; 4; 5]; [6; 7]]%nat i = Some p -> closedb h_work p = true).
  { intros [|[|i]] p J; cbn in J; [| |destruct i; discriminate]; injection J as <-; vm_compute; reflexivity. }
  split.
  - intros j c I K. apply In_nth_error in I. destruct I as (i & I). destruct (W i j c I K) as (p & P & Ip). apply (closedb_sound h_work p); eauto.
  - intros i k x y c d N Jx Jy Ic Id. destruct (W i x c Jx Ic) as (p & P & Ip). destruct (W k y d Jy Id) as (q & Q & Iq). apply (closedb_apart h_work p q); eauto.
    clear - N P Q. destruct i as [|[|i]], k as [|[|k]]; cbn in P, Q; try congruence; try (destruct i; discriminate); try (destruct k; discriminate); injection P as <-; injection Q as <-; reflexivity.
Qed.
Example C102_calls_meet : own_messages h_work both /\ buf_wf two_come = true /\ widx two_come = 182%nat
  /\ (let '(_, _, h', ws) := crowd_run lib_classes (rush ++ repeat (Worker 0) 10) [] lib_factories others h_work (started both) in map outcome_of ws = [(Some None, 0, 72); (Some (Some IAE), 97, 182)]%nat
      /\ Heap.field h' 4 "checksum" = HInt 7 /\ Heap.field h' 7 "payload" = HNull /\ Heap.field h' 6 "payload" <> HNull).
Proof. split; [exact both_own|]. split; [vm_compute; reflexivity|]. split; [vm_compute; reflexivity|]. vm_compute. repeat split. discriminate. Qed.

Print Assumptions C102_as_alone.
Print Assumptions C102_encode.
Print Assumptions C102_decode.
Print Assumptions C102_ends.
Print Assumptions C102_sender.
Print Assumptions C102_receiver.
