(* C84: threads that encode and decode messages that have nothing in common. *)
From Coq Require Import ZArith List Bool String Lia.
From Verif.Model Require Import JavaPrim ByteBuf Utf8 Codec Ast Interp Library Heap EncodeThreads DecodeThreads.
From Verif.Proofs Require Import HeapFacts HeapFrame WorkerFacts.
From Verif.Props Require Import Samples HeapProps HeapMoreProps.
From Verif.Spec Require Import Sharing Apart.
Import ListNotations.
Open Scope Z_scope.

(* each thread has a buffer and a list of calls on messages of its own; sched: whose turn it is, any order.
   A thread that has ended has ended as it would have alone, with the same buffer, and its messages are the same graphs as then (same classes, values and
   sharing; new objects may be at other addresses).  At every moment the messages of different threads have nothing in common.  Nothing else changes. *)
Theorem C84_as_alone : forall E sched h jobs h' ws,
  (forall j c, In j jobs -> In c (snd j) -> sound_below h (on c)) ->
  (forall i k x y c d, i <> k -> nth_error jobs i = Some x -> nth_error jobs k = Some y -> In c (snd x) -> In d (snd y) -> unrelated h (on c) (on d)) ->
  workers_run E sched h (map (fun j => ready (fst j) (snd j)) jobs) = (h', ws) ->
  (forall i j w e, nth_error jobs i = Some j -> nth_error ws i = Some w -> done w = Some e ->
     exists hs, alone E h (fst j) (snd j) = (e, hs, its_buffer (now w)) /\ alike hs (targets (snd j)) h' (targets (snd j)))
  /\ (forall i k x y c d, i <> k -> nth_error jobs i = Some x -> nth_error jobs k = Some y -> In c (snd x) -> In d (snd y) -> unrelated h' (on c) (on d))
  /\ (forall l, (l < List.length h)%nat -> (forall j c, In j jobs -> In c (snd j) -> ~ reach h (HRef (on c)) l) -> nth_error h' l = nth_error h l).
Proof. intros E sched h jobs h' ws S A R. exact (workers_as_alone E h jobs S A sched h' ws R). Qed.
(* every thread ends, whatever the others do: a number of turns is enough, in any schedule that gives them *)
Theorem C84_workers_end : forall E h jobs i j,
  (forall j c, In j jobs -> In c (snd j) -> sound_below h (on c)) ->
  (forall i k x y c d, i <> k -> nth_error jobs i = Some x -> nth_error jobs k = Some y -> In c (snd x) -> In d (snd y) -> unrelated h (on c) (on d)) ->
  nth_error jobs i = Some j ->
  exists n, forall sched h' ws w, (n <= count_occ PeanoNat.Nat.eq_dec sched i)%nat -> workers_run E sched h (map (fun j => ready (fst j) (snd j)) jobs) = (h', ws) ->
    nth_error ws i = Some w -> done w <> None.
Proof. intros E h jobs i j S A J. exact (workers_end E h jobs S A i j J). Qed.
(* the getters of graphs that are alike answer alike, however deep *)
Theorem C84_alike : forall h vs g ws i v w t, alike h vs g ws -> nth_error vs i = Some v -> nth_error ws i = Some w -> (shows h v t <-> shows g w t).
Proof. exact alike_shows. Qed.

(* ---- a way to check sound_below and unrelated ---- *)
Definition inside (ls : list nat) (v : hval) : bool := match v with HRef l => existsb (Nat.eqb l) ls | _ => true end.
Definition closedb (h : heap) (ls : list nat) : bool :=
  forallb (fun l => match nth_error h l with Some (CList vs) => forallb (inside ls) vs | Some (CObj _ fs) => forallb (fun fv => inside ls (snd fv)) fs | None => false end) ls.
Lemma inside_in ls l : inside ls (HRef l) = true -> In l ls.
Proof. cbn. intros H. apply existsb_exists in H. destruct H as (x & I & Q). apply PeanoNat.Nat.eqb_eq in Q. subst. exact I. Qed.
Lemma closedb_reach h ls l m : closedb h ls = true -> In l ls -> reach h (HRef l) m -> In m ls /\ (m < List.length h)%nat.
Proof.
  unfold closedb. rewrite forallb_forall. intros C I R.
  assert (IM : In m ls).
  { apply (closed_reach (fun l => In l ls) h (HRef l) m); [|intros j Q; injection Q as <-; exact I|exact R]. intros l0 k n Il Hk Hp. specialize (C l0 Il). rewrite Hk in C. destruct k as [c0 fs0|vs0]; cbn in Hp.
    - destruct Hp as (f0 & I0). rewrite forallb_forall in C. apply inside_in. apply (C (f0, HRef n) I0).
    - rewrite forallb_forall in C. apply inside_in. apply C. exact Hp. }
  split; [exact IM|]. specialize (C m IM). apply nth_error_Some. destruct (nth_error h m); [discriminate|congruence].
Qed.
Lemma closedb_sound h ls l : closedb h ls = true -> In l ls -> sound_below h l.
Proof. intros C I m R. apply (closedb_reach h ls l m C I R). Qed.
Lemma closedb_apart h ls ms l m : closedb h ls = true -> closedb h ms = true -> forallb (fun l => negb (existsb (Nat.eqb l) ms)) ls = true -> In l ls -> In m ms -> unrelated h l m.
Proof.
  intros C D A I J k R R'. destruct (closedb_reach h ls l k C I R) as [K _]. destruct (closedb_reach h ms m k D J R') as [K' _]. rewrite forallb_forall in A. specialize (A k K). rewrite negb_true_iff in A.
  assert (X : existsb (Nat.eqb k) ms = true) by (apply existsb_exists; exists k; split; [exact K'|apply PeanoNat.Nat.eqb_refl]). congruence.
Qed.

(* a frame with shared parts at 4, three new RootPackets at 5, 6 and 7, something else at 8 *)
Definition h_work : heap := h_alias ++ [ obj "sample.RootPacket" []; obj "sample.RootPacket" []; obj "sample.RootPacket" []; obj "sample.BasicPacket" [] ]%string.
Definition incoming_strings : bytebuf := snd (encode lib_env 3 s_root empty_buf).
(* one sends the frame at 4 and reads it back into the one at 5; one receives and answers; one receives garbage *)
Definition team : list (bytebuf * list call) :=
  [ (empty_buf, [ {| does := Encodes; on := 4; deep := 3 |}; {| does := Decodes; on := 5; deep := 3 |} ]);
    (incoming_strings, [ {| does := Decodes; on := 6; deep := 4 |}; {| does := Encodes; on := 6; deep := 4 |} ]);
    (wrap_bytes [0; 2; 0; 0; 0; 1; 77], [ {| does := Decodes; on := 7; deep := 3 |}; {| does := Encodes; on := 7; deep := 3 |} ]) ].
Definition parts : list (list nat) := [[0; 1; 2; 3; 4; 5]; [6]; [7]]%nat.
Definition turns : list nat := List.concat (repeat [0; 1; 2; 1; 0]%nat 120).
Definition outcome_of (w : worker) : option (option exn) * nat * nat := (done w, ridx (its_buffer (now w)), widx (its_buffer (now w))).
Lemma team_sound : forall j c, In j team -> In c (snd j) -> sound_below h_work (on c).
Proof.
  intros j c [<-|[<-|[<-|[]]]] C; cbn [snd] in C; destruct C as [<-|[<-|[]]]; cbn [on].
  1-2: apply (closedb_sound h_work [0; 1; 2; 3; 4; 5]%nat); [vm_compute; reflexivity|cbn; tauto].
  1-2: apply (closedb_sound h_work [6]%nat); [vm_compute; reflexivity|cbn; tauto].
  1-2: apply (closedb_sound h_work [7]%nat); [vm_compute; reflexivity|cbn; tauto].
Qed.
Lemma team_apart : forall i k x y c d, i <> k -> nth_error team i = Some x -> nth_error team k = Some y -> In c (snd x) -> In d (snd y) -> unrelated h_work (on c) (on d).
Proof.
  assert (W : forall i x c, nth_error team i = Some x -> In c (snd x) -> exists p, nth_error parts i = Some p /\ In (on c) p).
  { intros [|[|[|[|i]]]] x c J I; cbn in J; try discriminate; injection J as <-; (destruct I as [<-|[<-|[]]]; eexists; (split; [reflexivity|cbn; tauto])). }
  assert (C : forall i p, nth_error parts i = Some p -> closedb h_work p = true).
  { intros [|[|[|[|i]]]] p J; cbn in J; try discriminate; injection J as <-; vm_compute; reflexivity. }
  assert (D : forall i k p q, i <> k -> nth_error parts i = Some p -> nth_error parts k = Some q -> forallb (fun l => negb (existsb (Nat.eqb l) q)) p = true).
  { intros [|[|[|[|i]]]] [|[|[|[|k]]]] p q N J K; cbn in J, K; try discriminate; try congruence; injection J as <-; injection K as <-; reflexivity. }
  intros i k x y c d N Jx Jy Ic Id. destruct (W i x c Jx Ic) as (p & P & Ip). destruct (W k y d Jy Id) as (q & Q & Iq). apply (closedb_apart h_work p q); eauto.
Qed.
Example C84_meets : (forall j c, In j team -> In c (snd j) -> sound_below h_work (on c))
  /\ (forall i k x y c d, i <> k -> nth_error team i = Some x -> nth_error team k = Some y -> In c (snd x) -> In d (snd y) -> unrelated h_work (on c) (on d))
  /\ map outcome_of (snd (workers_run lib_env turns h_work (map (fun j => ready (fst j) (snd j)) team))) = [(Some None, 36, 36); (Some None, 91, 182); (Some (Some IAE), 6, 7)]%nat
  /\ map outcome_of (snd (workers_run lib_env (firstn 60 turns) h_work (map (fun j => ready (fst j) (snd j)) team))) = [(None, 0, 32); (None, 87, 91); (Some (Some IAE), 6, 7)]%nat
  /\ List.length (fst (workers_run lib_env turns h_work (map (fun j => ready (fst j) (snd j)) team))) = 18%nat.
Proof. split; [exact team_sound|]. split; [exact team_apart|]. split; [vm_compute; reflexivity|]. split; vm_compute; reflexivity. Qed.

(* that the messages have nothing in common is needed: two threads decode into one RootPacket; the first creates the payload that the second has announced, and fails *)
Definition clash : list (bytebuf * list call) := [ (incoming_root, [ {| does := Decodes; on := 5; deep := 3 |} ]); (incoming_strings, [ {| does := Decodes; on := 5; deep := 3 |} ]) ].
Theorem C84_same_message_refuted : exists sched h jobs h' ws i j w e hs b, (forall j c, In j jobs -> In c (snd j) -> sound_below h (on c))
  /\ workers_run lib_env sched h (map (fun j => ready (fst j) (snd j)) jobs) = (h', ws) /\ nth_error jobs i = Some j /\ nth_error ws i = Some w
  /\ done w = Some (Some e) /\ alone lib_env h (fst j) (snd j) = (None, hs, b).
Proof.
  exists ([0; 0; 1; 1] ++ repeat 0 120)%nat, h_work, clash. eexists _, _, 0%nat, _, _, _, _, _. split.
  { intros j c [<-|[<-|[]]] C; cbn [snd] in C; destruct C as [<-|[]]; apply (closedb_sound h_work [5]%nat); [vm_compute; reflexivity|cbn; tauto| vm_compute; reflexivity|cbn; tauto]. }
  split; [vm_compute; reflexivity|]. split; [reflexivity|]. split; [reflexivity|]. split; [vm_compute; reflexivity|]. vm_compute. reflexivity.
Qed.

Print Assumptions C84_as_alone.
Print Assumptions C84_workers_end.
Print Assumptions C84_alike.
Print Assumptions C84_same_message_refuted.
