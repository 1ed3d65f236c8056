(* C65: the checksum registry used by several threads at a time. *)
From Coq Require Import ZArith List Bool String Lia.
From Verif.Model Require Import Checksum Threads.
From Verif.Spec Require Import Private.
From Verif.Proofs Require Import ThreadFacts.
Import ListNotations.
Open Scope Z_scope.

(* ps: the calls each thread makes; sched: whose turn it is, any order, finished or not *)

(* a name that no other thread registers or removes (and no other thread clears the registry): the thread gets the answers it would get alone *)
Theorem C65_private_names : forall n sched c ps i p c' ts' t, steps sched c (map start ps) = (c', ts') -> nth_error ps i = Some p -> nth_error ts' i = Some t ->
  (forall j q o, nth_error ps j = Some q -> j <> i -> In o q -> ~ touches n o) ->
  (exists later, expected n (get_service c n) p = filter (about n) (got t) ++ later) /\ (done t -> filter (about n) (got t) = expected n (get_service c n) p).
Proof. exact private_answers. Qed.
(* a service that getChecksumService returns was there before, or some thread registered it under this very name and was told true *)
Theorem C65_services_are_registered : forall sched c ps c' ts' t n s, steps sched c (map start ps) = (c', ts') -> In t ts' -> In (AGet n (Some s)) (got t) ->
  get_service c n = Some s \/ (algorithm s = n /\ exists u, In u ts' /\ In (AReg s true) (got u)).
Proof. exact get_origin. Qed.
(* if nobody removes the name: once a registration of it has been answered (either way), or a service has been found under it, every later query of every
   thread finds one, and every registration that begins later is refused *)
Theorem C65_never_null_again : forall n sched c ps c1 ts1 u a sched2 c2 ts2, steps sched c (map start ps) = (c1, ts1) -> (forall p o, In p ps -> In o p -> ~ freeing n o) ->
  In u ts1 -> In a (got u) -> match a with AReg s _ => algorithm s = n | AGet m r => m = n /\ r <> None | _ => False end ->
  steps sched2 c1 ts1 = (c2, ts2) ->
  get_service c2 n <> None
  /\ forall i t, nth_error ts1 i = Some t -> exists t' new, nth_error ts2 i = Some t' /\ got t' = got t ++ new
     /\ (forall r, In (AGet n r) new -> r <> None) /\ (forall s, In (AReg s true) new -> algorithm s = n -> mid t = Some s).
Proof.
  intros n sched c ps c1 ts1 u a sched2 c2 ts2 S U Iu Ia M S2. pose proof (answered_taken n sched c ps c1 ts1 u a S U Iu Ia M) as H. pose proof (unfreed_run n sched c ps U) as U1. rewrite S in U1.
  exact (taken_run n sched2 c1 ts1 c2 ts2 S2 U1 H).
Qed.
Definition svc_a := {| algorithm := "X"; calc := fun _ => 1 |}.
Definition svc_b := {| algorithm := "X"; calc := fun _ => 2 |}.
Lemma a_not_b : svc_a <> svc_b.
Proof. intros E. apply (f_equal (fun s => calc s [])) in E. discriminate. Qed.
(* but the service may change between two queries of one thread although nobody removes anything *)
Theorem C65_queries_agree_refuted : exists sched ps c' ts' t a b, (forall p o, In p ps -> In o p -> ~ freeing "X" o)
  /\ steps sched initial_cache (map start ps) = (c', ts') /\ In t ts' /\ got t = [AGet "X" (Some a); AGet "X" (Some b)] /\ a <> b.
Proof.
  exists [0; 1; 0; 2; 1; 2]%nat, [[CReg svc_a]; [CReg svc_b]; [CGet "X"; CGet "X"]]. eexists _, _, _, svc_a, svc_b. split.
  { intros p o Hp Ho. cbn in Hp. destruct Hp as [<-|[<-|[<-|[]]]]; cbn in Ho; repeat (destruct Ho as [<-|Ho]; [intros F; exact F|]); contradiction. }
  split; [reflexivity|]. split; [right; right; left; reflexivity|]. split; [reflexivity|exact a_not_b].
Qed.
(* and a thread that was told true may then find another service than its own *)
Theorem C65_true_means_mine_refuted : exists sched ps c' ts' t a b, (forall p o, In p ps -> In o p -> ~ freeing "X" o)
  /\ steps sched initial_cache (map start ps) = (c', ts') /\ In t ts' /\ got t = [AReg a true; AGet "X" (Some b)] /\ a <> b.
Proof.
  exists [0; 1; 0; 1; 0]%nat, [[CReg svc_a; CGet "X"]; [CReg svc_b]]. eexists _, _, _, svc_a, svc_b. split.
  { intros p o Hp Ho. cbn in Hp. destruct Hp as [<-|[<-|[]]]; cbn in Ho; repeat (destruct Ho as [<-|Ho]; [intros F; exact F|]); contradiction. }
  split; [reflexivity|]. split; [left; reflexivity|]. split; [reflexivity|exact a_not_b].
Qed.
Example C65_meets : let ps := [[CReg svc_a; CGet "X"; CRem "X"; CReg svc_b; CGet "X"]; [CRem "CRC16"; CGet "X"]] in
  (forall j q o, nth_error ps j = Some q -> j <> 0%nat -> In o q -> ~ touches "X" o)
  /\ (exists t, nth_error (snd (steps [0; 1; 0; 0; 1; 0; 0; 0; 0] initial_cache (map start ps))%nat) 0 = Some t /\ done t
       /\ got t = [AReg svc_a true; AGet "X" (Some svc_a); ARem "X"; AReg svc_b true; AGet "X" (Some svc_b)])
  /\ exists t, nth_error (snd (steps [0; 1; 0; 0; 1; 0; 0; 0; 0] initial_cache (map start ps))%nat) 1 = Some t /\ got t = [ARem "CRC16"; AGet "X" (Some svc_a)].
Proof.
  split.
  { intros [|[|j]] q o Hq N Ho; cbn in Hq; [contradiction| |destruct j; discriminate]. injection Hq as <-. cbn in Ho. destruct Ho as [<-|[<-|[]]]; cbn; [discriminate|auto]. }
  split; eexists; (split; [reflexivity|]); [split; [split; reflexivity|reflexivity]|reflexivity].
Qed.

Print Assumptions C65_private_names.
Print Assumptions C65_services_are_registered.
Print Assumptions C65_never_null_again.
Print Assumptions C65_queries_agree_refuted.
Print Assumptions C65_true_means_mine_refuted.
