(* C66: SseBinary.BodyMessageFactory used by several threads at a time. *)
From Coq Require Import ZArith List Bool String Lia Permutation.
From Verif.Model Require Import JavaPrim ByteBuf Ast Interp Factory FactoryThreads Library.
From Verif.Spec Require Import Registry PrivateTag.
From Verif.Proofs Require Import RegistryFacts FactoryThreadFacts.
From Verif.Props Require Import RegistryProps.
Import ListNotations.
Open Scope Z_scope.

(* ps: the calls each thread makes; sched: whose turn it is, any order, finished or not *)

(* a message type no other thread registers or removes: register, remove and create of it answer as if the thread were alone *)
Theorem C66_private_types : forall t sched s ps i p s' us' u, fsteps sched s (map fstart ps) = (s', us') -> nth_error ps i = Some p -> nth_error us' i = Some u ->
  (forall j q o, nth_error ps j = Some q -> j <> i -> In o q -> ~ touches_tag t o) ->
  let alone := alone_tag t (match sse_create s t with inr c => Some c | inl _ => None end) p in
  (exists later, alone = filter (about_tag t) (fgot u) ++ later) /\ (fdone u -> filter (about_tag t) (fgot u) = alone).
Proof.
  intros t sched s ps i p s' us' u S Hp Hu Q. cbv zeta. replace (match sse_create s t with inr c => Some c | inl _ => None end) with (f_get (body_map s) (KInt t)).
  - exact (tag_answers t sched s ps i p s' us' u S Hp Hu Q).
  - unfold sse_create, create. destruct (f_get (body_map s) (KInt t)); reflexivity.
Qed.
(* a class no other thread registers: getMsgType answers as if the thread were alone *)
Theorem C66_private_classes : forall clazz sched s ps i p s' us' u, fsteps sched s (map fstart ps) = (s', us') -> nth_error ps i = Some p -> nth_error us' i = Some u ->
  (forall j q o, nth_error ps j = Some q -> j <> i -> In o q -> ~ touches_class clazz o) ->
  let alone := alone_class clazz (sse_get_msg_type s clazz) p in
  (exists later, alone = filter (about_class clazz) (fgot u) ++ later) /\ (fdone u -> filter (about_class clazz) (fgot u) = alone).
Proof. intros clazz sched s ps i p s' us' u S Hp Hu Q. exact (class_answers clazz sched s ps i p s' us' u S Hp Hu Q). Qed.
(* if nobody removes t: once anybody was given t by getMsgType, or has registered it, or has created a body of it, every later create(t) of every thread succeeds *)
Theorem C66_known_types_create : forall t sched ps s1 us1 u a sched2 s2 us2, fsteps sched sse_initial (map fstart ps) = (s1, us1) ->
  (forall p, In p ps -> ~ In (PRem t) p) -> In u us1 -> In a (fgot u) ->
  match a with QType _ (Some t') => t' = t | QReg _ t' _ => t' = t | QCreate t' (inr _) => t' = t | _ => False end ->
  fsteps sched2 s1 us1 = (s2, us2) ->
  forall i w, nth_error us1 i = Some w -> exists w' new, nth_error us2 i = Some w' /\ fgot w' = fgot w ++ new /\ forall r, In (QCreate t r) new -> exists c, r = inr c.
Proof.
  intros t sched ps s1 us1 u a sched2 s2 us2 S U Iu Ia Ka S2. apply (known_creates t sched sse_initial ps s1 us1 u a sched2 s2 us2); auto.
  intros cl H E. apply C21_initially_one_to_one in H. unfold sse_create, create in H. rewrite E in H. discriminate.
Qed.
(* the converse fails: a body can be created while its class has no type yet *)
Theorem C66_created_classes_known_refuted : exists sched ps s' us' u, (forall p t, In p ps -> ~ In (PRem t) p)
  /\ fsteps sched sse_initial (map fstart ps) = (s', us') /\ In u us' /\ fgot u = [QCreate 1 (inr "a.A"%string); QType "a.A" None].
Proof.
  exists [0; 1; 1]%nat, [[PReg "a.A" 1 "a.A"]; [PCreate 1; PType "a.A"]]. eexists _, _, _. split.
  { intros p t Hp. cbn in Hp. destruct Hp as [<-|[<-|[]]]; intros Ho; cbn in Ho; repeat (destruct Ho as [Ho|Ho]; [discriminate|]); contradiction. }
  split; [reflexivity|]. split; [right; left; reflexivity|]. vm_compute. reflexivity.
Qed.
(* and registrations at the same time may leave what no order of them, one after the other, leaves: here every class has the type of the other *)
Theorem C66_registrations_serialise_refuted : exists sched s us ops, ops = [("a.A", 1); ("a.B", 1); ("a.B", 2); ("a.A", 2)]%string
  /\ fsteps sched sse_initial (map (fun ct => fstart [PReg (fst ct) (snd ct) (fst ct)]) ops) = (s, us) /\ (forall u, In u us -> fdone u)
  /\ (sse_get_msg_type s "a.A" = Some 1 /\ sse_create s 1 = inr "a.B"%string /\ sse_get_msg_type s "a.B" = Some 2 /\ sse_create s 2 = inr "a.A"%string)
  /\ forall order, Permutation order ops -> let r := sse_run sse_initial (map (fun ct => SReg (fst ct) (snd ct) (fst ct)) order) in
       ~ (sse_get_msg_type r "a.A" = Some 1 /\ sse_create r 1 = inr "a.B"%string /\ sse_get_msg_type r "a.B" = Some 2 /\ sse_create r 2 = inr "a.A"%string).
Proof.
  exists [0; 1; 2; 3; 1; 2; 3; 0]%nat. eexists _, _, _. split; [reflexivity|]. split; [reflexivity|]. split.
  { intros u Hu. cbn in Hu. destruct Hu as [<-|[<-|[<-|[<-|[]]]]]; split; reflexivity. }
  split; [vm_compute; repeat split|]. intros order P. pose proof (Permutation_length P) as L. assert (ND : NoDup order).
  { apply (Permutation_NoDup (Permutation_sym P)). repeat constructor; cbn; intros H; repeat (destruct H as [H|H]; [discriminate|]); exact H. }
  assert (IN : forall x, In x order -> In x [("a.A", 1); ("a.B", 1); ("a.B", 2); ("a.A", 2)]%string) by (intros x; apply Permutation_in; exact P). clear P.
  destruct order as [|a [|b [|c [|d [|? ?]]]]]; try discriminate L. clear L.
  assert (DIF : a <> b /\ a <> c /\ a <> d /\ b <> c /\ b <> d /\ c <> d).
  { inversion ND as [|? ? A N1]; subst. inversion N1 as [|? ? B N2]; subst. inversion N2 as [|? ? C N3]; subst. cbn in A, B, C. repeat split; intros ->; tauto. }
  assert (Ia := IN a (or_introl eq_refl)). assert (Ib := IN b (or_intror (or_introl eq_refl))). assert (Ic := IN c (or_intror (or_intror (or_introl eq_refl)))).
  assert (Id := IN d (or_intror (or_intror (or_intror (or_introl eq_refl))))). clear IN ND. cbn [In] in *. destruct DIF as (D1 & D2 & D3 & D4 & D5 & D6).
  destruct Ia as [<-|[<-|[<-|[<-|[]]]]]; destruct Ib as [<-|[<-|[<-|[<-|[]]]]]; try (destruct D1; reflexivity); clear D1;
  destruct Ic as [<-|[<-|[<-|[<-|[]]]]]; try (destruct D2; reflexivity); try (destruct D4; reflexivity); clear D2 D4;
  destruct Id as [<-|[<-|[<-|[<-|[]]]]]; try (destruct D3; reflexivity); try (destruct D5; reflexivity); try (destruct D6; reflexivity); clear D3 D5 D6;
  vm_compute; intros (H1 & H2 & H3 & H4); congruence.
Qed.
Example C66_meets : let ps := [[PReg "a.A" 1 "a.A"; PCreate 1; PType "a.A"; PRem 1; PCreate 1; PType "a.A"]; [PReg "a.B" 2 "a.B"; PCreate 1; PType "a.B"; PCreate 40]] in
  (forall j q o, nth_error ps j = Some q -> j <> 0%nat -> In o q -> ~ touches_tag 1 o /\ ~ touches_class "a.A" o) /\ (forall p, In p ps -> ~ In (PRem 2) p)
  /\ (exists u, nth_error (snd (fsteps [0; 1; 0; 1; 0; 1; 0; 0; 1; 0; 0; 1] sse_initial (map fstart ps))%nat) 0 = Some u /\ fdone u
       /\ fgot u = [QReg "a.A" 1 "a.A"; QCreate 1 (inr "a.A"%string); QType "a.A" (Some 1); QRem 1 true; QCreate 1 (inl IAE); QType "a.A" (Some 1)])
  /\ exists u, nth_error (snd (fsteps [0; 1; 0; 1; 0; 1; 0; 0; 1; 0; 0; 1] sse_initial (map fstart ps))%nat) 1 = Some u /\ fdone u
       /\ fgot u = [QReg "a.B" 2 "a.B"; QCreate 1 (inr "a.A"%string); QType "a.B" (Some 2); QCreate 40 (inr "sse.Logon"%string)].
Proof.
  split.
  { intros [|[|j]] q o Hq N Ho; cbn in Hq; [contradiction| |destruct j; discriminate]. injection Hq as <-. cbn in Ho. destruct Ho as [<-|[<-|[<-|[<-|[]]]]]; cbn; split; try discriminate; auto. }
  split.
  { intros p Hp. cbn in Hp. destruct Hp as [<-|[<-|[]]]; intros Ho; cbn in Ho; repeat (destruct Ho as [Ho|Ho]; [discriminate|]); contradiction. }
  split; eexists; (split; [vm_compute; reflexivity|]); split; [split; reflexivity|reflexivity|split; reflexivity|reflexivity].
Qed.

Print Assumptions C66_private_types.
Print Assumptions C66_private_classes.
Print Assumptions C66_known_types_create.
Print Assumptions C66_created_classes_known_refuted.
Print Assumptions C66_registrations_serialise_refuted.
