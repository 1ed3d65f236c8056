(* C67: messages encoded by several threads at the same time, each into a buffer of its own. *)
From Coq Require Import ZArith List Bool String Lia.
From Verif.Model Require Import JavaPrim ByteBuf Utf8 Codec Ast Interp Library Heap EncodeThreads.
From Verif.Spec Require Import Bytes Buffers Wire Layouts LayoutSample Sharing Together.
From Verif.Proofs Require Import HeapFacts HeapFrame SameBytes EncodeThreadFacts EncodeSteps EncodeRace EncodeEnds.
From Verif.Props Require Import Samples MessageProps HeapProps.
Import ListNotations.
Open Scope Z_scope.

Notation Y := lib_layouts.

(* ---- the classes of the library ---- *)
Definition framed (L : layout) : bool := existsb (fun fw => computes L (fst fw)) L.
Definition summed (L : layout) (s : estmt) : bool :=
  match s with ESum a _ => existsb (fun fw => match snd fw with WSum _ _ a' => String.eqb a' a | _ => false end) L | _ => true end.
Definition raceable (ccd : string * class_def) : bool :=
  match find (fst ccd) Y with
  | Some L => sequenced (c_enc (snd ccd)) && (negb (existsb assigner (c_enc (snd ccd))) || framed L) && forallb (summed L) (c_enc (snd ccd))
  | None => false
  end.
Lemma library_raceable : forall E c cd, classes E = lib_classes -> find_class E c = Some cd -> exists L, find c Y = Some L
  /\ sequenced (c_enc cd) = true /\ (existsb assigner (c_enc cd) = true -> framed L = true) /\ forallb (summed L) (c_enc cd) = true.
Proof.
  intros E c cd HE K. assert (Q : forallb raceable lib_classes = true) by (vm_compute; reflexivity). rewrite forallb_forall in Q. specialize (Q (c, cd)). unfold raceable in Q. cbn [fst snd] in Q.
  unfold find_class in K. rewrite HE in K. assert (IN : In (c, cd) lib_classes).
  { clear - K. revert K. generalize lib_classes. induction l as [|[k a] l IH]; cbn [assoc]; intros A; [discriminate|]. destruct (String.eqb_spec c k) as [->|]; [injection A as ->; left; auto|right; auto]. }
  specialize (Q IN). destruct (find c Y) as [L|]; [|discriminate]. rewrite !andb_true_iff, orb_true_iff, negb_true_iff in Q. destruct Q as [[Q1 Q2] Q3]. exists L. split; [reflexivity|]. split; [exact Q1|]. split; [|exact Q3]. intros A. destruct Q2; congruence.
Qed.
Lemma plain_calm E h r : classes E = lib_classes -> plain_below Y h r -> calm_parts E h r.
Proof.
  intros HE P f l c' gs R Q. unfold Heap.field in R. destruct (nth_error h r) as [[c fs|vs]|] eqn:Qr; [|inversion R..].
  assert (HG : In (f, hget f fs) fs \/ hget f fs = HNull).
  { clear. induction fs as [|[k v] fs IH]; cbn; auto. destruct (String.eqb_spec f k) as [->|]; [left; auto|]. destruct IH; auto. }
  destruct HG as [I|HG]; [|rewrite HG in R; inversion R]. unfold frame_class. destruct (find_class E c') as [cd|] eqn:K; [|reflexivity].
  destruct (existsb assigner (c_enc cd)) eqn:A; [|reflexivity]. destruct (library_raceable E c' cd HE K) as (L & FL & _ & FR & _). specialize (FR A). unfold framed in FR. apply existsb_exists in FR. destruct FR as ((g & w) & _ & CO). cbn [fst] in CO.
  exfalso. apply (P c fs f (hget f fs) l c' gs g); auto. unfold computes in CO. destruct (find g L) as [u|] eqn:FG; [|discriminate]. exists L, u. split; [exact FL|]. split; [exact FG|]. destruct u; try discriminate; exact Logic.I.
Qed.
Lemma wf_sound b : buf_wf b = true -> sound b /\ (ridx b <= widx b)%nat.
Proof. unfold buf_wf, sound. rewrite !andb_true_iff, !PeanoNat.Nat.leb_le, Z.leb_le. tauto. Qed.
Lemma agreed_compatible E h i j c fs cd : classes E = lib_classes -> buf_wf (into i) = true -> buf_wf (into j) = true -> agreed Y E h i j -> whom i = whom j ->
  nth_error h (whom i) = Some (CObj c fs) -> find_class E c = Some cd -> compatible E cd (into i) (into j).
Proof.
  intros HE Bi Bj A W Q K. destruct (wf_sound _ Bi) as [Si Ri]. destruct (wf_sound _ Bj) as [Sj Rj]. split; [exact Si|]. split; [exact Sj|]. intros s Is. destruct s; try exact Logic.I. cbn.
  destruct (checksum E alg) as [x|] eqn:CS; [right|left; reflexivity]. split; [|auto]. apply (A W c fs alg); auto; [|congruence]. destruct (library_raceable E c cd HE K) as (L & FL & _ & _ & SU).
  rewrite forallb_forall in SU. specialize (SU _ Is). cbn in SU. apply existsb_exists in SU. destruct SU as ((g & w) & I & M). cbn in M. destruct w; try discriminate. apply String.eqb_eq in M. subst. exists L, g, n, o. auto.
Qed.

(* ---- C67 ---- *)
(* sched: whose turn it is, any order; a thread that has ended has written what it would have written alone, and ended as it would have;
   if it has ended normally, the getters of its message answer as after encoding it alone; messages nobody encodes are as before *)
Theorem C67_encode_together : forall E sched h jobs h' ts, classes E = lib_classes ->
  (forall j, In j jobs -> buf_wf (into j) = true /\ plain_below Y h (whom j)) -> (forall i j, In i jobs -> In j jobs -> agreed Y E h i j) ->
  encoders_run E sched h (map (fun j => begin E h (HRef (whom j)) (limit j) (into j)) jobs) = (h', ts) ->
  (forall i j t e, nth_error jobs i = Some j -> nth_error ts i = Some t -> ended t = Some e ->
     exists hs, hencode E (limit j) h (HRef (whom j)) (into j) = (e, hs, out t) /\ (e = None -> forall f, Heap.field h' (whom j) f = Heap.field hs (whom j) f))
  /\ (forall l, ~ In l (map whom jobs) -> nth_error h' l = nth_error h l).
Proof.
  intros E sched h jobs h' ts HE HJ HA R.
  assert (SQ : forall c cd, find_class E c = Some cd -> sequenced (c_enc cd) = true) by (intros c cd K; destruct (library_raceable E c cd HE K) as (L & _ & S & _); exact S).
  assert (CA : forall j, In j jobs -> calm_parts E h (whom j)) by (intros j Ij; apply plain_calm; [exact HE|apply HJ; exact Ij]).
  assert (CO : forall i j c fs cd, In i jobs -> In j jobs -> whom i = whom j -> nth_error h (whom i) = Some (CObj c fs) -> find_class E c = Some cd -> compatible E cd (into i) (into j)).
  { intros i j c fs cd Ii Ij W Q K. apply (agreed_compatible E h i j c fs cd); auto; apply HJ; auto. }
  destruct (all_result E h SQ jobs CA CO sched h' ts R) as (_ & F & A). split; [exact A|exact F].
Qed.
(* every thread ends, whatever the others do, on whatever objects: a number of turns is enough, in any schedule that gives them *)
Theorem C67_encoders_end : forall E h vs i v d b ts, nth_error vs i = Some (v, d, b) -> ts = map (fun x => begin E h (fst (fst x)) (snd (fst x)) (snd x)) vs ->
  exists n, forall sched h' ts' t, (n <= count_occ PeanoNat.Nat.eq_dec sched i)%nat -> encoders_run E sched h ts = (h', ts') -> nth_error ts' i = Some t -> ended t <> None.
Proof.
  intros E h vs i v d b ts HV ->. exists (weight E h (begin E h v d b)). intros sched h' ts' t N R T. eapply run_ends; eauto. rewrite nth_error_map, HV. reflexivity.
Qed.
(* a thread that has all turns does what encode does, on any objects *)
Theorem C67_alone : forall E h v d b, exists n, forall sched h' ts', (n <= count_occ PeanoNat.Nat.eq_dec sched 0%nat)%nat -> encoders_run E sched h [begin E h v d b] = (h', ts') ->
  exists t e, ts' = [t] /\ ended t = Some e /\ hencode E d h v b = (e, h', out t).
Proof.
  intros E h v d b. exists (weight E h (begin E h v d b)). intros sched h' ts' N R. destruct (outcome_alone E sched h _ h' ts' R) as (t & -> & O).
  pose proof (run_ends E 0 sched h _ h' [t] _ t R eq_refl eq_refl N) as EN. unfold outcome in O at 1. destruct (ended t) as [e|] eqn:Q; [|contradiction]. exists t, e. split; auto. split; auto.
  rewrite O. unfold begin. rewrite outcome_enter. cbn [room out]. destruct (hencode E d h v b) as [[[x|] g] y]; reflexivity.
Qed.
(* ---- a way to check plain_below ---- *)
Definition within (ls : list nat) (v : hval) : bool := match v with HRef l => existsb (Nat.eqb l) ls | _ => true end.
Definition plain_cell (ls : list nat) (k : cell) : bool :=
  match k with
  | CList vs => forallb (within ls) vs
  | CObj c fs => forallb (fun fv => within ls (snd fv)) fs && match find c Y with Some L => negb (framed L) | None => true end
  end.
Definition plainb (h : heap) (r : nat) (ls : list nat) : bool :=
  match nth_error h r with Some (CObj _ fs) => forallb (fun fv => within ls (snd fv)) fs | _ => true end
  && forallb (fun l => match nth_error h l with Some k => plain_cell ls k | None => true end) ls.
Lemma within_in ls l : within ls (HRef l) = true -> In l ls.
Proof. cbn. intros H. apply existsb_exists in H. destruct H as (x & I & Q). apply PeanoNat.Nat.eqb_eq in Q. subst. exact I. Qed.
Lemma plainb_plain h r ls : plainb h r ls = true -> plain_below Y h r.
Proof.
  unfold plainb. rewrite andb_true_iff. intros [H1 H2] c fs f v m c' gs g Q I R Qm (L & w & FL & FW & K). rewrite Q, forallb_forall in H1. rewrite forallb_forall in H2.
  assert (CL : In m ls).
  { apply (closed_reach (fun l => In l ls) h v m); [|intros j ->; apply within_in; apply (H1 (f, HRef j) I)|exact R].
    intros l k n Il Hk Hp. specialize (H2 l Il). rewrite Hk in H2. destruct k as [c0 fs0|vs0]; cbn in Hp.
    - destruct Hp as (f0 & I0). cbn [plain_cell] in H2. rewrite andb_true_iff, forallb_forall in H2. apply within_in. apply (proj1 H2 (f0, HRef n) I0).
    - cbn [plain_cell] in H2. rewrite forallb_forall in H2. apply within_in. apply H2. exact Hp. }
  specialize (H2 m CL). rewrite Qm in H2. cbn [plain_cell] in H2. rewrite FL, andb_true_iff, negb_true_iff in H2. destruct H2 as [_ H2].
  assert (IW : In (g, w) L) by (clear - FW; induction L as [|[k a] L IH]; cbn in FW; [discriminate|]; destruct (String.eqb_spec g k) as [->|]; [injection FW as ->; left; reflexivity|right; auto]).
  assert (framed L = true); [|congruence]. apply existsb_exists. exists (g, w). split; [exact IW|]. unfold computes. cbn [fst]. rewrite FW. destruct w; try contradiction; reflexivity.
Qed.

(* the condition on the buffers is needed: one RootPacket, two buffers with different unread bytes; the checksum the first thread writes is the one of the second *)
Definition race : list nat := repeat 0%nat 28 ++ repeat 1%nat 31 ++ repeat 0%nat 3.
Definition racers : list job := [ {| whom := 4; limit := 3; into := empty_buf |}; {| whom := 4; limit := 3; into := used_buf |} ].
Theorem C67_any_buffers_refuted : exists sched h jobs h' ts i j t hs b, (forall j, In j jobs -> buf_wf (into j) = true /\ plain_below Y h (whom j))
  /\ encoders_run lib_env sched h (map (fun j => begin lib_env h (HRef (whom j)) (limit j) (into j)) jobs) = (h', ts)
  /\ nth_error jobs i = Some j /\ nth_error ts i = Some t /\ ended t = Some None
  /\ hencode lib_env (limit j) h (HRef (whom j)) (into j) = (None, hs, b) /\ readable (out t) <> readable b.
Proof.
  exists race, h_alias, racers. eexists _, _, 0%nat, _, _, _, _. split.
  { intros j [<-|[<-|[]]]; (split; [vm_compute; reflexivity|]); apply (plainb_plain _ _ [0; 1; 2; 3]%nat); vm_compute; reflexivity. }
  split; [vm_compute; reflexivity|]. split; [reflexivity|]. split; [reflexivity|]. split; [reflexivity|]. split; [vm_compute; reflexivity|]. vm_compute. discriminate.
Qed.

(* three threads, two of them with the same RootPacket and one with its payload; all have written something before the first has ended *)
Definition fresh_start : bytebuf := {| arr := [2; 3]; ridx := 0; widx := 2; maxcap := 4096; cs_slack := true; policy := policy empty_buf |}.
Definition crowd : list job := [ {| whom := 4; limit := 3; into := used_buf |}; {| whom := 4; limit := 5; into := fresh_start |}; {| whom := 3; limit := 2; into := empty_buf |} ].
Example C67_meets : (forall j, In j crowd -> buf_wf (into j) = true /\ plain_below Y h_alias (whom j)) /\ (forall i j, In i crowd -> In j crowd -> agreed Y lib_env h_alias i j)
  /\ checksummed Y "sample.RootPacket" "CRC32" /\ checksum lib_env "CRC32" <> None /\ ~ plain_below Y h_cycle 0
  /\ map (fun t => (ended t, List.length (content (out t)))) (snd (encoders_run lib_env (List.concat (repeat [0; 1; 2]%nat 29 ++ repeat [2; 0; 1]%nat 9)) h_alias
       (map (fun j => begin lib_env h_alias (HRef (whom j)) (limit j) (into j)) crowd))) = [(Some None, 39%nat); (Some None, 38%nat); (Some None, 26%nat)].
Proof.
  split; [|split; [|split; [|split; [|split]]]].
  - intros j [<-|[<-|[<-|[]]]]; (split; [vm_compute; reflexivity|]); apply (plainb_plain _ _ [0; 1; 2; 3]%nat); vm_compute; reflexivity.
  - intros i j Hi Hj W c fs alg Q _ _. destruct Hi as [<-|[<-|[<-|[]]]]; destruct Hj as [<-|[<-|[<-|[]]]]; try discriminate W; reflexivity.
  - exists sample_RootPacket_layout, "checksum"%string, 4%nat, LE. split; [vm_compute; reflexivity|]. right. right. right. left. reflexivity.
  - intros H. assert (X : match checksum lib_env "CRC32" with Some _ => true | None => false end = true) by (vm_compute; reflexivity). rewrite H in X. discriminate.
  - intros P. eapply (P _ _ "payload"%string (HRef 0) 0%nat _ _ "checksum"%string eq_refl); [|apply reach_here|reflexivity|].
    + vm_compute. tauto.
    + eexists _, _. split; [reflexivity|]. split; [reflexivity|exact Logic.I].
  - vm_compute. reflexivity.
Qed.

Print Assumptions C67_encode_together.
Print Assumptions C67_encoders_end.
Print Assumptions C67_alone.
Print Assumptions C67_any_buffers_refuted.
