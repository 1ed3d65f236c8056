(* Clients: what one call of a program does to the state of the program. *)
From Coq Require Import ZArith List Bool String Ascii Lia.
From Verif.Model Require Import JavaPrim ByteBuf Checksum Utf8 Codec Ast Interp Factory Show Heap GenSse Library.
From Verif.Spec Require Import Bytes Buffers Wire Layouts Access Sharing JavaState JavaRun.
From Verif.Proofs Require Import BytesFacts BufFacts DecodeFacts DecodeInv HeapFacts HeapReach HeapOwn HeapDecode HeapEq HeapCycle HeapCheck HeapFrame HeapTypes HeapEncTypes HeapBuffer HeapLists HeapResults RegistryFacts CrcFacts
  JavaSem JavaEncode JavaValues JavaClasses JavaLibrary JavaState JavaRegistry.
From Verif.Java Require Import Lex Syntax Source Sources Sem CodecTrees Init Program.
From Verif.Props Require Import Samples MessageProps ChecksumProps TextProps ArbitraryProps LocalProps HeapProps HeapMoreProps JavaStaticProps JavaMessageProps.
From Verif.Spec Require Import Client.
Import ListNotations.
Open Scope Z_scope.
Open Scope list_scope.

Lemma pairs_impl {A B} (P Q : A -> B -> Prop) xs ys : (forall x y, P x y -> Q x y) -> Forall2 P xs ys -> Forall2 Q xs ys.
Proof. intros H. induction 1; constructor; auto. Qed.
(* T m: element type of the list at m *)
Definition vfits (h : heap) (T : nat -> ftype) (x : ftype * hval) (t : ftype) : Prop :=
  fst x = t /\ Client.flat t /\ Sharing.fits h (snd x) t /\ (forall u m, t = TList u -> snd x = HRef m -> T m = u).
Definition agr (T : nat -> ftype) (h : heap) : Prop := agreed lib_env T h.
Record inv (T : nat -> ftype) (s : client) (G : list ftype) (n : nat) : Prop := {
  i_ok : heap_ok lib_classes (c_heap s); i_small : small (c_heap s); i_run : exists R W V, running (c_stat s) R W V;
  i_agreed : agr T (c_heap s); i_vars : Forall2 (vfits (c_heap s) T) (c_vars s) G;
  i_bufs : Forall (fun b => buf_wf b = true) (c_bufs s); i_count : List.length (c_bufs s) = n }.
Lemma inv_in_order T s G n : inv T s G n -> in_order s G n.
Proof.
  intros [OK SM RN AG VS BS CN]. split; [exact OK|]. split; [exact SM|]. split; [exact RN|]. split; [|auto]. eapply pairs_impl; [|exact VS]. intros x t (A & _ & B & _). auto.
Qed.

Lemma ref_bound h v t m : Sharing.fits h v t -> v = HRef m -> (m < List.length h)%nat.
Proof. intros F ->. destruct t; cbn in F; try contradiction; [destruct F as (vs & F & _)|destruct F as (gs & F)|destruct F as (c0 & gs & F)]; eapply nth_lt; eauto. Qed.
Lemma vfits_keeps h h1 T T' x t : keeps h h1 -> later (List.length h) T T' -> vfits h T x t -> vfits h1 T' x t.
Proof.
  intros K L (A & B & C & D). split; [exact A|]. split; [exact B|]. split; [eapply fits_keeps; eauto|]. intros u m -> Hm. rewrite L; [eauto|]. eapply ref_bound; eauto.
Qed.
Lemma vars_keep h h1 T T' xs G : keeps h h1 -> later (List.length h) T T' -> Forall2 (vfits h T) xs G -> Forall2 (vfits h1 T') xs G.
Proof. intros K L. apply pairs_impl. intros x t. now apply vfits_keeps. Qed.
Lemma upd_forall {A} (P : A -> Prop) (l : list A) : forall n x, Forall P l -> P x -> Forall P (upd l n x).
Proof. induction l as [|y l IH]; intros n x F Px; [destruct n; constructor|]. inversion F; subst. destruct n; cbn [upd]; constructor; auto. apply IH; auto. Qed.
Lemma later_id n T : later n T T. Proof. apply later_refl. Qed.

(* the state after a call *)
Lemma after_call T T' s G G' n h1 stat1 m b1 vs ts : inv T s G n -> heap_ok lib_classes h1 -> small h1 -> agr T' h1 -> keeps (c_heap s) h1 -> later (List.length (c_heap s)) T T' ->
  (exists R W V, running stat1 R W V) -> buf_wf (settle b1) = true -> Forall2 (vfits h1 T') vs ts -> G' = G ++ ts ->
  inv T' {| c_heap := h1; c_stat := stat1; c_vars := c_vars s ++ vs; c_bufs := upd (c_bufs s) m (settle b1) |} G' n.
Proof.
  intros [OK SM RN AG VS BS CN] OK1 SM1 AG1 K L RN1 B1 V1 ->. split; cbn [c_heap c_stat c_vars c_bufs]; auto.
  - apply Forall2_app; [eapply vars_keep; eauto|exact V1].
  - now apply upd_forall.
  - now rewrite upd_length.
Qed.
Lemma quiet_call T s G G' n m b1 vs ts : inv T s G n -> buf_wf (settle b1) = true -> Forall2 (vfits (c_heap s) T) vs ts -> G' = G ++ ts ->
  inv T {| c_heap := c_heap s; c_stat := c_stat s; c_vars := c_vars s ++ vs; c_bufs := upd (c_bufs s) m (settle b1) |} G' n.
Proof. intros I. pose proof I as [OK SM RN AG VS BS CN]. intros. eapply after_call; eauto using keeps_refl, later_refl. Qed.
Lemma pushed T s G n t v : inv T s G n -> vfits (c_heap s) T (t, v) t -> inv T (push s t v) (G ++ [t]) n.
Proof. intros [OK SM RN AG VS BS CN] F. split; cbn [push c_heap c_stat c_vars c_bufs]; auto. apply Forall2_app; [exact VS|]. constructor; [exact F|constructor]. Qed.
Lemma flat_iff t : Client.flat t <-> flat_type t = true.
Proof. destruct t; cbn; try tauto. destruct t; cbn; intuition congruence. Qed.
Lemma default_vfits h T t : Client.flat t -> vfits h T (t, hdefault t) t.
Proof. intros F. split; [reflexivity|]. split; [exact F|]. split; [apply default_fits|]. intros u m -> Hm. discriminate Hm. Qed.
Lemma int_vfits h T z : - 2 ^ 31 <= z < 2 ^ 31 -> vfits h T (TInt, HInt z) TInt.
Proof. intros R. split; [reflexivity|]. split; [exact I|]. split; [exact R|]. discriminate. Qed.
Lemma str_vfits h T u : Forall (fun u => 0 <= u < 2 ^ 16) u -> vfits h T (TStr, HStr u) TStr.
Proof. intros R. split; [reflexivity|]. split; [exact I|]. split; [exact R|]. discriminate. Qed.
Lemma var_at T s G n i t : inv T s G n -> nth_error G i = Some t -> type_at s i = t /\ vfits (c_heap s) T (t, var s i) t.
Proof.
  intros [_ _ _ _ VS _ _] Hi. unfold type_at, var. revert i Hi. induction VS as [|x u xs G F VS IH]; intros [|i] Hi; try discriminate; cbn [nth_error] in *.
  - injection Hi as ->. destruct x as [t' v]. destruct F as (A & F). cbn in A. subst t'. split; [reflexivity|]. split; [reflexivity|exact F].
  - exact (IH i Hi).
Qed.
Lemma receives T s G n i t : inv T s G n -> nth_error G i = Some t -> receiver t -> var s i = HNull \/ exists l c fs, var s i = HRef l /\ nth_error (c_heap s) l = Some (CObj c fs).
Proof.
  intros IV Hi Rt. destruct (var_at T s G n i t IV Hi) as (_ & _ & _ & F & _). cbn [snd] in F. destruct Rt as [->|(c & ->)]; destruct (var s i) as [| | | |l]; cbn in F; try contradiction; auto; right.
  - destruct F as (c & fs & F). eauto.
  - destruct F as (fs & F). eauto.
Qed.
Lemma buf_at T s G n m : inv T s G n -> buf_wf (buf s m) = true.
Proof.
  intros [_ _ _ _ _ BS _]. unfold buf. destruct (Nat.lt_ge_cases m (List.length (c_bufs s))) as [L|L]; [|rewrite nth_overflow by exact L; reflexivity].
  rewrite Forall_forall in BS. apply BS. now apply nth_In.
Qed.
Lemma object_fits h l c fs : nth_error h l = Some (CObj c fs) -> Sharing.fits h (HRef l) (TObj c). Proof. intros H. cbn. eauto. Qed.
Lemma object_codec h l c fs : nth_error h l = Some (CObj c fs) -> Sharing.fits h (HRef l) TCodec. Proof. intros H. cbn. eauto. Qed.
Lemma known h l c fs : heap_ok lib_classes h -> nth_error h l = Some (CObj c fs) -> exists cd, assoc c lib_classes = Some cd.
Proof. intros OK H. destruct (OK l c fs H) as (cd & A & _). eauto. Qed.

Lemma lib_counts E (HE : classes E = lib_classes) : forall c cd, find_class E c = Some cd -> forallb int_count (c_dec cd) = true.
Proof. intros c cd H. unfold find_class in H. rewrite HE in H. eapply (all_classes_ok (fun cd => forallb int_count (c_dec cd))); [vm_compute; reflexivity|exact H]. Qed.
Lemma field_in cd (f : string) t : NoDup (map fst (c_fields cd)) -> In (f, t) (c_fields cd) -> assoc f (c_fields cd) = Some t.
Proof.
  induction (c_fields cd) as [|[g y] ts IH]; intros Nd H; [contradiction|]. cbn [assoc map fst] in *. inversion Nd as [|? ? N1 N2]; subst. destruct H as [[= <- <-]|H]; [now rewrite String.eqb_refl|].
  destruct (String.eqb_spec f g) as [->|]; [|now apply IH]. exfalso. apply N1. change g with (fst (g, t)). now apply in_map.
Qed.

(* encode and decode *)
Lemma encode_state T s G n d l c fs m : inv T s G n -> nth_error (c_heap s) l = Some (CObj c fs) -> forall R W, let '(e, h1, b1) := hencode (holding R W) d (c_heap s) (HRef l) (buf s m) in
  (e = None \/ e = Some NPE \/ e = Some IOOBE \/ e = Some SOE) /\ heap_ok lib_classes h1 /\ small h1 /\ agr T h1 /\ keeps (c_heap s) h1 /\ buf_wf b1 = true.
Proof.
  intros IV Hl R W. pose proof (buf_at T s G n m IV) as Hb. pose proof IV as [OK SM RN AG VS BS CN]. set (E := holding R W). assert (HE : classes E = lib_classes) by reflexivity. pose proof (object_codec _ _ _ _ Hl) as F.
  pose proof (good_encode E (lib_fine_enc E HE) d (c_heap s) (HRef l) (buf s m) OK F) as GD. pose proof (still_encode E (lib_fine_enc E HE) d (c_heap s) (HRef l) (buf s m) OK F) as ST.
  pose proof (wf_encode E (lib_fine_enc E HE) d (c_heap s) (HRef l) (buf s m) OK F (proj1 (buf_wf_iff _) Hb)) as WB. pose proof (C57_encode_frame E d (c_heap s) (HRef l) (buf s m) HE) as FR. cbv zeta in FR.
  destruct (hencode E d (c_heap s) (HRef l) (buf s m)) as [[e h1] b1]. cbn [fst snd] in *. destruct GD as (A & B & K). split; [exact A|]. split; [exact B|]. split; [eapply small_steady; eauto|]. split; [|split; [exact K|now apply buf_wf_iff]].
  destruct FR as [LE FR]. intros j c0 gs cd f u q Hj Hc Hf I. assert (Lj : (j < List.length (c_heap s))%nat) by (rewrite <- LE; eapply nth_lt; eauto). destruct (nth_error (c_heap s) j) as [k0|] eqn:Q; [|apply nth_error_None in Q; lia].
  destruct (FR j k0 _ Q Hj) as [Tj _]. destruct k0 as [c1 hs|vs]; cbn in Tj; [|discriminate]. destruct Tj as (-> & MP & TJ). apply In_nth_error in I. destruct I as (i & Hi).
  destruct (nth_error hs i) as [[f' v]|] eqn:Qi.
  - assert (f' = f). { apply (f_equal (fun l => nth_error l i)) in MP. rewrite !nth_error_map, Hi, Qi in MP. cbn in MP. congruence. } subst f'. destruct (TJ i f v (HRef q) Qi Hi) as [<-|(_ & z & Hz)]; [|discriminate].
    exact (AG j c1 hs cd f u q Q Hc Hf (nth_error_In _ _ Qi)).
  - exfalso. apply nth_error_None in Qi. apply nth_lt in Hi. apply (f_equal (@List.length string)) in MP. rewrite !map_length in MP. lia.
Qed.

Lemma settle_id b : buf_wf b = true -> settle b = b.
Proof. intros Hb. apply buf_wf_iff in Hb. destruct (proj1 (wf_clean b) Hb) as [[L _] _]. unfold settle. now rewrite (proj2 (Nat.leb_le _ _) L). Qed.
Lemma settle_wf b : buf_wf b = true -> buf_wf (settle b) = true.
Proof. intros Hb. now rewrite settle_id. Qed.
Lemma settle_advanced b n b1 : buf_wf b = true -> advanced b n b1 -> buf_wf (settle b1) = true.
Proof.
  intros Hb A. unfold settle. destruct (Nat.leb (ridx b1) (widx b1)) eqn:L; [|reflexivity]. unfold advanced in A. subst b1. unfold buf_wf in *. cbn [set_ridx arr ridx widx maxcap] in *. rewrite L.
  rewrite !andb_true_iff in *. tauto.
Qed.
Lemma decode_state T s G n d l c fs m R W V stat : inv T s G n -> nth_error (c_heap s) l = Some (CObj c fs) -> running stat R W V -> let '(e, h1, b1) := hdecode (holding R W) d (c_heap s) (HRef l) (buf s m) in
  (e = None \/ e = Some IOOBE \/ e = Some IAE \/ e = Some SOE) /\ heap_ok lib_classes h1 /\ small h1 /\ keeps (c_heap s) h1 /\ buf_wf (settle b1) = true /\ exists T', agr T' h1 /\ later (List.length (c_heap s)) T T'.
Proof.
  intros IV Hl Rn. pose proof (buf_at T s G n m IV) as Hb. pose proof IV as [OK SM RN AG VS BS CN]. set (E := holding R W). assert (HE : classes E = lib_classes) by reflexivity. pose proof (object_fits _ _ _ _ Hl) as F.
  pose proof (C63_decode_keeps_types E d (c_heap s) (HRef l) (buf s m) HE OK Hb) as KT. destruct (C63_decode_exceptions E d (c_heap s) (HRef l) c (buf s m) HE (running_suppliers _ _ _ _ Rn) OK F ltac:(discriminate) Hb) as [(q & RD & _) EX].
  pose proof (proj1 (buf_wf_iff _) Hb) as HB. apply bk_wf in HB as BK.
  pose proof (tidy_decode E (lib_flat E HE) (lib_nodup E HE) (lib_fine E HE) (lib_counts E HE) d T (c_heap s) (HRef l) (buf s m) OK BK AG SM) as TD. cbv zeta in TD.
  pose proof (frame_decode E d (fun _ => True) (c_heap s) (HRef l) (buf s m) (fun _ _ _ _ _ _ => I) (fun _ _ => I) (fun _ _ => I)) as FR.
  destruct (hdecode E d (c_heap s) (HRef l) (buf s m)) as [[e h1] b1]. cbn [fst snd] in *. destruct TD as (T' & L & A & S1).
  split; [exact EX|]. split; [exact KT|]. split; [exact S1|]. split; [exact (mv_keeps _ _ _ FR)|]. split; [eapply settle_advanced; eauto|]. exists T'. split; assumption.
Qed.

(* getters and setters *)
Lemma get_runs pr k d stat R W V h l c cd fs f t b : enough k -> running stat R W V -> nth_error h l = Some (CObj c fs) -> assoc c lib_classes = Some cd -> In (f, t) (c_fields cd) ->
  invoke pr k (S d) l (getter f) [] (at_rest h b stat) = Ret (JT (type_name t) (Heap.field h l f)) (at_rest h b stat).
Proof.
  intros K Rn Hl A H. destruct (enough_1 k K) as (k' & ->). destruct (library_method_names c cd A) as (Nd & Ng & _).
  assert (Gt : assoc (getter f) (c_get cd) = Some f) by (rewrite (library_getters c cd A); apply (assoc_method getter (c_fields cd) (getter f) f Ng); split; [reflexivity|]; change f with (fst (f, t)); now apply in_map).
  rewrite <- (assoc_type_of _ _ _ (field_in cd f t Nd H)). exact (JavaLibrary.lib_get (holding R W) stat (running_world _ _ _ _ Rn) pr k' d h l c cd fs b [] (getter f) f Hl A Gt).
Qed.
Lemma set_runs pr k d stat R W V h l c cd fs f t u v b : enough k -> running stat R W V -> nth_error h l = Some (CObj c fs) -> assoc c lib_classes = Some cd -> In (f, t) (c_fields cd) -> Sharing.fits h v t ->
  invoke pr k (S d) l (setter f) [JT u v] (at_rest h b stat) = Ret JVoid (at_rest (put_field h l f v) b stat).
Proof.
  intros K Rn Hl A H Fv. destruct (enough_1 k K) as (k' & ->). destruct (library_method_names c cd A) as (Nd & _ & Ns).
  assert (St : assoc (setter f) (c_set cd) = Some f) by (rewrite (library_setters c cd A); apply (assoc_method setter (c_fields cd) (setter f) f Ns); split; [reflexivity|]; change f with (fst (f, t)); now apply in_map).
  refine (JavaLibrary.lib_set (holding R W) stat (running_world _ _ _ _ Rn) pr k' d h l c cd fs b [] (setter f) f u v Hl A St _).
  intros ->. rewrite (assoc_type_of _ _ _ (field_in cd f t Nd H)). pose proof (reference_types c cd A) as B. rewrite forallb_forall in B. specialize (B (f, t) H). cbn [snd] in B.
  destruct t; cbn in Fv; first [contradiction|apply negb_true_iff; exact B].
Qed.
Lemma overflow pr k l m args s : invoke pr k 0 l m args s = Exc SOE s. Proof. reflexivity. Qed.
Lemma assignable_fits h T x t u v : assignable t u -> vfits h T x t -> snd x = v -> Sharing.fits h v u /\ (forall w m, u = TList w -> v = HRef m -> T m = w).
Proof.
  intros [->|(-> & c & ->)] (_ & _ & F & D) <-; [split; assumption|]. split; [|discriminate]. destruct (snd x); cbn in *; try contradiction; auto. destruct F as (fs & F). eauto.
Qed.
