(* Programs that use the library cannot bring it into a state it does not understand: every call javac accepts returns or throws one of the exceptions named here. *)
From Coq Require Import ZArith List Bool String Ascii Lia.
From Verif.Model Require Import JavaPrim ByteBuf Checksum Utf8 Codec Ast Interp Factory Show Heap GenSse Library.
From Verif.Spec Require Import Bytes Buffers Crc Wire Reading Layouts Equality Text Access Sharing JavaState JavaRun.
From Verif.Proofs Require Import BytesFacts BufFacts DecodeFacts DecodeInv HeapFacts HeapReach HeapOwn HeapDecode HeapEq HeapCycle HeapCheck HeapFrame HeapTypes HeapEncTypes HeapBuffer HeapLists HeapResults RegistryFacts CrcFacts
  JavaSem JavaEncode JavaValues JavaClasses JavaLibrary JavaState JavaRegistry ClientFacts.
From Verif.Java Require Import Lex Syntax Source Sources Sem CodecTrees Init Program.
From Verif.Props Require Import Samples MessageProps ChecksumProps TextProps ArbitraryProps LocalProps HeapProps HeapMoreProps JavaStaticProps JavaMessageProps.
From Verif.Spec Require Import Client.
Import ListNotations.
Open Scope Z_scope.
Open Scope list_scope.

Section Step.
  Variables (pr : printers) (k : nat).
  Hypothesis K : enough k.
  Hypothesis PR : prints pr.
  Definition goes (T : nat -> ftype) (s : client) (d : nat) (o : op) (G' : list ftype) (n' : nat) : Prop :=
    exists x s' T', client_step pr k d o s = Some (x, s') /\ outcome o x /\ inv T' s' G' n'.

  Lemma plain_none T s G n : inv T s G n -> inv T {| c_heap := c_heap s; c_stat := c_stat s; c_vars := c_vars s ++ []; c_bufs := upd (c_bufs s) (List.length (c_bufs s)) (settle (buf s (List.length (c_bufs s)))) |} G n.
  Proof. intros IV. eapply quiet_call; [exact IV|apply settle_wf; eapply buf_at; eauto|constructor|now rewrite app_nil_r]. Qed.

  Lemma step_value T s G n d t v : inv T s G n -> scalar t v -> goes T s d (OValue t v) (G ++ [t]) n.
  Proof.
    intros IV S. exists (inr (JT (type_name t) v)), (push s t v), T. split; [reflexivity|]. split; [cbn; eexists; eauto|]. apply pushed; [exact IV|]. unfold scalar in S. split; [reflexivity|].
    destruct v as [|z|z|u|l]; try contradiction; destruct S as [FL F]; (split; [exact FL|]; split; [|discriminate]); cbn [snd]; destruct t; cbn in F |- *; tauto.
  Qed.
  Lemma step_new T s G n d c : inv T s G n -> assoc c lib_classes <> None -> goes T s d (ONew c) (G ++ [TObj c]) n.
  Proof.
    intros IV Hc. pose proof IV as [OK SM (R & W & V & RN) AG VS BS CN]. destruct (assoc c lib_classes) as [cd|] eqn:A; [|congruence]. clear Hc. cbn [client_step].
    destruct (makes_new (c_stat s) R W V c cd (c_heap s) (buf s (List.length (c_bufs s))) RN A) as [Q HN]. unfold goes, client_step, perform. rewrite Q. cbn [s_h s_stat s_b at_rest]. do 3 eexists. split; [reflexivity|]. split; [cbn; eexists; eauto|].
    destruct (new_ok (holding R W) (c_heap s) c OK) as (OK1 & KE & F). rewrite HN in F.
    eapply after_call; [exact IV|exact OK1|exact (small_new (holding R W) (c_heap s) c SM)|exact (agreed_new (holding R W) T (c_heap s) c AG)|exact KE|apply later_refl|eauto|apply settle_wf; eapply buf_at; eauto| |reflexivity].
    constructor; [|constructor]. split; [reflexivity|]. split; [exact I|]. split; [exact F|]. discriminate.
  Qed.
  Lemma step_list T s G n d u : inv T s G n -> Client.flat (TList u) -> goes T s d (ONewList u) (G ++ [TList u]) n.
  Proof.
    intros IV FL. pose proof IV as [OK SM RN AG VS BS CN]. set (h1 := c_heap s ++ [CList []]). set (T' := fun m => if Nat.eqb m (List.length (c_heap s)) then u else T m).
    assert (L : later (List.length (c_heap s)) T T') by (intros m Hm; unfold T'; destruct (Nat.eqb_spec m (List.length (c_heap s))); [lia|reflexivity]).
    assert (KE : keeps (c_heap s) h1) by apply keeps_alloc.
    do 2 eexists. exists T'. split; [reflexivity|]. split; [cbn; eexists; eauto|]. apply pushed.
    - split; cbn [c_heap c_stat c_vars c_bufs set_heap]; auto.
      + exact (alloc_ok lib_env (c_heap s) (CList []) OK I).
      + intros m vs Hm. destruct (Nat.lt_ge_cases m (List.length (c_heap s))) as [Lm|Lm]; [unfold h1 in Hm; rewrite nth_error_app1 in Hm by exact Lm; eauto|]. unfold h1 in Hm. rewrite nth_error_app2 in Hm by exact Lm.
        destruct (m - List.length (c_heap s))%nat as [|[|i]]; cbn in Hm; try discriminate. injection Hm as <-. cbn. lia.
      + apply agreed_alloc; [exact I|]. exact (agreed_later lib_env T T' (c_heap s) OK L AG).
      + eapply vars_keep; eauto.
    - split; [reflexivity|]. split; [exact FL|]. cbn [snd c_heap set_heap]. split.
      + apply fits_list_intro with []; [unfold h1; rewrite nth_error_app2 by lia; now rewrite Nat.sub_diag|contradiction].
      + intros w m Hw Hm. injection Hm as <-. injection Hw as <-. unfold T'. now rewrite Nat.eqb_refl.
  Qed.
  Lemma step_fill T s G n d i js u : inv T s G n -> nth_error G i = Some (TList u) -> Z.of_nat (List.length js) < 2 ^ 31 -> (forall j, In (Some j) js -> exists t, nth_error G j = Some t /\ assignable t u) -> goes T s d (OFill i js) G n.
  Proof.
    intros IV Hi LJ J. pose proof IV as [OK SM RN AG VS BS CN]. destruct (var_at T s G n i _ IV Hi) as (_ & _ & FL & F & D). cbn [snd] in F, D. unfold goes. cbn [client_step].
    destruct (fits_list _ _ _ F) as [Q|(m & xs & Q & Hm & X)]; rewrite Q; [exists (inl NPE), s, T; split; [reflexivity|]; split; [cbn; tauto|exact IV]|]. rewrite Hm.
    assert (U : (match u with TList _ => false | _ => true end) = true) by (destruct u; auto).
    pose proof (D u m eq_refl Q) as TM. set (ws := map (fun j => match j with Some j => var s j | None => HNull end) js).
    assert (WS : forall x, In x ws -> x = HNull \/ Sharing.fits (c_heap s) x u).
    { intros x Hx. apply in_map_iff in Hx. destruct Hx as ([j|] & <- & Hj); [|auto]. right. destruct (J j Hj) as (t & Ht & At). destruct (var_at T s G n j t IV Ht) as (_ & VF). exact (proj1 (assignable_fits _ _ _ _ _ _ At VF eq_refl)). }
    destruct (refill_ok lib_env (lib_flat lib_env eq_refl) (lib_nodup lib_env eq_refl) T (c_heap s) m xs ws u OK AG TM Hm U WS) as [OK1 AG1].
    do 2 eexists. exists T. split; [reflexivity|]. split; [reflexivity|]. split; cbn [set_heap c_heap c_stat c_vars c_bufs]; auto.
    - intros l vs Hl. destruct (Nat.eq_dec l m) as [->|N]; [rewrite upd_at in Hl by (eapply nth_lt; eauto); injection Hl as <-; unfold ws; now rewrite map_length|]. rewrite upd_off in Hl by exact N. eauto.
    - eapply pairs_impl; [|exact VS]. intros y t (Y1 & Y2 & Y3 & Y4). split; [exact Y1|]. split; [exact Y2|]. split; [|exact Y4].
      apply (fits_refill lib_env (c_heap s) m xs ws u OK Hm U WS); [now apply flat_iff| |exact Y3]. intros w Hw Hy. rewrite <- (Y4 w m Hw Hy). exact TM.
  Qed.
  Lemma step_elem T s G n d i z u : inv T s G n -> nth_error G i = Some (TList u) -> goes T s d (OElem i z) (G ++ [u]) n.
  Proof.
    intros IV Hi. destruct (var_at T s G n i _ IV Hi) as (TY & _ & FL & F & D). cbn [snd] in F, D. unfold goes. cbn [client_step]. rewrite TY.
    assert (U : forall w, u <> TList w) by (intros w ->; exact FL). assert (FU : Client.flat u) by (destruct u; try exact I; now destruct (U u)).
    assert (DF : inv T (push s u (hdefault u)) (G ++ [u]) n) by (apply pushed; [exact IV|now apply default_vfits]).
    destruct (fits_list _ _ _ F) as [Q|(m & xs & Q & Hm & X)]; rewrite Q; [do 3 eexists; split; [reflexivity|]; split; [cbn; tauto|exact DF]|]. rewrite Hm.
    destruct (z <? 0); [do 3 eexists; split; [reflexivity|]; split; [cbn; tauto|exact DF]|]. destruct (nth_error xs (Z.to_nat z)) as [v|] eqn:Hv; [|do 3 eexists; split; [reflexivity|]; split; [cbn; tauto|exact DF]].
    destruct (X v (nth_error_In _ _ Hv)) as [->|FV].
    - destruct (boxed u) eqn:B; [do 3 eexists; split; [reflexivity|]; split; [cbn; tauto|exact DF]|]. do 2 eexists. exists T. split; [reflexivity|]. split; [cbn; eexists; eauto|]. apply pushed; [exact IV|].
      split; [reflexivity|]. split; [exact FU|]. split; [destruct u; try discriminate; exact I|discriminate].
    - assert (VF : inv T (push s u v) (G ++ [u]) n) by (apply pushed; [exact IV|]; split; [reflexivity|]; split; [exact FU|]; split; [exact FV|]; intros w m' ->; now destruct (U w)).
      destruct v; try (do 2 eexists; exists T; split; [reflexivity|]; split; [cbn; eexists; eauto|exact VF]).
      destruct (boxed u) eqn:B; [do 3 eexists; split; [reflexivity|]; split; [cbn; tauto|exact DF]|]. do 2 eexists. exists T. split; [reflexivity|]. split; [cbn; eexists; eauto|exact VF].
  Qed.
  Lemma step_cast T s G n d c i t : inv T s G n -> nth_error G i = Some t -> receiver t -> goes T s d (OCast c i) (G ++ [TObj c]) n.
  Proof.
    intros IV Hi Rt. unfold goes. cbn [client_step]. do 2 eexists. exists T. split; [reflexivity|]. split; [cbn; eexists; eauto|]. apply pushed; [exact IV|]. split; [reflexivity|]. split; [exact I|]. split; [|discriminate]. cbn [snd].
    destruct (String.eqb_spec (class_of (c_heap s) (var s i)) c) as [Q|]; [|exact I]. destruct (receives T s G n i t IV Hi Rt) as [Z|(l & c' & fs & Z & Hl)]; rewrite Z in *; [exact I|]. cbn [class_of] in Q. rewrite Hl in Q. subst c'. cbn. eauto.
  Qed.
  Lemma step_get T s G n d i f c cd t : inv T s G n -> nth_error G i = Some (TObj c) -> assoc c lib_classes = Some cd -> In (f, t) (c_fields cd) -> goes T s d (OGet i f) (G ++ [t]) n.
  Proof.
    intros IV Hi A If. pose proof IV as [OK SM (R & W & V & RN) AG VS BS CN]. destruct (var_at T s G n i _ IV Hi) as (TY & _ & _ & F & _). cbn [snd] in F. unfold goes. cbn [client_step]. rewrite TY, A.
    pose proof (lib_nodup lib_env eq_refl c cd A) as Nd. pose proof (ClientFacts.field_in cd f t Nd If) as As. rewrite (assoc_type_of _ _ _ As).
    assert (FT : Client.flat t). { apply flat_iff. pose proof (lib_flat lib_env eq_refl c cd A) as B. rewrite forallb_forall in B. exact (B (f, t) If). }
    pose proof (settle_wf _ (buf_at T s G n (List.length (c_bufs s)) IV)) as WB. pose proof (default_vfits (c_heap s) T t FT) as DF.
    unfold perform. destruct (var s i) as [| | | |l]; cbn in F; try contradiction; cbn [send].
    - do 3 eexists. split; [reflexivity|]. split; [cbn; tauto|]. eapply quiet_call; eauto.
    - destruct F as (fs & Hl). destruct d as [|d]; [rewrite overflow; do 3 eexists; split; [reflexivity|]; split; [cbn; tauto|]; eapply quiet_call; eauto|].
      rewrite (get_runs pr k d (c_stat s) R W V (c_heap s) l c cd fs f t _ K RN Hl A If). do 3 eexists. split; [reflexivity|]. split; [cbn; eexists; eauto|]. eapply quiet_call; [exact IV|exact WB| |reflexivity]. constructor; [|constructor].
      split; [reflexivity|]. split; [exact FT|]. cbn [snd]. rewrite (field_at _ _ f _ _ Hl). split; [exact (known_field lib_env (c_heap s) l c cd fs f t OK Hl A As)|].
      intros u m -> Hm. apply (AG l c fs cd f u m Hl A As). destruct (OK l c fs Hl) as (cd' & A' & F2). rewrite A in A'. injection A' as <-.
      clear - As Hm F2. induction F2 as [|[g v] [g' w] fs F [H1 H2] HF IH]; cbn [hget assoc fst snd] in *; [discriminate|]. subst g'. destruct (String.eqb_spec f g) as [->|]; [rewrite Hm; now left|]. right. auto.
  Qed.
  Lemma step_set T s G n d i f j c cd t u : inv T s G n -> nth_error G i = Some (TObj c) -> assoc c lib_classes = Some cd -> In (f, u) (c_fields cd) -> nth_error G j = Some t -> assignable t u -> goes T s d (OSet i f j) G n.
  Proof.
    intros IV Hi A If Hj At. pose proof IV as [OK SM (R & W & V & RN) AG VS BS CN]. destruct (var_at T s G n i _ IV Hi) as (_ & _ & _ & F & _). cbn [snd] in F. destruct (var_at T s G n j _ IV Hj) as (_ & VJ).
    destruct (assignable_fits _ _ _ _ _ _ At VJ eq_refl) as [FJ DJ]. cbn [snd] in FJ, DJ. unfold goes. cbn [client_step].
    pose proof (ClientFacts.field_in cd f u (lib_nodup lib_env eq_refl c cd A) If) as As. pose proof (settle_wf _ (buf_at T s G n (List.length (c_bufs s)) IV)) as WB.
    unfold perform. destruct (var s i) as [| | | |l]; cbn in F; try contradiction; cbn [send].
    - do 3 eexists. split; [reflexivity|]. split; [cbn; tauto|]. apply plain_none. exact IV.
    - destruct F as (fs & Hl). destruct d as [|d]; [rewrite overflow; do 3 eexists; split; [reflexivity|]; split; [cbn; tauto|]; apply plain_none; exact IV|].
      unfold jvar. rewrite (set_runs pr k d (c_stat s) R W V (c_heap s) l c cd fs f u _ (var s j) _ K RN Hl A If FJ). do 3 eexists. split; [reflexivity|]. split; [reflexivity|].
      eapply after_call; [exact IV|exact (put_ok lib_env _ l c fs cd f u _ OK Hl A As FJ)|apply small_put; exact SM| |apply keeps_put|apply later_refl|eauto|exact WB|constructor|now rewrite app_nil_r].
      apply (agreed_put lib_env (lib_nodup lib_env eq_refl) T (c_heap s) l c fs cd f (var s j) OK Hl A AG). intros w m Hm Q. rewrite As in Q. injection Q as ->. exact (DJ w m eq_refl Hm).
  Qed.
  Lemma step_buf T s G n d b : inv T s G n -> buf_wf b = true -> goes T s d (OBuf b) G (S n).
  Proof.
    intros [OK SM RN AG VS BS CN] Hb. do 2 eexists. exists T. split; [reflexivity|]. split; [reflexivity|]. split; cbn [set_bufs c_heap c_stat c_vars c_bufs]; auto.
    - apply Forall_app. split; [exact BS|]. constructor; [exact Hb|constructor].
    - rewrite app_length, CN. cbn. lia.
  Qed.
  Lemma step_touch T s G n d m b : inv T s G n -> buf_wf b = true -> goes T s d (OTouch m b) G n.
  Proof.
    intros [OK SM RN AG VS BS CN] Hb. do 2 eexists. exists T. split; [reflexivity|]. split; [reflexivity|]. split; cbn [set_bufs c_heap c_stat c_vars c_bufs]; auto; [now apply upd_forall|now rewrite upd_length].
  Qed.
  Lemma quiet_none T s G n m b1 : inv T s G n -> buf_wf (settle b1) = true -> inv T {| c_heap := c_heap s; c_stat := c_stat s; c_vars := c_vars s ++ []; c_bufs := upd (c_bufs s) m (settle b1) |} G n.
  Proof. intros IV WB. eapply quiet_call; [exact IV|exact WB|constructor|now rewrite app_nil_r]. Qed.
  Lemma step_encode T s G n d i m t : inv T s G n -> nth_error G i = Some t -> receiver t -> goes T s d (OEncode i m) G n.
  Proof.
    intros IV Hi Rt. pose proof IV as [OK SM (R & W & V & RN) AG VS BS CN]. pose proof (buf_at T s G n m IV) as Hb. unfold goes. cbn [client_step]. unfold perform.
    destruct (receives T s G n i t IV Hi Rt) as [->|(l & c & fs & -> & Hl)]; cbn [send].
    - do 3 eexists. split; [reflexivity|]. split; [cbn; tauto|]. apply quiet_none; [exact IV|now apply settle_wf].
    - pose proof (encode_state T s G n d l c fs m IV Hl R W) as ES. rewrite (encode_runs pr k d (c_stat s) R W V (c_heap s) l c (buf s m) K RN OK SM (object_fits _ _ _ _ Hl) Hb).
      destruct (hencode (holding R W) d (c_heap s) (HRef l) (buf s m)) as [[e h1] b1]. destruct ES as (EX & OK1 & SM1 & AG1 & KE & WB).
      assert (IV1 : inv T {| c_heap := h1; c_stat := c_stat s; c_vars := c_vars s ++ []; c_bufs := upd (c_bufs s) m (settle b1) |} G n)
        by (eapply after_call; [exact IV|exact OK1|exact SM1|exact AG1|exact KE|apply later_refl|eauto|now apply settle_wf|constructor|now rewrite app_nil_r]).
      destruct e as [x|]; cbn [ends]; do 3 eexists; (split; [reflexivity|]); (split; [|exact IV1]); [|reflexivity]. cbn. destruct EX as [Q|[Q|[Q|Q]]]; try discriminate; injection Q as ->; tauto.
  Qed.
  Lemma step_decode T s G n d i m t : inv T s G n -> nth_error G i = Some t -> receiver t -> goes T s d (ODecode i m) G n.
  Proof.
    intros IV Hi Rt. pose proof IV as [OK SM (R & W & V & RN) AG VS BS CN]. pose proof (buf_at T s G n m IV) as Hb. unfold goes. cbn [client_step]. unfold perform.
    destruct (receives T s G n i t IV Hi Rt) as [->|(l & c & fs & -> & Hl)]; cbn [send].
    - do 3 eexists. split; [reflexivity|]. split; [cbn; tauto|]. apply quiet_none; [exact IV|now apply settle_wf].
    - pose proof (decode_state T s G n d l c fs m R W V _ IV Hl RN) as DS. rewrite (decode_runs pr k d (c_stat s) R W V (c_heap s) l c (buf s m) K RN OK (object_fits _ _ _ _ Hl) Hb).
      destruct (hdecode (holding R W) d (c_heap s) (HRef l) (buf s m)) as [[e h1] b1]. destruct DS as (EX & OK1 & SM1 & KE & WB & T' & AG1 & L).
      assert (IV1 : inv T' {| c_heap := h1; c_stat := c_stat s; c_vars := c_vars s ++ []; c_bufs := upd (c_bufs s) m (settle b1) |} G n)
        by (eapply after_call; [exact IV|exact OK1|exact SM1|exact AG1|exact KE|exact L|eauto|exact WB|constructor|now rewrite app_nil_r]).
      destruct e as [x|]; cbn [ends]; do 3 eexists; (split; [reflexivity|]); (split; [|exact IV1]); [|reflexivity]. cbn. destruct EX as [Q|[Q|[Q|Q]]]; try discriminate; injection Q as ->; tauto.
  Qed.
  Lemma step_equals T s G n d i j t u : inv T s G n -> nth_error G i = Some t -> receiver t -> nth_error G j = Some u -> goes T s d (OEquals i j) G n.
  Proof.
    intros IV Hi Rt Hj. pose proof IV as [OK SM (R & W & V & RN) AG VS BS CN]. destruct (enough_1 k K) as (k' & Ek). destruct (var_at T s G n j _ IV Hj) as (_ & _ & _ & FJ & _). cbn [snd] in FJ. unfold goes. cbn [client_step]. unfold perform.
    destruct (receives T s G n i t IV Hi Rt) as [->|(l & c & fs & -> & Hl)]; cbn [send].
    - do 3 eexists. split; [reflexivity|]. split; [cbn; tauto|]. apply plain_none. exact IV.
    - assert (NN : forall m, var s j = HRef m -> nth_error (c_heap s) m <> None) by (intros m Hm; apply nth_error_Some; eapply ref_bound; eauto).
      unfold invoke. rewrite Ek. unfold at_rest. change {| s_h := c_heap s; s_b := ?b; s_loc := []; s_stat := c_stat s |} with (mk (c_stat s) (c_heap s) b []).
      rewrite (JavaLibrary.lib_equals (holding R W) (c_stat s) (running_world _ _ _ _ RN) pr k' d (c_heap s) l (var s j) _ [] OK (object_codec _ _ _ _ Hl) NN).
      destruct (hequals (holding R W) d (c_heap s) (HRef l) (var s j)) as [r|]; cbn [says]; do 3 eexists; (split; [reflexivity|]); (split; [|apply plain_none; exact IV]); [cbn; eauto|cbn; tauto].
  Qed.
  Lemma step_hash T s G n d i t : inv T s G n -> nth_error G i = Some t -> receiver t -> goes T s d (OHash i) (G ++ [TInt]) n.
  Proof.
    intros IV Hi Rt. pose proof IV as [OK SM (R & W & V & RN) AG VS BS CN]. destruct (enough_1 k K) as (k' & Ek). unfold goes. cbn [client_step]. unfold perform.
    pose proof (settle_wf _ (buf_at T s G n (List.length (c_bufs s)) IV)) as WB. pose proof (default_vfits (c_heap s) T TInt Logic.I) as DF.
    destruct (receives T s G n i t IV Hi Rt) as [->|(l & c & fs & -> & Hl)]; cbn [send].
    - do 3 eexists. split; [reflexivity|]. split; [cbn; tauto|]. eapply quiet_call; eauto.
    - unfold invoke. rewrite Ek. unfold at_rest. change {| s_h := c_heap s; s_b := ?b; s_loc := []; s_stat := c_stat s |} with (mk (c_stat s) (c_heap s) b []).
      rewrite (JavaLibrary.lib_hash (holding R W) (c_stat s) (running_world _ _ _ _ RN) pr k' d (c_heap s) l _ [] OK (object_codec _ _ _ _ Hl)).
      destruct (hhash (holding R W) d (c_heap s) (HRef l)) as [z|] eqn:Q; cbn [says]; do 3 eexists; (split; [reflexivity|]).
      + pose proof (hash_range _ _ _ _ _ Q) as RZ. split; [cbn; unfold java_int, jint; eauto|]. eapply quiet_call; [exact IV|exact WB| |reflexivity]. constructor; [|constructor]. now apply int_vfits.
      + split; [cbn; tauto|]. eapply quiet_call; eauto.
  Qed.
  Lemma step_string T s G n d i t : inv T s G n -> nth_error G i = Some t -> receiver t -> goes T s d (OString i) (G ++ [TStr]) n.
  Proof.
    intros IV Hi Rt. pose proof IV as [OK SM (R & W & V & RN) AG VS BS CN]. destruct (enough_1 k K) as (k' & Ek). unfold goes. cbn [client_step]. unfold perform.
    pose proof (settle_wf _ (buf_at T s G n (List.length (c_bufs s)) IV)) as WB. pose proof (default_vfits (c_heap s) T TStr Logic.I) as DF.
    destruct (receives T s G n i t IV Hi Rt) as [->|(l & c & fs & -> & Hl)]; cbn [send].
    - do 3 eexists. split; [reflexivity|]. split; [cbn; tauto|]. eapply quiet_call; eauto.
    - unfold invoke. rewrite Ek. unfold at_rest. change {| s_h := c_heap s; s_b := ?b; s_loc := []; s_stat := c_stat s |} with (mk (c_stat s) (c_heap s) b []).
      rewrite (JavaLibrary.lib_string (holding R W) (c_stat s) (running_world _ _ _ _ RN) pr k' d (c_heap s) l _ [] OK (object_codec _ _ _ _ Hl)).
      destruct (hstring (holding R W) pr d (c_heap s) (HRef l)) as [z|] eqn:Q; cbn [says]; do 3 eexists; (split; [reflexivity|]).
      + pose proof (string_units (holding R W) pr PR (c_heap s) OK d _ _ Q) as RZ. split; [cbn; eauto|]. eapply quiet_call; [exact IV|exact WB| |reflexivity]. constructor; [|constructor]. now apply str_vfits.
      + split; [cbn; tauto|]. eapply quiet_call; eauto.
  Qed.
  Lemma step_calc T s G n d c m : inv T s G n -> In c calc_classes -> goes T s d (OCalc c m) (G ++ [TInt]) n.
  Proof.
    intros IV Hc. pose proof IV as [OK SM (R & W & V & RN) AG VS BS CN]. pose proof (buf_at T s G n m IV) as Hb. unfold goes. cbn [client_step]. unfold perform.
    destruct (C75_services pr k d (c_stat s) R W V (c_heap s) (buf s m) K RN Hb) as (S1 & (z2 & S2 & _ & R2) & S3 & S4).
    assert (Q : exists z, invoke_on pr k d c "calc"%string [JBuf] (at_rest (c_heap s) (buf s m) (c_stat s)) = Ret (jint z) (at_rest (c_heap s) (buf s m) (c_stat s)) /\ - 2 ^ 31 <= z < 2 ^ 31).
    { destruct (C13_crc16_is_modbus (buf s m) Hb) as [E1 R1]. rewrite E1 in R1. pose proof (Z.mod_pos_bound (sum_bytes (readable (buf s m))) 256 ltac:(lia)) as R3. cbn [calc_classes In] in Hc. destruct Hc as [<-|[<-|[<-|[<-|[]]]]]; eexists; split; eauto; lia. }
    destruct Q as (z & -> & RZ). do 3 eexists. split; [reflexivity|]. split; [cbn; unfold java_int, jint; eauto|]. eapply quiet_call; [exact IV|now apply settle_wf| |reflexivity]. constructor; [|constructor]. now apply int_vfits.
  Qed.
  Lemma from_value_iae ts z e : from_value ts z = inl e -> e = IAE.
  Proof. induction ts as [|[a t] ts IH]; cbn; [congruence|]. destruct (t =? z); [discriminate|exact IH]. Qed.
  Lemma step_call T s G n d x : inv T s G n -> sensible x -> goes T s d (OCall x) (match x with CCreate _ _ => G ++ [TCodec] | _ => G end) n.
  Proof.
    intros IV SX. pose proof IV as [OK SM (R & W & V & RN) AG VS BS CN]. unfold goes. cbn [client_step]. unfold perform.
    pose proof (buf_at T s G n (List.length (c_bufs s)) IV) as Hb. pose proof (settle_wf _ Hb) as WB.
    destruct (one_call pr k d x (c_stat s) R W V (c_heap s) (buf s (List.length (c_bufs s))) [] K RN SX) as (r & h1 & stat1 & Q & A & RN1). unfold at_rest. rewrite Q.
    assert (RUN : exists R W V, running stat1 R W V) by (destruct (JavaRun.after x (R, W, V)) as [[R1 W1] V1]; eauto).
    assert (SAME : (match x with CCreate _ _ => False | _ => True end) -> h1 = c_heap s /\ may (match x with CCreate _ _ | CFromValue _ => [IAE] | _ => [] end) (fun _ => True) r).
    { intros NC. destruct x; cbn [answers] in A; try contradiction.
      1: destruct A as (-> & v & -> & _). 2-4,5,7: destruct A as [-> ->].
      all: try (split; [reflexivity|exact Logic.I]).
      - destruct (hkey_of x); [|contradiction]. destruct A as [-> ->]. split; [reflexivity|exact Logic.I].
      - destruct A as (-> & t & ->). split; [reflexivity|exact Logic.I].
      - destruct A as (-> & ->). split; [reflexivity|]. destruct (from_value _ _) as [e|] eqn:FV; [|exact Logic.I]. apply from_value_iae in FV. subst e. cbn. tauto. }
    destruct (match x with CCreate _ _ => true | _ => false end) eqn:CC.
    - destruct x; try discriminate. clear SAME. cbn [answers] in A.
      assert (B : (h1 = c_heap s /\ r = inl IAE) \/ exists c t, h1 = fst (hnew (holding R W) (c_heap s) c) /\ r = inr (JT t (snd (hnew (holding R W) (c_heap s) c)))).
      { destruct (hkey_of x) as [y|]; [|left; tauto]. unfold create in A. destruct (f_get _ y) as [c|]; [|left; tauto]. right. exists c. change (env_of lib_classes W R) with (holding R W) in A. destruct (hnew (holding R W) (c_heap s) c) as [h2 o]. destruct A as (-> & t & ->). eauto. }
      destruct B as [[-> ->]|(c & t & -> & ->)]; cbn [s_h s_stat s_b].
      + do 3 eexists. split; [reflexivity|]. split; [cbn; tauto|]. eapply after_call; [exact IV|exact OK|exact SM|exact AG|apply keeps_refl|apply later_refl|exact RUN|exact WB| |reflexivity]. constructor; [|constructor]. now apply default_vfits.
      + do 3 eexists. split; [reflexivity|]. split; [exact Logic.I|]. destruct (new_ok (holding R W) (c_heap s) c OK) as (OK1 & KE & F).
        eapply after_call; [exact IV|exact OK1|exact (small_new (holding R W) (c_heap s) c SM)|exact (agreed_new (holding R W) T (c_heap s) c AG)|exact KE|apply later_refl|exact RUN|exact WB| |reflexivity].
        constructor; [|constructor]. split; [reflexivity|]. split; [exact Logic.I|]. split; [|discriminate]. cbn [snd]. destruct (snd (hnew (holding R W) (c_heap s) c)); cbn in F |- *; try contradiction; auto. destruct F as (fs & F). eauto.
    - destruct (SAME ltac:(destruct x; [exact Logic.I..|discriminate|exact Logic.I|exact Logic.I|exact Logic.I|exact Logic.I|exact Logic.I])) as [-> MY].
      assert (ST : inv T {| c_heap := c_heap s; c_stat := stat1; c_vars := c_vars s ++ []; c_bufs := upd (c_bufs s) (List.length (c_bufs s)) (settle (buf s (List.length (c_bufs s)))) |} G n)
        by (eapply after_call; [exact IV|exact OK|exact SM|exact AG|apply keeps_refl|apply later_refl|exact RUN|exact WB|constructor|now rewrite app_nil_r]).
      assert (NT : (match x with CCreate _ _ => Some TCodec | _ => None end) = None) by (destruct x; congruence). assert (NG : (match x with CCreate _ _ => G ++ [TCodec] | _ => G end) = G) by (destruct x; congruence).
      rewrite NT, NG. destruct r as [e|v]; do 3 eexists; (split; [reflexivity|]); (split; [exact MY|exact ST]).
  Qed.

  Theorem client_goes T s G n d o G' n' : inv T s G n -> accepts G n o G' n' -> goes T s d o G' n'.
  Proof.
    intros IV A. destruct A; eauto using step_value, step_new, step_list, step_fill, step_elem, step_cast, step_get, step_set, step_buf, step_touch, step_encode, step_decode, step_equals, step_hash, step_string, step_calc, step_call.
  Qed.
  Theorem client_runs p G n G' n' : accepted p G n G' n' -> forall T s, inv T s G n -> exists xs s' T', client_run pr k p s = Some (xs, s') /\ Forall2 (fun o x => outcome (snd o) x) p xs /\ inv T' s' G' n'.
  Proof.
    induction 1 as [G n|d o p G n G1 n1 G2 n2 A _ IH]; intros T s IV; [exists [], s, T; repeat split; auto; apply IV|]. destruct (client_goes T s G n d o G1 n1 IV A) as (x & s1 & T1 & Q & O & IV1).
    destruct (IH T1 s1 IV1) as (xs & s2 & T2 & Q2 & O2 & IV2). cbn [client_run]. rewrite Q, Q2. exists (x :: xs), s2, T2. split; [reflexivity|]. split; [constructor; auto|exact IV2].
  Qed.
End Step.

(* ---- C81 ---- *)
(* The classes have been initialised.  A program makes any calls that javac accepts, in any order, with any stack depth left for each.  Then every call returns a value of its type or throws one of the
   exceptions named in [outcome] (Client.v); afterwards every variable holds a value of its type, no object, list or buffer is broken, and registry and factories hold what the calls made of them.
   So the hypotheses of C77 to C80 hold in every state a program can reach. *)
Theorem C81_clients_do_not_go_wrong : forall pr k p G n b vcall stat, enough k -> prints pr -> accepted p [] 0 G n ->
  init_all lib_program pr vcall 304 (at_rest [] b (start_stat lib_program)) = Ret tt (at_rest [] b stat) ->
  exists xs s, client_run pr k p {| c_heap := []; c_stat := stat; c_vars := []; c_bufs := [] |} = Some (xs, s) /\ Forall2 (fun o x => outcome (snd o) x) p xs /\ in_order s G n.
Proof.
  intros pr k p G n b vcall stat K PR A HI. destruct (C73_classes_initialise pr vcall [] b) as (stat' & HI' & RN). rewrite HI in HI'. injection HI' as <-.
  assert (I0 : inv (fun _ => TStr) {| c_heap := []; c_stat := stat; c_vars := []; c_bufs := [] |} [] 0).
  { split; cbn [c_heap c_stat c_vars c_bufs]; auto; [intros [|l] c fs H; discriminate|intros [|l] vs H; discriminate|eauto|intros [|l] c fs cd f u m H; discriminate]. }
  destruct (client_runs pr k K PR p [] 0%nat G n A (fun _ => TStr) _ I0) as (xs & s & T & Q & O & IV). exists xs, s. split; [exact Q|]. split; [exact O|]. eapply inv_in_order; eauto.
Qed.
(* a program can be continued: what it did before does not matter *)
Lemma run_app pr k p1 : forall p2 s, client_run pr k (p1 ++ p2) s = match client_run pr k p1 s with Some (xs, s1) => match client_run pr k p2 s1 with Some (ys, s2) => Some (xs ++ ys, s2) | None => None end | None => None end.
Proof.
  induction p1 as [|[d o] p1 IH]; intros p2 s; cbn [app client_run]; [destruct (client_run pr k p2 s) as [[ys s2]|]; reflexivity|]. destruct (client_step pr k d o s) as [[x s1]|]; [|reflexivity]. rewrite IH.
  destruct (client_run pr k p1 s1) as [[xs s2]|]; [|reflexivity]. destruct (client_run pr k p2 s2) as [[ys s3]|]; reflexivity.
Qed.

(* ---- C82 ---- *)
(* After any calls: a message whose parts are its own, written to an empty buffer with enough room and read back into a new object, equals the copy, and the copy equals it. *)
Lemma equal_here pr k d stat R W V h l w r b b' : enough k -> running stat R W V -> heap_ok lib_classes h -> (exists c fs, nth_error h l = Some (CObj c fs)) -> (forall m, w = HRef m -> nth_error h m <> None) ->
  invoke pr k d l "equals"%string [JT (T1 "Object") w] (at_rest h b stat) = Ret (JB r) (at_rest h b stat) -> invoke pr k d l "equals"%string [JT (T1 "Object") w] (at_rest h b' stat) = Ret (JB r) (at_rest h b' stat).
Proof.
  intros K Rn OK O NN. destruct (enough_1 k K) as (k' & ->). assert (J := fun b => JavaLibrary.lib_equals (holding R W) stat (running_world _ _ _ _ Rn) pr k' d h l w b [] OK O NN). unfold invoke, at_rest in *. cbn [classes] in J. unfold mk in J. rewrite !J.
  destruct (hequals _ _ _ _ _); cbn [says]; [|discriminate]. intros [= ->]. reflexivity.
Qed.
Lemma nth_upd {A} (l : list A) : forall n x y, (n < List.length l)%nat -> nth n (upd l n x) y = x.
Proof. induction l as [|a l IH]; intros [|n] x y L; cbn in *; try lia; auto. apply IH. lia. Qed.
Lemma upd_none {A} (l : list A) : forall n x, (List.length l <= n)%nat -> upd l n x = l.
Proof. induction l as [|a l IH]; intros [|n] x L; cbn in *; auto; try lia. f_equal. apply IH. lia. Qed.
Lemma answering pr k d l m args h b stat v s : invoke pr k d l m args (at_rest h b stat) = Ret v s -> exists c gs, nth_error h l = Some (CObj c gs).
Proof.
  destruct d as [|d]; [rewrite overflow; intros [=]|]. unfold invoke. cbn [vcalls]. change (s_h (at_rest h b stat)) with h. destruct (nth_error h l) as [[c gs|vs]|]; [intros _; eauto|intros [=]|intros [=]].
Qed.
Theorem C82_copies_in_programs : forall pr k p G n b vcall stat xs s i m c l t fp d R W V, enough k -> prints pr -> accepted p [] 0 G n ->
  init_all lib_program pr vcall 304 (at_rest [] b (start_stat lib_program)) = Ret tt (at_rest [] b stat) ->
  let start := {| c_heap := []; c_stat := stat; c_vars := []; c_bufs := [] |} in
  client_run pr k p start = Some (xs, s) -> nth_error G i = Some (TObj c) -> var s i = HRef l -> owns (c_heap s) (HRef l) t fp -> (m < n)%nat -> readable (buf s m) = [] -> running (c_stat s) R W V ->
  complete Y t (WObj c) = true -> parsable Y (factory (holding R W)) t (WObj c) = true -> canonical Y t (WObj c) = true -> exact_form Y t (WObj c) = true ->
  Buffers.fits (buf s m) (List.length (ser Y (fill_in Y (checksum (holding R W)) [] t (WObj c)) (WObj c))) -> (nesting t <= d)%nat ->
  let copy := List.length G in
  exists v s', client_run pr k (p ++ [(d, OEncode i m); (d, ONew c); (d, ODecode copy m); (d, OEquals i copy); (d, OEquals copy i)]) start = Some (xs ++ [inr JVoid; inr v; inr JVoid; inr (JB true); inr (JB true)], s').
Proof.
  intros pr k p G n b vcall stat xs s i m c l t fp d R W V K PR A HI start Q Hi Vi Ow Lm Re Rn Cm Pa Ca Ex Fi Hn copy.
  destruct (C81_clients_do_not_go_wrong pr k p G n b vcall stat K PR A HI) as (xs' & s' & Q' & _ & OK & SM & _ & VS & BS & CN). fold start in Q'. rewrite Q in Q'. injection Q' as <- <-.
  assert (Hb : buf_wf (buf s m) = true) by (rewrite Forall_forall in BS; apply BS; unfold buf; apply nth_In; lia).
  assert (LV : List.length (c_vars s) = List.length G) by (clear - VS; induction VS; cbn; congruence).
  assert (F : Sharing.fits (c_heap s) (HRef l) (TObj c)).
  { assert (Z : forall xs G i, Forall2 (fun x t => fst x = t /\ Sharing.fits (c_heap s) (snd x) t) xs G -> nth_error G i = Some (TObj c) -> exists v, nth_error xs i = Some (TObj c, v) /\ Sharing.fits (c_heap s) v (TObj c)).
    { clear. intros xs G i H. revert i. induction H as [|[u v] t xs G [H1 H2] H IH]; intros [|i] E; try discriminate; cbn in *; [injection E as ->; subst u; eauto|auto]. }
    destruct (Z _ _ i VS Hi) as (v & Hv & Fv). unfold var in Vi. rewrite Hv in Vi. now subst v. }
  assert (Re' : fill_in Y (checksum (holding R W)) (readable (buf s m)) t (WObj c) = fill_in Y (checksum (holding R W)) [] t (WObj c)) by now rewrite Re. rewrite <- Re' in Fi.
  rewrite run_app, Q. cbn [client_run client_step]. unfold perform at 1. rewrite Vi. cbn [send].
  destruct (C77_encode pr k d (c_stat s) R W V (c_heap s) l c t (buf s m) K Rn OK SM F (proj1 (owns_shows _) _ _ _ Ow) Hb) as (e0 & h0 & b0 & J0 & OK0 & F0 & Wb0 & _). cbv zeta in *.
  assert (CE := fun b2 rest => C80_copy_equals pr k d (c_stat s) R W V (c_heap s) l c t (buf s m) b2 rest fp K Rn OK SM F Ow Hb Cm Pa Ca Ex Fi Hn).
  destruct (CE b0 []) as (h1 & b1 & bs & J & Ap & RT). rewrite J in J0. destruct e0; [discriminate|]. injection J0 as <- <-. clear CE.
  assert (Rb : readable b1 = bs ++ []) by (rewrite app_nil_r, (appended_readable _ _ _ (proj1 (buf_wf_iff _) Hb) Ap), Re; reflexivity).
  destruct (RT Wb0 Rb) as (l2 & h3 & h4 & b4 & CN2 & DE & NE & E1 & E2 & _). clear RT.
  destruct (object_class_of _ l c OK F) as (cd & Hc). destruct (makes_new (c_stat s) R W V c cd h1 b1 Rn Hc) as [CN3 _]. rewrite CN2 in CN3. injection CN3 as -> H3. 
  rewrite J. cbn [s_h s_stat s_b at_rest]. rewrite (settle_id b1 Wb0), app_nil_r.
  set (s1 := {| c_heap := h1; c_stat := c_stat s; c_vars := c_vars s; c_bufs := upd (c_bufs s) m b1 |}). unfold perform at 1. cbn [c_heap c_stat c_vars c_bufs s1].
  destruct (makes_new (c_stat s) R W V c cd h1 (buf s1 (List.length (upd (c_bufs s) m b1))) Rn Hc) as [CN4 _]. rewrite CN4. clear CN4. cbn [s_h s_stat s_b at_rest]. rewrite <- H3.
  rewrite upd_none by lia. set (s2 := {| c_heap := h3; c_stat := c_stat s; c_vars := c_vars s ++ [(TObj c, HRef (List.length h1))]; c_bufs := upd (c_bufs s) m b1 |}).
  assert (V2 : var s2 copy = HRef (List.length h1)) by (unfold var, copy; cbn [c_vars s2]; rewrite <- LV, nth_error_app2 by lia; now rewrite Nat.sub_diag).
  assert (B2 : buf s2 m = b1) by (unfold buf; cbn [c_bufs s2]; apply nth_upd; lia).
  unfold perform at 1. rewrite V2, B2. cbn [send c_heap c_stat c_vars c_bufs s2]. rewrite DE. cbn [s_h s_stat s_b at_rest]. rewrite app_nil_r.
  set (s3 := {| c_heap := h4; c_stat := c_stat s; c_vars := c_vars s ++ [(TObj c, HRef (List.length h1))]; c_bufs := upd (upd (c_bufs s) m b1) m (settle b4) |}).
  assert (V3 : var s3 copy = HRef (List.length h1)) by exact V2.
  assert (V3' : var s3 i = HRef l). { unfold var in Vi |- *. cbn [c_vars s3]. rewrite nth_error_app1; [exact Vi|]. rewrite LV. apply nth_error_Some. congruence. }
  assert (OK4 : heap_ok lib_classes h4).
  { pose proof (decode_runs pr k d (c_stat s) R W V h3 (List.length h1) c b1 K Rn) as DR. destruct (new_ok (holding R W) h1 c OK0) as (OK3 & _ & F3). rewrite <- H3 in OK3, F3.
    destruct (makes_new (c_stat s) R W V c cd h1 b1 Rn Hc) as [_ HN]. rewrite HN in F3. rewrite (DR OK3 F3 Wb0) in DE. pose proof (C63_decode_keeps_types (holding R W) d h3 (HRef (List.length h1)) b1 eq_refl OK3 Wb0) as KT.
    destruct (hdecode (holding R W) d h3 (HRef (List.length h1)) b1) as [[[x|] hh] bb]; cbn [ends] in DE; [discriminate|]. injection DE as -> _. exact KT. }
  assert (O1 : exists c' gs, nth_error h4 l = Some (CObj c' gs)).
  { eapply answering; exact E2. }
  assert (O2 : exists c' gs, nth_error h4 (List.length h1) = Some (CObj c' gs)).
  { eapply answering; exact E1. }
  assert (N1 : forall q, HRef l = HRef q -> nth_error h4 q <> None) by (intros q [= <-]; destruct O1 as (c' & gs & ->); discriminate).
  assert (N2 : forall q, HRef (List.length h1) = HRef q -> nth_error h4 q <> None) by (intros q [= <-]; destruct O2 as (c' & gs & ->); discriminate).
  unfold perform at 1. rewrite V3, V3'. cbn [send c_heap c_stat c_vars c_bufs s3].
  rewrite (equal_here pr k d (c_stat s) R W V h4 l (HRef (List.length h1)) true b4 _ K Rn OK4 O1 N2 E2). cbn [s_h s_stat s_b at_rest]. rewrite app_nil_r. rewrite upd_none by lia.
  fold s3. unfold perform at 1. rewrite V3, V3'. cbn [send c_heap c_stat c_vars c_bufs s3].
  rewrite (equal_here pr k d (c_stat s) R W V h4 (List.length h1) (HRef l) true b4 _ K Rn OK4 O2 N1 E1). eauto.
Qed.

(* ---- examples ---- *)
Lemma some_prints : prints some_printers.
Proof. intros z. assert (U : units (print_bits z)) by (constructor; [lia|]; apply units_digits; constructor). split; exact U. Qed.
(* a program that fills a message, shares a part of it, encodes it, decodes it again, compares, prints, and works on registry and factories *)
Definition some_program : list (nat * op) := map (fun o => (9%nat, o))
  [ ONew "sample.NestedPacket"; ONew "sample.SubPacket"; ONewList (TObj "sample.SubPacket"); OFill 2 [Some 1%nat; Some 1%nat; None]; OSet 0 "subPacketList" 2; OSet 0 "subPacket" 1;
    OValue TInt (HInt (-5)); OSet 1 "fieldU32" 3; ONew "sample.NestedPacket.InerPacket"; OSet 0 "inerPacket" 4; OBuf used_buf; OEncode 0 0; OTouch 0 used_buf; ONew "sample.NestedPacket"; ODecode 5 0;
    OEquals 0 5; OEquals 0 3; OHash 5; OString 5; OGet 5 "subPacketList"; OElem 8 1; OGet 9 "fieldU32"; OCalc "Crc16ChecksumService" 0; OCall CClear; OCall (CGet "CRC16"); OCast "sample.SubPacket" 0; OEncode 12 0 ]%string.
Example C81_meets : exists G n, accepted some_program [] 0 G n /\ prints some_printers /\ List.length G = 13%nat.
Proof.
  do 2 eexists. split; [|split; [exact some_prints|]].
  - unfold some_program. cbn [map]. 
    repeat (eapply acc_cons; [first
      [ eapply a_value; split; [exact Logic.I|cbn; lia]
      | eapply a_new; vm_compute; discriminate
      | eapply a_list; exact Logic.I
      | eapply a_fill; [reflexivity|reflexivity|]; intros j Hj; cbn in Hj; destruct Hj as [Hj|[Hj|[Hj|[]]]]; [| |discriminate]; injection Hj as <-; eexists; (split; [reflexivity|left; reflexivity])
      | eapply a_elem; reflexivity
      | eapply a_cast; [vm_compute; discriminate|reflexivity|right; eexists; reflexivity]
      | eapply a_get; [reflexivity|vm_compute; reflexivity|cbn; tauto]
      | eapply a_set; [reflexivity|vm_compute; reflexivity|cbn; tauto|reflexivity|left; reflexivity]
      | eapply a_buf; vm_compute; reflexivity
      | eapply a_touch; [lia|vm_compute; reflexivity]
      | eapply a_encode; [reflexivity|right; eexists; reflexivity|lia]
      | eapply a_decode; [reflexivity|right; eexists; reflexivity|lia]
      | eapply a_equals; [reflexivity|right; eexists; reflexivity|reflexivity]
      | eapply a_hash; [reflexivity|right; eexists; reflexivity]
      | eapply a_string; [reflexivity|right; eexists; reflexivity]
      | eapply a_calc; [cbn; tauto|lia]
      | eapply a_call; exact Logic.I ]|]). apply acc_nil.
  - reflexivity.
Qed.
(* the smallest program after which C82 applies: a message with one field set, and an empty buffer *)
Definition short_program : list (nat * op) := [(1%nat, OBuf empty_buf); (1%nat, ONew "sse.PlatformState"%string); (1%nat, OValue TShort (HInt 7)); (1%nat, OSet 0 "platformId"%string 1)].
Definition short_heap : heap := [CObj "sse.PlatformState" [("platformId", HInt 7); ("platformState", HInt 0)]]%string.
Definition short_tree := build "sse.PlatformState" [("platformId", VInt 7)]%string.
Example C82_meets : forall pr k stat, enough k -> running stat initial_cache lib_factories (reverse_map sse_initial) ->
  accepted short_program [] 0 [TObj "sse.PlatformState"%string; TShort] 1
  /\ (exists xs, client_run pr k short_program {| c_heap := []; c_stat := stat; c_vars := []; c_bufs := [] |}
      = Some (xs, {| c_heap := short_heap; c_stat := stat; c_vars := [(TObj "sse.PlatformState"%string, HRef 0); (TShort, HInt 7)]; c_bufs := [empty_buf] |}))
  /\ owns short_heap (HRef 0) short_tree [0%nat] /\ readable empty_buf = []
  /\ (let w := WObj "sse.PlatformState" in complete Y short_tree w = true /\ parsable Y (factory (holding initial_cache lib_factories)) short_tree w = true /\ canonical Y short_tree w = true /\ exact_form Y short_tree w = true
      /\ nesting short_tree = 1%nat /\ Buffers.fits empty_buf (List.length (ser Y (fill_in Y (checksum (holding initial_cache lib_factories)) [] short_tree w) w))).
Proof.
  intros pr k stat K Rn. split; [|split; [|split; [|split; [reflexivity|]]]].
  - unfold short_program. eapply acc_cons; [eapply a_buf; vm_compute; reflexivity|]. eapply acc_cons; [eapply a_new; vm_compute; discriminate|]. eapply acc_cons; [eapply a_value; split; [exact Logic.I|cbn; lia]|].
    eapply acc_cons; [eapply a_set; [reflexivity|vm_compute; reflexivity|cbn; tauto|reflexivity|left; reflexivity]|]. apply acc_nil.
  - assert (Hc : exists cd, assoc "sse.PlatformState"%string lib_classes = Some cd) by (eexists; vm_compute; reflexivity). destruct Hc as (cd & Hc).
    set (s1 := {| c_heap := []; c_stat := stat; c_vars := []; c_bufs := [empty_buf] |}). set (h0 := [CObj "sse.PlatformState" [("platformId", HInt 0); ("platformState", HInt 0)]]%string).
    set (s2 := {| c_heap := h0; c_stat := stat; c_vars := [(TObj "sse.PlatformState"%string, HRef 0)]; c_bufs := [empty_buf] |}). set (s3 := push s2 TShort (HInt 7)).
    assert (N1 : fst (hnew (holding initial_cache lib_factories) [] "sse.PlatformState"%string) = h0) by (vm_compute; reflexivity).
    assert (S2 : exists x, client_step pr k 1 (ONew "sse.PlatformState"%string) s1 = Some (x, s2)).
    { eexists. unfold client_step, perform. change (c_heap s1) with ([] : heap). change (c_stat s1) with stat. rewrite (proj1 (makes_new stat _ _ _ "sse.PlatformState"%string cd [] _ Rn Hc)). rewrite N1. reflexivity. }
    assert (S4 : exists x s4, client_step pr k 1 (OSet 0 "platformId"%string 1) s3 = Some (x, s4) /\ s4 = {| c_heap := short_heap; c_stat := stat; c_vars := [(TObj "sse.PlatformState"%string, HRef 0); (TShort, HInt 7)]; c_bufs := [empty_buf] |}).
    { do 2 eexists. split; [|shelve]. unfold client_step, perform. change (var s3 0) with (HRef 0). unfold send. change (jvar s3 1) with (JT (type_name TShort) (HInt 7)).
      rewrite (set_runs pr k 0 stat _ _ _ (c_heap s3) 0 "sse.PlatformState"%string cd _ "platformId"%string TShort (type_name TShort) (HInt 7) _ K Rn eq_refl Hc); [|injection Hc as <-; cbn; tauto|cbn; lia]. reflexivity.
      Unshelve. reflexivity. }
    destruct S2 as (x2 & S2), S4 as (x4 & s4 & S4 & ->). eexists. unfold short_program. cbn [client_run]. change (client_step pr k 1 (OBuf empty_buf) _) with (Some (@inr exn jval JBuf, s1)). cbv beta iota. rewrite S2.
    change (client_step pr k 1 (OValue TShort (HInt 7)) s2) with (Some (@inr exn jval (JT (type_name TShort) (HInt 7)), s3)). cbv beta iota. rewrite S4. reflexivity.
  - apply (owned_owns _ 9). vm_compute. reflexivity.
  - cbv zeta. repeat (split; [vm_compute; reflexivity|]). unfold Buffers.fits. apply Z.leb_le. vm_compute. reflexivity.
Qed.
Print Assumptions C81_clients_do_not_go_wrong.
Print Assumptions C82_copies_in_programs.
