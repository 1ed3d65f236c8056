(* C86: a receiver that checks the checksum of a frame. *)
From Coq Require Import ZArith List Bool String Ascii Lia.
From Verif.Model Require Import JavaPrim ByteBuf Checksum Utf8 Codec Ast Interp Factory Show Heap GenSample GenSse GenSzse Library.
From Verif.Spec Require Import Bytes Buffers Wire Reading Layouts Equality Text Access Crc Sharing JavaState JavaRun.
From Verif.Proofs Require Import BytesFacts BufFacts CrcFacts CrcOrder CodecFacts EncodeFacts DecodeFacts DecodeRel DecodeInv HeapFacts HeapReach HeapOwn HeapDecode HeapCheck HeapFrame HeapTypes HeapEncTypes HeapUntangle Conform Messages JavaSem JavaEncode JavaValues JavaClasses JavaLibrary JavaState JavaRegistry.
From Verif.Java Require Import Lex Syntax Source Sources Sem Program.
From Verif.Props Require Import Samples ChecksumProps MessageProps ArbitraryProps FrameProps LocalProps TextProps HeapProps HeapMoreProps JavaStaticProps JavaMessageProps.
From Verif.Spec Require Import Receiver.
Import ListNotations.
Open Scope Z_scope.
Open Scope list_scope.

(* the last four bytes decode reads of a frame are its checksum *)
Lemma last_field F d owner f o alg : forall L dn os b fs n, rfields Y F d owner dn (L ++ [(f, WSum 4 o alg)]) os b None fs n ->
  exists gs m bs, fs = gs ++ [(f, VInt (get_int o bs))] /\ map fst gs = map fst L /\ n = (m + 4)%nat /\ took (adv b m) 4 bs.
Proof.
  induction L as [|[g w] L IH]; intros dn os b fs n H; cbn [app] in H; inversion H; subst.
  - match goal with H : rfields _ _ _ _ _ [] _ _ _ _ _ |- _ => inversion H; subst end. match goal with H : rfield _ _ _ _ _ _ _ _ _ _ _ |- _ => inversion H; subst end.
    match goal with H : rleaf _ _ _ _ _ |- _ => inversion H; subst end. exists [], O. eexists. cbn. rewrite adv_0. repeat split; eauto.
  - match goal with H : rfields _ _ _ _ _ (L ++ _) _ _ _ _ _ |- _ => destruct (IH _ _ _ _ _ H) as (gs & m0 & bs & -> & N & -> & T) end.
    exists ((g, x) :: gs). eexists. exists bs. split; [reflexivity|]. split; [cbn; now rewrite N|]. split; [apply Nat.add_assoc|]. rewrite adv_adv in T. exact T.
Qed.
Lemma last_read E d c o alg sv s b t b' : classes E = lib_classes -> library_suppliers E -> In (c, o, alg, sv, s) checked_frames -> buf_wf b = true ->
  decode E d (new_obj E c) b = (None, t, b') -> exists gs x z, t = VObj c gs /\ In ("checksum"%string, VInt z) gs /\ readable b = x ++ number o 4 z ++ readable b' /\ in_signed 32 z = true.
Proof.
  intros HE HF I Hb D.
  assert (Ob : object_of E c (new_obj E c) = true).
  { unfold object_of, new_obj, find_class. rewrite HE. destruct I as [[= <- <- <- <- <-]|[[= <- <- <- <- <-]|[[= <- <- <- <- <-]|[]]]]; vm_compute; reflexivity. }
  destruct (run E d c _ b HE HF Ob Hb) as (os & L & e & fs & n & _ & HL & _ & Bk & D' & R). rewrite D in D'. injection D' as <- -> ->.
  assert (S : exists L0, L = L0 ++ [("checksum"%string, WSum 4 o alg)]).
  { destruct I as [[= <- <- <- <- <-]|[[= <- <- <- <- <-]|[[= <- <- <- <- <-]|[]]]]; vm_compute in HL; injection HL as <-.
    - eexists [_; _; _]. reflexivity.
    - eexists [_; _; _; _]. reflexivity.
    - eexists [_; _; _]. reflexivity. }
  destruct S as (L0 & ->). inversion R; subst. match goal with H : find c Y = Some ?L |- _ => assert (L = L0 ++ [("checksum"%string, WSum 4 o alg)]) by congruence; subst L end.
  match goal with H : rfields _ _ _ _ _ _ _ _ _ _ _ |- _ => destruct (last_field _ _ _ _ _ _ _ _ _ _ _ _ H) as (gs & m & bs & -> & _ & -> & T) end.
  apply buf_wf_iff in Hb. unfold took, read_bytes in T. destruct (Nat.leb_spec (ridx (adv b m) + 4) (widx (adv b m))) as [LE|]; [|discriminate]. injection T as T.
  cbn [adv set_ridx ridx widx] in LE. pose proof (wf_widx _ Hb) as W1. pose proof (wf_cap _ Hb) as W2.
  assert (RD : readable b = firstn m (readable b) ++ bs ++ readable (adv b (m + 4))).
  { unfold adv at 1. rewrite readable_advance. rewrite <- (firstn_skipn m (readable b)) at 1. f_equal. rewrite <- skipn_skipn'. rewrite <- (firstn_skipn 4 (skipn m (readable b))) at 1. f_equal.
    rewrite <- T. unfold slice. cbn [adv set_ridx ridx arr]. unfold readable, content. rewrite skipn_skipn', !firstn_skipn_comm, firstn_firstn. unfold slice. rewrite ?firstn_skipn_comm. f_equal. f_equal. cbn [adv set_ridx widx] in *. lia. }
  assert (Lb : List.length bs = 4%nat).
  { rewrite <- T. unfold slice. cbn [adv set_ridx ridx arr]. rewrite firstn_length, skipn_length. unfold capacity in *. lia. }
  assert (Bb : Forall (fun b => 0 <= b < 256) bs). { pose proof (readable_bytes _ Hb) as Q. rewrite RD in Q. rewrite !Forall_app in Q. apply Q. }
  assert (NE : bs <> []) by (destruct bs; [discriminate|congruence]).
  exists (gs ++ [("checksum"%string, VInt (get_int o bs))]), (firstn m (readable b)), (get_int o bs). split; [reflexivity|]. split; [apply in_or_app; right; left; reflexivity|]. split.
  - rewrite <- Lb, (number_get_int o bs Bb NE). rewrite Lb. exact RD.
  - pose proof (get_int_range o bs NE) as G. rewrite Lb in G. exact G.
Qed.
Lemma number_mod o z z' : number o 4 z = number o 4 z' -> z mod 2 ^ 32 = z' mod 2 ^ 32.
Proof. intros H. apply (f_equal (get_int o)) in H. rewrite !get_int_number in H by lia. change (8 * Z.of_nat 4) with 32 in H. rewrite <- (wrap_mod 32 z), <- (wrap_mod 32 z') by lia. now rewrite H. Qed.
Lemma signed_mod x y : in_signed 32 x = true -> in_signed 32 y = true -> x mod 2 ^ 32 = y mod 2 ^ 32 -> x = y.
Proof. rewrite !in_signed_spec. intros Hx Hy H. change (2 ^ (32 - 1)) with 2147483648 in *. change (2 ^ 32) with 4294967296 in *. lia. Qed.
(* calc on the front, whichever of the services it is *)
Lemma calc_front pr k d stat R W V h fb c o alg sv s : enough k -> running stat R W V -> buf_wf fb = true -> In (c, o, alg, sv, s) checked_frames ->
  exists z, invoke_on pr k d sv "calc"%string [JBuf] (at_rest h fb stat) = Ret (jint z) (at_rest h fb stat) /\ in_signed 32 z = true /\ z mod 2 ^ 32 = check_value sv (readable fb).
Proof.
  intros K Rn Hb I. destruct (C75_services pr k d stat R W V h fb K Rn Hb) as (_ & (z & C32 & M & Rg) & SS & SZ).
  assert (B : 0 <= sum_bytes (readable fb) mod 256 < 256) by (apply Z.mod_pos_bound; lia).
  destruct I as [[= <- <- <- <- <-]|[[= <- <- <- <- <-]|[[= <- <- <- <- <-]|[]]]].
  - exists z. split; [exact C32|]. split; [apply in_signed_spec; exact Rg|exact M].
  - eexists. split; [exact SS|]. split; [apply in_signed_spec; change (2 ^ (32 - 1)) with 2147483648; lia|]. cbn [check_value String.eqb Ascii.eqb Bool.eqb]. apply Z.mod_small. change (2 ^ 32) with 4294967296. lia.
  - eexists. split; [exact SZ|]. split; [apply in_signed_spec; change (2 ^ (32 - 1)) with 2147483648; lia|]. cbn [check_value String.eqb Ascii.eqb Bool.eqb]. apply Z.mod_small. change (2 ^ 32) with 4294967296. lia.
Qed.
Lemma owns_field h : forall vs ts fp, owns_all h vs ts fp -> forall (ns : list string) f z, List.length ns = List.length vs -> In (f, VInt z) (combine ns ts) -> In (f, HInt z) (combine ns vs).
Proof.
  intros vs ts fp H. induction H as [|v t vs ts fp fps O H IH]; intros [|n ns] f z L I; cbn in *; try contradiction; try discriminate.
  destruct I as [[= -> ->]|I]; [inversion O; left; reflexivity|right; apply IH; auto].
Qed.
Lemma app_tail {A} (a b x y : list A) : a ++ x = b ++ y -> List.length x = List.length y -> a = b /\ x = y.
Proof.
  revert b. induction a as [|i a IH]; intros [|j b] H L; cbn in *; auto.
  - subst x. cbn in L. rewrite app_length in L. lia.
  - subst y. cbn in L. rewrite app_length in L. lia.
  - injection H as <- H. destruct (IH b H L) as [-> ->]. auto.
Qed.
Lemma combine_split {A B} (l : list (A * B)) : combine (map fst l) (map snd l) = l.
Proof. induction l as [|[a b] l IH]; cbn; [reflexivity|now rewrite IH]. Qed.

(* the four bytes at the end are the checksum of the others *)
Definition checks (sv : string) (o : endian) (bs : list Z) : Prop := exists front z, bs = front ++ number o 4 z /\ z mod 2 ^ 32 = check_value sv front.

Section Receive.
  Variables (pr : printers) (k d : nat) (stat : list (string * jval)) (R : cache) (W : factories) (V : list (string * Z)).
  Hypothesis K : enough k.
  Hypothesis Rn : running stat R W V.
  Variables (h : heap) (b0 rb fb : bytebuf) (c : string) (o : endian) (alg sv : string) (s : service).
  Hypothesis OK : heap_ok lib_classes h.
  Hypothesis I : In (c, o, alg, sv, s) checked_frames.
  Hypothesis Hr : buf_wf rb = true.
  Hypothesis Hf : buf_wf fb = true.
  Hypothesis Hcut : readable fb = firstn (List.length (readable rb) - 4) (readable rb).
  Notation E := (holding R W).

  Lemma received : let '(e, t, b4) := decode E d (new_obj E c) rb in exists h4,
    heap_ok lib_classes h4 /\ Sharing.fits h4 (HRef (List.length h)) (TObj c) /\ shows h4 (HRef (List.length h)) t /\ (forall m q, nth_error h m = Some q -> nth_error h4 m = Some q)
    /\ match e with
       | Some x => receive_checked pr k d c sv rb fb (at_rest h b0 stat) = Exc x (at_rest h4 b4 stat)
       | None => exists a b5, receive_checked pr k d c sv rb fb (at_rest h b0 stat) = Ret (a, List.length h) (at_rest h4 b5 stat) /\ (a = true <-> readable b4 = [] /\ checks sv o (readable rb))
       end.
  Proof.
    assert (HE : classes E = lib_classes) by reflexivity. pose proof (running_suppliers _ _ _ _ Rn) as HF.
    assert (Hc : exists cd, assoc c lib_classes = Some cd). { destruct I as [[= <- <- <- <- <-]|[[= <- <- <- <- <-]|[[= <- <- <- <- <-]|[]]]]; eexists; vm_compute; reflexivity. }
    destruct Hc as (cd & Hc). destruct (makes_new stat R W V c cd h rb Rn Hc) as [CN HN].
    destruct (new_ok E h c) as (OK3 & _ & F3); [exact OK|]. rewrite HN in F3. change (classes E) with lib_classes in OK3.
    pose proof (C58_decode_fresh E d h c rb) as DF. pose proof (C63_decode_keeps_types E d (fst (hnew E h c)) (HRef (List.length h)) rb HE OK3 Hr) as OK4.
    pose proof (C62_decode_frame E d (fst (hnew E h c)) (HRef (List.length h)) rb) as FR. cbv zeta in FR.
    assert (LR : forall t b4, decode E d (new_obj E c) rb = (None, t, b4) -> exists gs x z, t = VObj c gs /\ In ("checksum"%string, VInt z) gs /\ readable rb = x ++ number o 4 z ++ readable b4 /\ in_signed 32 z = true)
      by (intros t b4 D; exact (last_read E d c o alg sv s rb t b4 HE HF I Hr D)).
    assert (D0 : forall t b4, decode E d (new_obj E c) rb = (None, t, b4) -> exists d', d = Datatypes.S d').
    { intros t b4 D. destruct d as [|d']; [|eauto]. unfold new_obj in D. destruct (find_class E c); discriminate. }
    assert (Rw : forall t b4, decode E d (new_obj E c) rb = (None, t, b4) -> exists n, b4 = adv rb n).
    { intros t b4 D. destruct (C31_decode_is_total E d c (new_obj E c) rb HE HF) as (e & v & n & b' & D' & _ & [RD _] & _); [|exact Hr|rewrite D in D'; injection D' as <- <- <-; exists n; exact RD].
      apply new_typed; [reflexivity|]. unfold has, find_class. cbn [classes holding env_of]. rewrite Hc. reflexivity. }
    destruct (hnew E h c) as [h3 v]. cbn [fst snd] in *. subst v.
    pose proof (decode_runs pr k d stat R W V h3 (List.length h) c rb K Rn OK3 F3 Hr) as DR.
    destruct (hdecode E d h3 (HRef (List.length h)) rb) as [[e4 h4] b4']. destruct (decode E d (new_obj E c) rb) as [[e t] b4] eqn:D. cbn [fst snd] in *. destruct DF as (-> & -> & [Le Un] & fp1 & Ow & Fr). destruct FR as [FR _].
    assert (F4 : Sharing.fits h4 (HRef (List.length h)) (TObj c)).
    { pose proof F3 as (fs & Hl). destruct (FR _ _ Hl) as (q' & Hq & P & _). destruct q' as [c' fs'|vs]; cbn in P; [|discriminate]. cbn. destruct P as [-> _]. eauto. }
    exists h4. split; [exact OK4|]. split; [exact F4|]. split; [exact (proj1 (owns_shows h4) _ _ _ Ow)|]. split; [intros m q Hm; rewrite Un; auto; eapply nth_lt; eauto|].
    unfold receive_checked. change (with_buffer rb (at_rest h b0 stat)) with (at_rest h rb stat). rewrite CN. cbn [bind]. rewrite DR. cbn [ends]. destruct e as [x|]; cbn [ends bind]; [reflexivity|].
    destruct (LR t b4 eq_refl) as (gs & x & z & -> & Iz & RD & Sz). destruct (D0 _ _ eq_refl) as (d' & ->). destruct (Rw _ _ eq_refl) as (n & Q4).
    assert (Em : (widx b4 <=? ridx b4)%nat = true <-> readable b4 = []).
    { rewrite Nat.leb_le. unfold readable, content. apply buf_wf_iff in Hr. pose proof (wf_widx _ Hr). split; intros H0.
      - apply skipn_all2. rewrite firstn_length. lia.
      - apply (f_equal (@List.length Z)) in H0. rewrite skipn_length, firstn_length in H0. cbn in H0. subst b4. cbn [adv set_ridx arr widx ridx] in *. lia. }
    destruct (enough_S k K) as (k0 & Ek & _). assert (Ek' : k = Datatypes.S (Datatypes.S (Datatypes.S (Datatypes.S k0)))) by exact Ek. clear Ek. set (k' := Datatypes.S (Datatypes.S (Datatypes.S k0))) in *. clearbody k'. rewrite Ek' in *. clear Ek'. cbn [at_rest s_b].
    destruct (widx b4 <=? ridx b4)%nat eqn:Q.
    - assert (R0 : readable b4 = []) by now apply Em. rewrite R0, app_nil_r in RD.
      assert (Fz : exists fs, nth_error h4 (List.length h) = Some (CObj c fs) /\ In ("checksum"%string, HInt z) fs).
      { inversion Ow; subst. match goal with H : nth_error h4 _ = Some (CObj c ?f) |- _ => exists f; split; [exact H|] end. rewrite <- (combine_split fs). eapply owns_field; [eassumption|now rewrite !map_length|].
        match goal with H : map fst gs = map fst fs |- _ => rewrite <- H end. rewrite combine_split. exact Iz. }
      destruct Fz as (fs & Hl & If). destruct F4 as (fs' & Hl'). 
      assert (It : exists t, In ("checksum"%string, t) (c_fields cd)). { destruct I as [[= <- <- <- <- <-]|[[= <- <- <- <- <-]|[[= <- <- <- <- <-]|[]]]]; vm_compute in Hc; injection Hc as <-; eexists; cbn; tauto. }
      destruct It as (ty & It). destruct (C80_getters pr k' d' stat R W V h4 (List.length h) c cd fs "checksum" ty (HInt z) b4 Rn Hl OK4 Hc It If) as (u & G). change (getter "checksum") with "getChecksum"%string in G. cbv zeta in G. rewrite G. cbn [bind].
      change (with_buffer fb (at_rest h4 b4 stat)) with (at_rest h4 fb stat).
      destruct (calc_front pr (Datatypes.S k') (Datatypes.S d') stat R W V h4 fb c o alg sv s K Rn Hf I) as (zc & Cc & Rc & Mc).
      assert (Is : In sv ["Crc16ChecksumService"; "Crc32ChecksumService"; "SseBinChecksumService"; "SzseBinChecksumService"]%string) by (destruct I as [[= <- <- <- <- <-]|[[= <- <- <- <- <-]|[[= <- <- <- <- <-]|[]]]]; cbn; tauto).
      destruct (C75_verify pr (Datatypes.S k') (Datatypes.S d') stat R W V h4 fb sv zc z u K Rn Hf Is Cc) as [Vf _]. rewrite Vf. cbn [bind].
      exists (zc =? z), fb. split; [reflexivity|]. rewrite Z.eqb_eq.
      assert (Fx : readable fb = x) by (rewrite Hcut, RD, app_length, number_length; rewrite Nat.add_sub; rewrite firstn_app, Nat.sub_diag, firstn_all; cbn; apply app_nil_r).
      rewrite Fx in Mc. split.
      + intros ->. split; [exact R0|]. exists x, z. auto.
      + intros [_ (front & z' & B' & M')]. rewrite RD in B'. destruct (app_tail _ _ _ _ B' ltac:(now rewrite !number_length)) as [<- Nz]. apply signed_mod; auto. rewrite Mc, <- M'. symmetry. apply (number_mod o). exact Nz.
    - exists false, b4. split; [reflexivity|]. split; [discriminate|]. intros [R0 _]. apply Em in R0. congruence.
  Qed.
End Receive.

Lemma two_bits32 bs bs' : two_flipped bs bs' -> crc32_spec bs <> crc32_spec bs'.
Proof.
  intros (x & a & m & c & y & E & E' & D) S. unfold crc32_spec in S. rewrite !(Z.lxor_comm _ 4294967295) in S. apply lxor_inj in S. rewrite E, E' in S. revert S.
  apply (two_flips 32); [lia|vm_compute; split; congruence|vm_compute; split; congruence|]. apply period32; change (2 ^ 32 - 2) with 4294967294 in D; lia.
Qed.
Lemma app_within {A} : forall (x f : list A) c y n, f ++ n = x ++ c :: y -> (List.length x < List.length f)%nat -> exists u, f = x ++ c :: u /\ y = u ++ n.
Proof.
  induction x as [|i x IH]; intros [|j f] c y n E L; cbn in *; try lia.
  - injection E as -> <-. eauto.
  - injection E as -> E. destruct (IH f c y n E ltac:(lia)) as (u & -> & ->). eauto.
Qed.
Lemma one_byte_noticed o f z f' z' : bytes_ok (f ++ number o 4 z) -> bytes_ok (f' ++ number o 4 z') -> z mod 2 ^ 32 = sum_bytes f mod 256 -> z' mod 2 ^ 32 = sum_bytes f' mod 256 -> ~ one_byte (f ++ number o 4 z) (f' ++ number o 4 z').
Proof.
  intros B B' H H' (x & c & c' & y & E & E' & N).
  assert (Hc : 0 <= c < 256). { rewrite E in B. apply Forall_app in B. destruct B as [_ B]. inversion B; auto. }
  assert (Hc' : 0 <= c' < 256). { rewrite E' in B'. apply Forall_app in B'. destruct B' as [_ B']. inversion B'; auto. }
  assert (L : List.length f = List.length f').
  { assert (Q : List.length (x ++ c :: y) = List.length (x ++ c' :: y)) by (rewrite !app_length; reflexivity). rewrite <- E, <- E', !app_length, !number_length in Q. lia. }
  destruct (Nat.lt_ge_cases (List.length x) (List.length f)) as [Lx|Lx].
  - assert (Q : exists u, f = x ++ c :: u /\ y = u ++ number o 4 z).
    { exact (app_within x f c y _ E Lx). }
    destruct Q as (u & -> & ->). rewrite app_comm_cons, app_assoc in E'. destruct (app_tail _ _ _ _ E' ltac:(now rewrite !number_length)) as [-> Nz]. apply number_mod in Nz. rewrite Nz, H in H'.
    rewrite !sum_bytes_app, !sum_bytes_cons in H'. apply N. revert H' Hc Hc'. clear. intros. Z.div_mod_to_equations. lia.
  - assert (f' = f).
    { pose proof (f_equal (firstn (List.length f)) E) as E1. pose proof (f_equal (firstn (List.length f')) E') as E2. rewrite firstn_app, firstn_all, Nat.sub_diag, app_nil_r in E1, E2. rewrite <- L in E2.
      rewrite firstn_app in E1, E2. replace (List.length f - List.length x)%nat with O in * by lia. cbn [firstn] in E1, E2. congruence. }
    subst f'. assert (Z : number o 4 z = number o 4 z').
    { destruct o; cbn [number]; [f_equal|]; apply digits_mod. all: change (8 * Z.of_nat 4) with 32; congruence. }
    rewrite Z, E' in E. apply app_inv_head in E. congruence.
Qed.
Lemma both_check c o alg sv s bs bs' : In (c, o, alg, sv, s) checked_frames -> bytes_ok bs -> bytes_ok bs' -> checks sv o bs -> checks sv o bs' -> ~ altered sv bs bs'.
Proof.
  intros I B B' (f & z & -> & H) (f' & z' & -> & H'). destruct I as [[= <- <- <- <- <-]|[[= <- <- <- <- <-]|[[= <- <- <- <- <-]|[]]]]; cbn [check_value altered String.eqb Ascii.eqb Bool.eqb] in *.
  - apply residue32 in H, H'. intros [A|A]; [apply (burst32 _ _ A)|apply (two_bits32 _ _ A)]; congruence.
  - apply one_byte_noticed; assumption.
  - apply one_byte_noticed; assumption.
Qed.

(* ---- C86 ---- *)
(* The program never does anything but answer, or end with one of the exceptions of decode; it answers true only if the last four bytes are the checksum of the others *)
Theorem C86_answers : forall pr k d stat R W V h b0 rb fb c o alg sv s, enough k -> running stat R W V -> heap_ok lib_classes h -> In (c, o, alg, sv, s) checked_frames ->
  buf_wf rb = true -> buf_wf fb = true -> readable fb = firstn (List.length (readable rb) - 4) (readable rb) ->
  exists h4, heap_ok lib_classes h4 /\ (forall m q, nth_error h m = Some q -> nth_error h4 m = Some q)
  /\ ((exists x b4, receive_checked pr k d c sv rb fb (at_rest h b0 stat) = Exc x (at_rest h4 b4 stat) /\ (x = IOOBE \/ x = IAE \/ x = SOE))
      \/ exists a b4 t, receive_checked pr k d c sv rb fb (at_rest h b0 stat) = Ret (a, List.length h) (at_rest h4 b4 stat)
         /\ shows h4 (HRef (List.length h)) t /\ object_of (holding R W) c t = true /\ (a = true -> checks sv o (readable rb))).
Proof.
  intros pr k d stat R W V h b0 rb fb c o alg sv s K Rn OK I Hr Hf Hc.
  pose proof (received pr k d stat R W V K Rn h b0 rb fb c o alg sv s OK I Hr Hf Hc) as H.
  assert (Ob : object_of (holding R W) c (new_obj (holding R W) c) = true).
  { destruct I as [[= <- <- <- <- <-]|[[= <- <- <- <- <-]|[[= <- <- <- <- <-]|[]]]]; vm_compute; reflexivity. }
  destruct (C31_decode_is_total (holding R W) d c _ rb eq_refl (running_suppliers _ _ _ _ Rn) Ob Hr) as (e & t & n & b' & D & Ot & _ & Ex).
  rewrite D in H. destruct H as (h4 & OK4 & F4 & S4 & Un & X). exists h4. split; [exact OK4|]. split; [exact Un|]. destruct e as [x|].
  - left. exists x, b'. split; [exact X|]. destruct Ex as [Ex|[Ex|[Ex|Ex]]]; [discriminate| | |]; injection Ex as ->; auto.
  - right. destruct X as (a & b5 & RC & Ia). exists a, b5, t. split; [exact RC|]. split; [exact S4|]. split; [exact Ot|]. intros A. apply Ia in A. apply A.
Qed.
(* A sender with the service registered encodes a frame into a buffer with nothing unread in it.  A receiver with registrations of its own answers true to these bytes and has the message then;
   it does not answer true to bytes that are altered in a way the checksum is made to notice. *)
Theorem C86_integrity : forall pr k k2 d d2 stat stat2 R W V R2 W2 V2 h h2 l t b b0 c o alg sv s, enough k -> enough k2 -> running stat R W V -> running stat2 R2 W2 V2 ->
  heap_ok lib_classes h -> small h -> heap_ok lib_classes h2 -> In (c, o, alg, sv, s) checked_frames -> Sharing.fits h (HRef l) (TObj c) -> shows h (HRef l) t -> buf_wf b = true ->
  get_service R alg = Some s -> readable b = [] -> complete Y t (WObj c) = true ->
  let t1 := fill_in Y (checksum (holding R W)) [] t (WObj c) in
  Buffers.fits b (List.length (ser Y t1 (WObj c))) -> (nesting t <= d)%nat ->
  exists h1 b1, invoke pr k d l "encode"%string [JBuf] (at_rest h b stat) = Ret JVoid (at_rest h1 b1 stat) /\ let bs := readable b1 in bs = ser Y t1 (WObj c)
  /\ forall rb fb, buf_wf rb = true -> buf_wf fb = true -> readable fb = firstn (List.length (readable rb) - 4) (readable rb) ->
     (readable rb = bs -> parsable Y (factory (holding R2 W2)) t (WObj c) = true -> canonical Y t (WObj c) = true -> (nesting t <= d2)%nat ->
        exists h4 b4 t4, receive_checked pr k2 d2 c sv rb fb (at_rest h2 b0 stat2) = Ret (true, List.length h2) (at_rest h4 b4 stat2)
        /\ shows h4 (HRef (List.length h2)) t4 /\ equivalent t4 t1 /\ (exact_form Y t (WObj c) = true -> t4 = t1) /\ forall m q, nth_error h2 m = Some q -> nth_error h4 m = Some q)
     /\ (altered sv bs (readable rb) -> forall n s', receive_checked pr k2 d2 c sv rb fb (at_rest h2 b0 stat2) <> Ret (true, n) s').
Proof.
  intros pr k k2 d d2 stat stat2 R W V R2 W2 V2 h h2 l t b b0 c o alg sv s K K2 Rn Rn2 OK S OK2 I F Sh Hb Gs Hr0 Cm t1 Fi Hn.
  set (E := holding R W) in *. set (E2 := holding R2 W2) in *. assert (HE : classes E = lib_classes) by reflexivity. assert (HE2 : classes E2 = lib_classes) by reflexivity.
  destruct (C56_encode_unfolds E d h (HRef l) t b HE Sh) as [Q1 Q2]. pose proof (fits_object E h (HRef l) t c HE OK F ltac:(discriminate) Sh) as Ob.
  pose proof (C39_complete_objects_throw_only_without_room E d c t b HE Ob Hb Cm Hn) as [RM _]. rewrite Hr0 in RM. fold t1 in RM. destruct (RM Fi) as (t' & b' & EN).
  destruct (C23_encode_appends_wire_form E d c t b t' b' HE Ob Hb EN) as (Ap & W1 & T1 & _). rewrite Hr0 in T1. fold t1 in T1. subst t'.
  assert (Rb : readable b' = ser Y t1 (WObj c)) by (rewrite (appended_readable b (ser Y t1 (WObj c)) b'); [rewrite Hr0; reflexivity|apply buf_wf_iff; exact Hb|exact Ap]).
  assert (Ck : checks sv o (readable b')).
  { assert (Is : In (c, "checksum"%string, o, alg) summed) by (destruct I as [[= <- <- <- <- <-]|[[= <- <- <- <- <-]|[[= <- <- <- <- <-]|[]]]]; cbn; tauto).
    destruct (C27_own_checksum_if_nothing_unread c "checksum" o alg (calc s) Is E d t b t1 b' HE) as (front & z & A & _ & Hz); auto.
    { unfold E. cbn [checksum holding env_of]. rewrite Gs. reflexivity. }
    exists front, z. split; [rewrite (appended_readable b _ b' ltac:(apply buf_wf_iff; exact Hb) A), Hr0; reflexivity|].
    apply buf_wf_iff in W1, Hb. pose proof (app_content _ _ _ A) as Q. pose proof (content_bytes _ W1) as B1. rewrite Q in B1. rewrite !Forall_app in B1. destruct B1 as (_ & B1 & _).
    assert (Wf : wf (wrapped front)).
    { apply wrapped_wf; auto. apply (f_equal (@List.length Z)) in Q. rewrite !app_length, !content_length in Q by (apply Hb || apply W1).
      pose proof (wf_cap _ W1). pose proof (wf_widx _ W1). pose proof (wf_max _ W1). lia. }
    rewrite Hz, wrap_mod by lia. destruct I as [[= <- <- <- <- <-]|[[= <- <- <- <- <-]|[[= <- <- <- <- <-]|[]]]]; cbn [calc crc32_service sse_service szse_service check_value String.eqb Ascii.eqb Bool.eqb].
    - rewrite (proj1 (crc32_calc_spec _ Wf)), wrapped_readable. reflexivity.
    - rewrite sse_calc_spec, wrapped_readable by exact Wf. apply Z.mod_small. pose proof (Z.mod_pos_bound (sum_bytes front) 256 ltac:(lia)). change (2 ^ 32) with 4294967296. lia.
    - rewrite szse_calc_spec, wrapped_readable by exact Wf. apply Z.mod_small. pose proof (Z.mod_pos_bound (sum_bytes front) 256 ltac:(lia)). change (2 ^ 32) with 4294967296. lia. }
  rewrite (encode_runs pr k d stat R W V h l c b K Rn OK S F Hb). fold E. rewrite EN in Q1, Q2. destruct (hencode E d h (HRef l) b) as [[e' h'] b''] eqn:HC. cbn [fst snd] in Q1, Q2. subst e' b''.
  exists h', b'. split; [reflexivity|]. cbv zeta. split; [exact Rb|]. intros rb fb Hr Hf Hc.
  pose proof (received pr k2 d2 stat2 R2 W2 V2 K2 Rn2 h2 b0 rb fb c o alg sv s OK2 I Hr Hf Hc) as RC. fold E2 in RC. split.
  - intros Er Pa Ca Hn2. destruct (C22_round_trip E E2 d d2 c t b t1 b' HE HE2 Ob Hb EN Pa Ca Hn2) as (bs & Ap' & RT).
    assert (bs = readable b') by (rewrite (appended_readable b bs b' ltac:(apply buf_wf_iff; exact Hb) Ap'), Hr0; reflexivity). subst bs.
    destruct (RT rb [] Hr ltac:(rewrite app_nil_r; exact Er)) as (t4 & b4 & DE & Eq & Ex & _ & Ad). rewrite DE in RC.
    destruct RC as (h4 & _ & _ & S4 & Un & a & b5 & RC & Ia).
    assert (a = true) as ->. { apply Ia. split; [|rewrite Er; exact Ck]. unfold advanced in Ad. rewrite Ad, readable_advance, Er. apply skipn_all. }
    exists h4, b5, t4. auto.
  - intros Al n s' RQ. destruct (decode E2 d2 (new_obj E2 c) rb) as [[[x|] t4] b4]; destruct RC as (h4 & _ & _ & _ & _ & RC); [congruence|]. destruct RC as (a & b5 & RC & Ia). rewrite RQ in RC. injection RC as <- _ _.
    destruct (proj1 Ia eq_refl) as [_ Ck2]. apply buf_wf_iff in W1, Hr. exact (both_check c o alg sv s _ _ I (readable_bytes _ W1) (readable_bytes _ Hr) Ck Ck2 Al).
Qed.

(* one might expect every alteration to be noticed; two bytes of an SSE frame that change places are not: the receiver answers true and has a message with another number *)
Theorem C86_exchanged_bytes_refuted : exists pr k d stat R W V h b0 rb fb n s' v v1 b1 x a a' y t, enough k /\ running stat R W V /\ heap_ok lib_classes h
  /\ object_of (env_of lib_classes lib_factories (snd (registry initial_cache sse_service))) "sse.SseBinary" v = true
  /\ encode (env_of lib_classes lib_factories (snd (registry initial_cache sse_service))) 3 v empty_buf = (None, v1, b1) /\ readable b1 = x ++ a :: a' :: y
  /\ buf_wf rb = true /\ buf_wf fb = true /\ readable fb = firstn (List.length (readable rb) - 4) (readable rb) /\ readable rb = x ++ a' :: a :: y
  /\ receive_checked pr k d "sse.SseBinary" "SseBinChecksumService" rb fb (at_rest h b0 stat) = Ret (true, n) s' /\ shows (s_h s') (HRef n) t
  /\ field "msgSeqNum" v1 = VInt 7 /\ field "msgSeqNum" t = VInt 1792.
Proof.
  destruct some_state as (stat & V & Rn).
  set (v := build "sse.SseBinary" [("msgType", VInt 40); ("msgSeqNum", VInt 7); ("body", s_logon)]%string).
  set (En := env_of lib_classes lib_factories (snd (registry initial_cache sse_service))).
  set (r := encode En 3 v empty_buf). set (bs := readable (snd r)). set (x := firstn 10 bs). set (y := skipn 12 bs).
  set (rb := wrap_bytes (x ++ 7 :: 0 :: y)). set (fb := wrap_bytes (firstn (List.length (readable rb) - 4) (readable rb))).
  assert (Hr : buf_wf rb = true) by (vm_compute; reflexivity). assert (Hf : buf_wf fb = true) by (vm_compute; reflexivity). assert (Hc : readable fb = firstn (List.length (readable rb) - 4) (readable rb)) by (vm_compute; reflexivity).
  assert (K : enough (Z.to_nat (2 ^ 31 + 4))) by (unfold enough; rewrite Z2Nat.id; lia).
  pose proof (received some_printers _ 3 stat _ _ V K Rn [] empty_buf rb fb "sse.SseBinary" BE _ _ _ ltac:(intros l c fs H; destruct l; discriminate) (or_intror (or_introl eq_refl)) Hr Hf Hc) as RC.
  set (q := decode (holding initial_cache lib_factories) 3 (new_obj (holding initial_cache lib_factories) "sse.SseBinary") rb) in RC.
  assert (Q : fst (fst q) = None /\ readable (snd q) = [] /\ field "msgSeqNum" (snd (fst q)) = VInt 1792) by (vm_compute; repeat split).
  destruct q as [[e t] b4]. cbn [fst snd] in Q. destruct Q as (-> & E4 & Ft). destruct RC as (h4 & _ & _ & S4 & _ & a & b5 & RC & Ia).
  assert (a = true) as ->.
  { apply Ia. split; [exact E4|]. exists (readable fb), (get_int BE (skipn (List.length (readable fb)) (readable rb))). split; vm_compute; reflexivity. }
  exists some_printers, (Z.to_nat (2 ^ 31 + 4)), 3%nat, stat, initial_cache, lib_factories, V, [], empty_buf, rb, fb, O, (at_rest h4 b5 stat), v, (snd (fst r)), (snd r), x, 0, 7, y, t.
  split; [exact K|]. split; [exact Rn|]. split; [intros l c fs H; destruct l; discriminate|]. split; [vm_compute; reflexivity|]. split; [vm_compute; reflexivity|]. split; [vm_compute; reflexivity|]. split; [exact Hr|]. split; [exact Hf|]. split; [exact Hc|].
  split; [vm_compute; reflexivity|]. split; [exact RC|]. split; [exact S4|]. split; [vm_compute; reflexivity|exact Ft].
Qed.
(* a RootPacket, and an SseBinary whose service had to be registered *)
Definition h_sse : heap := [ obj "sse.Heartbeat" []; obj "sse.SseBinary" [("msgType", HInt 33); ("msgSeqNum", HInt 9); ("body", HRef 0)] ]%string.
Example C86_meets : (exists stat V stat2 V2, running stat initial_cache lib_factories V /\ running stat2 (snd (registry initial_cache sse_service)) lib_factories V2)
  /\ get_service initial_cache CRC32 = Some crc32_service /\ get_service (snd (registry initial_cache sse_service)) SSE_BIN = Some sse_service
  /\ (let t := seen 9 h_alias (HRef 4) in let w := WObj "sample.RootPacket" in let E := holding initial_cache lib_factories in
      heap_ok lib_classes h_alias /\ small h_alias /\ Sharing.fits h_alias (HRef 4) (TObj "sample.RootPacket") /\ shows h_alias (HRef 4) t /\ readable empty_buf = [] /\ complete Y t w = true
      /\ Buffers.fits empty_buf (List.length (ser Y (fill_in Y (checksum E) [] t w) w)) /\ parsable Y (factory E) t w = true /\ canonical Y t w = true /\ nesting t = 3%nat)
  /\ (let t := seen 9 h_sse (HRef 1) in let w := WObj "sse.SseBinary" in let E := holding (snd (registry initial_cache sse_service)) lib_factories in
      heap_ok lib_classes h_sse /\ small h_sse /\ Sharing.fits h_sse (HRef 1) (TObj "sse.SseBinary") /\ shows h_sse (HRef 1) t /\ complete Y t w = true
      /\ Buffers.fits empty_buf (List.length (ser Y (fill_in Y (checksum E) [] t w) w)) /\ parsable Y (factory E) t w = true /\ canonical Y t w = true /\ nesting t = 2%nat)
  /\ altered "Crc32ChecksumService" [1; 2; 3; 4; 5; 6] [1; 7; 7; 7; 7; 6] /\ altered "Crc32ChecksumService" [1; 2; 3; 4; 5; 6] [0; 2; 3; 4; 5; 7] /\ altered "SseBinChecksumService" [1; 2; 3] [1; 0; 3].
Proof.
  split.
  { destruct some_state as (stat & V & Rn).
    destruct (one_call some_printers (Z.to_nat (2 ^ 31 + 4)) 0 (CRegistry (JOne "SseBinChecksumService") sse_service) stat initial_cache lib_factories V [] empty_buf [] ltac:(unfold enough; rewrite Z2Nat.id; lia) Rn) as (r & h' & stat' & _ & _ & Rn2).
    { apply service_lib. cbn. tauto. }
    exists stat, V, stat', V. split; [exact Rn|exact Rn2]. }
  split; [reflexivity|]. split; [reflexivity|]. split; [|split].
  1-2: cbv zeta; split; [apply cells_ok; vm_compute; reflexivity|]; split; [apply small_check; reflexivity|]; split; [apply fitsb_fits; vm_compute; reflexivity|]; split; [apply (view_shows _ 9); vm_compute; reflexivity|].
  - split; [reflexivity|]. split; [vm_compute; reflexivity|]. split; [unfold Buffers.fits; apply Z.leb_le; vm_compute; reflexivity|]. repeat split; vm_compute; reflexivity.
  - split; [vm_compute; reflexivity|]. split; [unfold Buffers.fits; apply Z.leb_le; vm_compute; reflexivity|]. repeat split; vm_compute; reflexivity.
  - split; [|split].
    + left. exists (bits_of [1]), (bits_of [2; 3; 4; 5]), (bits_of [7; 7; 7; 7]), (bits_of [6]). repeat split; try (vm_compute; reflexivity); try (vm_compute; discriminate); apply Nat.leb_le; reflexivity.
    + right. exists [], true, (tl (bits_of [1; 2; 3; 4; 5])), false, (tl (bits_of [6])). repeat split; try (vm_compute; reflexivity).
    + exists [1], 2, 0, [3]. repeat split. discriminate.
Qed.
Print Assumptions C86_answers.
Print Assumptions C86_integrity.
Print Assumptions C86_exchanged_bytes_refuted.
