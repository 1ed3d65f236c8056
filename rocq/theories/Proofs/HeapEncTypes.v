(* encode on a well-typed heap: it stays well-typed, and encode fails only in three ways. *)
From Coq Require Import ZArith List Bool String Lia.
From Verif.Model Require Import JavaPrim ByteBuf Utf8 Codec Ast Interp Show Heap.
From Verif.Spec Require Import Bytes Buffers Wire Sharing.
From Verif.Proofs Require Import BytesFacts HeapFacts HeapOwn HeapReach HeapEq HeapCycle HeapFrame HeapTypes.
Import ListNotations.
Open Scope Z_scope.

Definition encode_exn (e : option exn) : Prop := e = None \/ e = Some NPE \/ e = Some IOOBE \/ e = Some SOE.
Definition room_exn (e : option exn) : Prop := e = None \/ e = Some IOOBE.
Lemma room_encode (e : option exn) : room_exn e -> encode_exn e.
Proof. unfold room_exn, encode_exn. tauto. Qed.
Lemma write_bytes_exn bs b : room_exn (fst (write_bytes bs b)).
Proof. unfold write_bytes, room_exn. destruct (_ <=? _); auto. Qed.
Lemma write_int_exn o n z b : room_exn (fst (write_int o n z b)).
Proof. apply write_bytes_exn. Qed.
Lemma set_int_exn o n i z b : room_exn (fst (set_int o n i z b)).
Proof. unfold set_int, room_exn. destruct (Nat.leb _ _); auto. Qed.
Lemma pad_loop_exn n ch b : room_exn (fst (pad_loop n ch b)).
Proof.
  revert b. induction n as [|n IH]; intros b; cbn [pad_loop]; [left; reflexivity|]. pose proof (write_int_exn BE 1 ch b) as W. destruct (write_int BE 1 ch b) as [[e|] b']; auto.
Qed.
Lemma write_fixed_exn s len ch lft b : 0 <= len -> room_exn (fst (write_fixed s len ch lft b)).
Proof.
  intros L. assert (P : forall m b, room_exn (fst (if m <? len then pad_char (len - m) ch b else (None, b)))).
  { intros m b0. destruct (m <? len); [apply pad_loop_exn|left; reflexivity]. }
  unfold write_fixed. destruct s as [[|x s]|].
  - destruct lft; [left; reflexivity|]. exact (P 0 b).
  - set (w := Z.min (Z.of_nat (List.length (utf8_encode (x :: s)))) len). assert (0 <= w) by lia.
    assert (Q : room_exn (fst (if lft && (w <? len) then pad_char (len - w) ch b else (None, b)))) by (destruct lft; [exact (P w b)|left; reflexivity]).
    destruct (if lft && (w <? len) then pad_char (len - w) ch b else (None, b)) as [[e0|] b0]; [exact Q|].
    unfold write_prefix. destruct (Z.ltb_spec w 0); [lia|]. pose proof (write_bytes_exn (firstn (Z.to_nat w) (utf8_encode (x :: s))) b0) as W.
    destruct (write_bytes (firstn (Z.to_nat w) (utf8_encode (x :: s))) b0) as [[e1|] b1]; [exact W|]. destruct lft; [left; reflexivity|]. exact (P w b1).
  - destruct lft; [left; reflexivity|]. exact (P 0 b).
Qed.
Lemma write_dyn_exn s zn zo n o b : room_exn (fst (write_dyn s zn zo n o b)).
Proof.
  unfold write_dyn. destruct s as [[|x s]|]; try apply write_int_exn. pose proof (write_int_exn o n (Z.of_nat (List.length (utf8_encode (x :: s)))) b) as W.
  destruct (write_int o n (Z.of_nat (List.length (utf8_encode (x :: s)))) b) as [[e|] b']; [exact W|apply write_bytes_exn].
Qed.

(* ---- static types ---- *)
Definition is_int (t : ftype) : bool := match t with TByte | TShort | TInt | TLong => true | _ => false end.
Definition is_flt (t : ftype) : bool := match t with TFloat | TDouble => true | _ => false end.
Definition is_obj (t : ftype) : bool := match t with TObj _ | TCodec => true | _ => false end.
Definition is_str (t : ftype) : bool := match t with TStr => true | _ => false end.
Definition fine_eelem (u : ftype) (x : eelem) : bool :=
  match x with XInt _ _ => is_int u | XFlt _ _ => is_flt u | XFix len _ _ => is_str u && (0 <=? len) | XDyn _ _ _ _ => is_str u | XObj => is_obj u end.
Definition at_type (F : list (string * ftype)) (f : string) (p : ftype -> bool) : bool := match assoc f F with Some t => p t | None => false end.
Fixpoint fine_enc (F : list (string * ftype)) (L : list string) (ss : list estmt) : bool :=
  match ss with
  | [] => true
  | EWrite _ _ f :: r => at_type F f is_int && fine_enc F L r
  | EWriteF _ _ f :: r => at_type F f is_flt && fine_enc F L r
  | EFix f len _ _ :: r => at_type F f is_str && (0 <=? len) && fine_enc F L r
  | EDyn f _ _ _ _ :: r => at_type F f is_str && fine_enc F L r
  | EList f _ _ _ _ _ x :: r => at_type F f (fun t => match t with TList u => fine_eelem u x | _ => false end) && fine_enc F L r
  | EObj f :: r | EObjOpt f :: r => at_type F f is_obj && fine_enc F L r
  | EMark x :: r => fine_enc F (x :: L) r
  | EZero _ _ :: r => fine_enc F L r
  | EDiff f x y :: r => at_type F f (fun t => match t with TInt => true | _ => false end) && mem x L && mem y L && fine_enc F L r
  | EPatch _ _ x f :: r => mem x L && at_type F f is_int && fine_enc F L r
  | ESum _ f :: r => at_type F f (fun t => match t with TInt => true | _ => false end) && fine_enc F L r
  end.
Lemma at_type_inv F f p : at_type F f p = true -> exists t, assoc f F = Some t /\ p t = true.
Proof. unfold at_type. destruct (assoc f F); [eauto|discriminate]. Qed.
Lemma fits_int h v t : is_int t = true -> fits h v t -> exists z, v = HInt z.
Proof. destruct t; try discriminate; intros _; destruct v; cbn; try contradiction; eauto. Qed.
Lemma fits_flt h v t : is_flt t = true -> fits h v t -> exists z, v = HFlt z.
Proof. destruct t; try discriminate; intros _; destruct v; cbn; try contradiction; eauto. Qed.
Lemma fits_str h v t : is_str t = true -> fits h v t -> exists s, hstring_of v = Some s.
Proof. destruct t; try discriminate; intros _; destruct v; cbn; try contradiction; eauto. Qed.
Lemma fits_obj h v t : is_obj t = true -> fits h v t -> fits h v TCodec.
Proof. destruct t; try discriminate; intros _; destruct v; cbn; try contradiction; eauto. Qed.
Lemma wrap_int h x : fits h (HInt (wrap 32 x)) TInt.
Proof. pose proof (wrap_in_signed 32 x ltac:(lia)) as W. unfold in_signed in W. cbn [fits]. change (32 - 1) with 31 in W. rewrite andb_true_iff, Z.leb_le, Z.ltb_lt in W. exact W. Qed.

Section EncTypes.
  Variable E : env.
  Let C := classes E.
  (* what the encode of an object may throw; more than encode_exn if the object is of a class that is not the library's *)
  Variable X : option exn -> Prop.
  Hypothesis XE : forall e, encode_exn e -> X e.
  Lemma room_x (e : option exn) : room_exn e -> X e. Proof. intros H. apply XE, room_encode, H. Qed.
  Lemma none_x : X None. Proof. apply XE. left. reflexivity. Qed.
  Definition goodx (enc : heap -> hval -> bytebuf -> option exn * heap * bytebuf) : Prop :=
    forall (h : heap) v b, heap_ok C h -> fits h v TCodec -> let '(e, h1, _) := enc h v b in X e /\ heap_ok C h1 /\ keeps h h1.
  Lemma goodx_elem enc u x (h : heap) v b : goodx enc -> heap_ok C h -> fine_eelem u x = true -> (v = HNull \/ fits h v u) ->
    let '(e, h1, _) := henc_elem enc x h v b in X e /\ heap_ok C h1 /\ keeps h h1.
  Proof.
    intros G OK Hx Hv. pose proof (keeps_refl h) as KR. assert (NP : X (Some NPE)) by (apply XE; unfold encode_exn; tauto). destruct x; cbn [henc_elem fine_eelem] in *.
    - destruct Hv as [->|Hv]; [auto|]. destruct (fits_int _ _ _ Hx Hv) as (z & ->). pose proof (room_x _ (write_int_exn o n z b)). destruct (write_int o n z b). auto.
    - destruct Hv as [->|Hv]; [auto|]. destruct (fits_flt _ _ _ Hx Hv) as (z & ->). pose proof (room_x _ (write_int_exn o n z b)). destruct (write_int o n z b). auto.
    - apply andb_true_iff in Hx. destruct Hx as [Hx Hl]. apply Z.leb_le in Hl. assert (S : exists s, hstring_of v = Some s) by (destruct Hv as [->|Hv]; [eexists; reflexivity|eapply fits_str; eauto]).
      destruct S as (s & ->). pose proof (room_x _ (write_fixed_exn s len pad left b Hl)). destruct (write_fixed s len pad left b). auto.
    - assert (S : exists s, hstring_of v = Some s) by (destruct Hv as [->|Hv]; [eexists; reflexivity|eapply fits_str; eauto]).
      destruct S as (s & ->). pose proof (room_x _ (write_dyn_exn s zn zo n o b)). destruct (write_dyn s zn zo n o b). auto.
    - apply G; auto. destruct Hv as [->|Hv]; [exact I|eapply fits_obj; eauto].
  Qed.
  Lemma goodx_elems enc u x : goodx enc -> fine_eelem u x = true -> forall vs (h : heap) b, heap_ok C h -> (forall v, In v vs -> v = HNull \/ fits h v u) ->
    let '(e, h1, _) := henc_elems enc x h vs b in X e /\ heap_ok C h1 /\ keeps h h1.
  Proof.
    intros G Hx vs. induction vs as [|v vs IH]; intros h b OK Hv; cbn [henc_elems]; [split; [exact none_x|split; [exact OK|apply keeps_refl]]|].
    pose proof (goodx_elem enc u x h v b G OK Hx (Hv v (or_introl eq_refl))) as Q. destruct (henc_elem enc x h v b) as [[[e|] h1] b1]; [exact Q|]. destruct Q as (_ & OK1 & K1).
    assert (Hv1 : forall w, In w vs -> w = HNull \/ fits h1 w u) by (intros w Hw; destruct (Hv w (or_intror Hw)); auto; right; eapply fits_keeps; eauto).
    specialize (IH h1 b1 OK1 Hv1). destruct (henc_elems enc x h1 vs b1) as [[e h2] b2]. destruct IH as (A & B & K2). split; auto. split; auto. eapply keeps_trans; eauto.
  Qed.
  Lemma mem_assoc {A} x (loc : list (string * A)) : mem x (map fst loc) = true -> exists i, assoc x loc = Some i.
  Proof.
    intros H. apply mem_in in H. induction loc as [|[y i] loc IH]; cbn in *; [contradiction|]. destruct (String.eqb_spec x y); [eauto|]. destruct H; [congruence|auto].
  Qed.
  Lemma goodx_enc enc sums this c cd : goodx enc -> assoc c C = Some cd -> forall ss (h : heap) loc b fs, heap_ok C h -> nth_error h this = Some (CObj c fs) ->
    fine_enc (c_fields cd) (map fst loc) ss = true -> let '(e, (h1, _, _)) := hexec_enc enc sums this ss (h, loc, b) in X e /\ heap_ok C h1 /\ keeps h h1.
  Proof.
    intros G Hc ss. induction ss as [|s ss IH]; intros h loc b fs OK Ht Hs; [split; [exact none_x|split; [exact OK|apply keeps_refl]]|].
    assert (KF := fun f t => known_field E h this c cd fs f t OK Ht Hc). pose proof (keeps_refl h) as KR.
    assert (STEP : forall (e : option exn) (h1 : heap) loc1 b1, X e -> heap_ok C h1 -> keeps h h1 -> (fine_enc (c_fields cd) (map fst loc1) ss = true) ->
      hexec_estmt enc sums this s (h, loc, b) = (e, (h1, loc1, b1)) ->
      let '(e, (h1, _, _)) := hexec_enc enc sums this (s :: ss) (h, loc, b) in X e /\ heap_ok C h1 /\ keeps h h1).
    { intros e h1 loc1 b1 He OK1 K1 Hss Q. cbn [hexec_enc]. rewrite Q. destruct e as [e|]; auto. destruct (keeps_object _ _ _ _ _ K1 Ht) as (gs & Hg & _).
      specialize (IH h1 loc1 b1 gs OK1 Hg Hss). destruct (hexec_enc enc sums this ss (h1, loc1, b1)) as [e2 [[h2 loc2] b2]]. destruct IH as (A & B & K2). split; auto. split; auto. eapply keeps_trans; eauto. }
    destruct s; cbn [fine_enc] in Hs; cbn [hexec_estmt] in STEP; rewrite ?(field_at h this f c fs Ht) in STEP.
    - apply andb_true_iff in Hs. destruct Hs as [Hf Hs]. apply at_type_inv in Hf. destruct Hf as (t & A & P). destruct (fits_int _ _ _ P (KF _ _ A)) as (z & Hz). rewrite Hz in STEP.
      pose proof (room_x _ (write_int_exn o n z b)). destruct (write_int o n z b) as [e b']. eapply STEP; eauto.
    - apply andb_true_iff in Hs. destruct Hs as [Hf Hs]. apply at_type_inv in Hf. destruct Hf as (t & A & P). destruct (fits_flt _ _ _ P (KF _ _ A)) as (z & Hz). rewrite Hz in STEP.
      pose proof (room_x _ (write_int_exn o n z b)). destruct (write_int o n z b) as [e b']. eapply STEP; eauto.
    - rewrite !andb_true_iff in Hs. destruct Hs as [[Hf Hl] Hs]. apply Z.leb_le in Hl. apply at_type_inv in Hf. destruct Hf as (t & A & P). destruct (fits_str _ _ _ P (KF _ _ A)) as (s & Hz). rewrite Hz in STEP.
      pose proof (room_x _ (write_fixed_exn s len pad left b Hl)). destruct (write_fixed s len pad left b) as [e b']. eapply STEP; eauto.
    - apply andb_true_iff in Hs. destruct Hs as [Hf Hs]. apply at_type_inv in Hf. destruct Hf as (t & A & P). destruct (fits_str _ _ _ P (KF _ _ A)) as (s & Hz). rewrite Hz in STEP.
      pose proof (room_x _ (write_dyn_exn s zn zo n o b)). destruct (write_dyn s zn zo n o b) as [e b']. eapply STEP; eauto.
    - apply andb_true_iff in Hs. destruct Hs as [Hf Hs]. apply at_type_inv in Hf. destruct Hf as (t & A & P). destruct t as [| | | | | | |u| |]; try discriminate P. pose proof (KF _ _ A) as FL.
      pose proof (room_x _ (write_int_exn zo zn 0 b)) as W0.
      destruct (fits_list _ _ _ FL) as [Hn|(l & vs & Hl & Hvs & Hv)]; [rewrite Hn in STEP; destruct (write_int zo zn 0 b) as [e b']; eapply STEP; eauto|].
      rewrite Hl in STEP. cbn [elements] in STEP. rewrite Hvs in STEP. destruct vs as [|v vs]; [destruct (write_int zo zn 0 b) as [e b']; eapply STEP; eauto|].
      pose proof (room_x _ (write_int_exn o n (wrap cast (Z.of_nat (List.length (v :: vs)))) b)) as W1.
      destruct (write_int o n (wrap cast (Z.of_nat (List.length (v :: vs)))) b) as [[e|] b']; [eapply STEP; eauto|].
      pose proof (goodx_elems enc u x G P (v :: vs) h b' OK Hv) as Q. destruct (henc_elems enc x h (v :: vs) b') as [[e h1] b1]. destruct Q as (Q1 & Q2 & Q3). eapply STEP; eauto.
    - apply andb_true_iff in Hs. destruct Hs as [Hf Hs]. apply at_type_inv in Hf. destruct Hf as (t & A & P). pose proof (G h (hget f fs) b OK (fits_obj _ _ _ P (KF _ _ A))) as Q.
      destruct (enc h (hget f fs) b) as [[e h1] b1]. destruct Q as (Q1 & Q2 & Q3). eapply STEP; eauto.
    - apply andb_true_iff in Hs. destruct Hs as [Hf Hs]. apply at_type_inv in Hf. destruct Hf as (t & A & P). pose proof (G h (hget f fs) b OK (fits_obj _ _ _ P (KF _ _ A))) as Q.
      destruct (hget f fs) as [|z|z|s|l]; [eapply STEP; [exact none_x|exact OK|exact KR|exact Hs|reflexivity]| | | |].
      + destruct (enc h (HInt z) b) as [[e h1] b1]. destruct Q as (Q1 & Q2 & Q3). eapply STEP; eauto.
      + destruct (enc h (HFlt z) b) as [[e h1] b1]. destruct Q as (Q1 & Q2 & Q3). eapply STEP; eauto.
      + destruct (enc h (HStr s) b) as [[e h1] b1]. destruct Q as (Q1 & Q2 & Q3). eapply STEP; eauto.
      + destruct (enc h (HRef l) b) as [[e h1] b1]. destruct Q as (Q1 & Q2 & Q3). eapply STEP; eauto.
    - eapply STEP; [exact none_x|exact OK|exact KR| |reflexivity]. exact Hs.
    - pose proof (room_x _ (write_int_exn o n 0 b)). destruct (write_int o n 0 b) as [e b']. eapply STEP; eauto.
    - rewrite !andb_true_iff in Hs. destruct Hs as [[[Hf Hx] Hy] Hs]. apply at_type_inv in Hf. destruct Hf as (t & A & P). destruct t; try discriminate P.
      destruct (mem_assoc _ _ Hx) as (i & Hi). destruct (mem_assoc _ _ Hy) as (j & Hj). rewrite Hi, Hj in STEP. eapply STEP; [exact none_x| | |exact Hs|reflexivity].
      + eapply (put_ok E); eauto. apply wrap_int.
      + apply keeps_put.
    - rewrite !andb_true_iff in Hs. destruct Hs as [[Hx Hf] Hs]. apply at_type_inv in Hf. destruct Hf as (t & A & P). destruct (mem_assoc _ _ Hx) as (i & Hi). rewrite Hi in STEP.
      destruct (fits_int _ _ _ P (KF _ _ A)) as (z & Hz). rewrite Hz in STEP. pose proof (room_x _ (set_int_exn o n i z b)). destruct (set_int o n i z b) as [e b']. eapply STEP; eauto.
    - apply andb_true_iff in Hs. destruct Hs as [Hf Hs]. apply at_type_inv in Hf. destruct Hf as (t & A & P). destruct t; try discriminate P.
      destruct (sums alg) as [k|]; (eapply STEP; [exact none_x| | |exact Hs|reflexivity]); auto.
      + eapply (put_ok E); eauto. apply wrap_int.
      + apply keeps_put.
  Qed.
End EncTypes.
Definition good (E : env) : (heap -> hval -> bytebuf -> option exn * heap * bytebuf) -> Prop := goodx E encode_exn.
Definition good_elem (E : env) := goodx_elem E encode_exn (fun _ H => H).
Definition good_enc (E : env) := goodx_enc E encode_exn (fun _ H => H).
(* it may throw anything *)
Definition calm (E : env) : (heap -> hval -> bytebuf -> option exn * heap * bytebuf) -> Prop := goodx E (fun _ => True).
Definition calm_elem (E : env) := goodx_elem E (fun _ => True) (fun _ _ => Logic.I).
Definition calm_enc (E : env) := goodx_enc E (fun _ => True) (fun _ _ => Logic.I).
Lemma good_calm E enc : good E enc -> calm E enc.
Proof. intros G h v b OK F. specialize (G h v b OK F). destruct (enc h v b) as [[e h1] b1]. split; [exact Logic.I|apply G]. Qed.
Section Encoding.
  Variable E : env.
  Hypothesis fine_classes : forall c cd, find_class E c = Some cd -> fine_enc (c_fields cd) [] (c_enc cd) = true.
  Theorem good_encode d : good E (hencode E d).
  Proof.
    induction d as [|d IH]; intros h v b OK Hv; pose proof (keeps_refl h) as KR; (destruct v as [|z|z|s|l]; cbn [fits] in Hv; try contradiction; cbn [hencode];
      [split; [unfold encode_exn; tauto|auto]|]).
    - split; [unfold encode_exn; tauto|auto].
    - destruct Hv as (c & fs & Hl). rewrite Hl. destruct (OK l c fs Hl) as (cd & Hc & _). unfold find_class. rewrite Hc.
      pose proof (goodx_enc E encode_exn (fun _ H => H) (hencode E d) (checksum E) l c cd IH Hc (c_enc cd) h [] b fs OK Hl (fine_classes c cd Hc)) as Q.
      destruct (hexec_enc (hencode E d) (checksum E) l (c_enc cd) (h, [], b)) as [e [[h1 loc] b1]]. exact Q.
  Qed.
End Encoding.
