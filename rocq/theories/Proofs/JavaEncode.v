(* Running the Java of encode: it does what hencode says. *)
From Coq Require Import ZArith List Bool String Lia.
From Verif.Model Require Import JavaPrim ByteBuf Utf8 Codec Ast Interp Show Heap.
From Verif.Spec Require Import Bytes Wire Sharing.
From Verif.Proofs Require Import BytesFacts HeapFacts HeapOwn HeapFrame HeapTypes HeapEncTypes HeapCycle JavaSem BufFacts.
From Verif.Java Require Import Lex Syntax Source Sem CodecTrees.
Import ListNotations.
Open Scope Z_scope.
Open Scope list_scope.

(* ---------- what has to be checked of a class (Proofs/JavaClasses.v does) ---------- *)
Definition widthb (n : nat) : bool := existsb (Nat.eqb n) [1; 2; 4; 8]%nat.
Definition fwidthb (n : nat) : bool := existsb (Nat.eqb n) [4; 8]%nat.
Lemma widthb_ok n : widthb n = true -> width n.
Proof. unfold widthb, width. cbn [existsb]. rewrite !orb_true_iff, !Nat.eqb_eq. intuition discriminate. Qed.
Lemma fwidthb_ok n : fwidthb n = true -> fwidth n.
Proof. unfold fwidthb, fwidth. cbn [existsb]. rewrite !orb_true_iff, !Nat.eqb_eq. intuition discriminate. Qed.
Definition lenb (len : Z) : bool := (0 <=? len) && (len <? 2 ^ 31).
Definition jfine_eelem (x : eelem) : bool :=
  match x with
  | XInt n _ => widthb n | XFlt n _ => fwidthb n | XFix len _ _ => lenb len | XDyn zn _ n _ => widthb zn && widthb n | XObj => true
  end.
(* names that mean a class in a method of a message *)
Definition reserved : list string := ["StringUtil"; "StandardCharsets"; "ChecksumServiceFactory"]%string.
Definition plain_local (x : string) : bool := negb (mem x ("byteBuf" :: "checksumService" :: reserved)%string).
Definition jfine_estmt (s : estmt) : bool :=
  match s with
  | EWrite n _ _ | EZero n _ | EPatch n _ _ _ => widthb n
  | EWriteF n _ _ => fwidthb n
  | EFix _ len _ _ => lenb len
  | EDyn _ zn _ n _ => widthb zn && widthb n
  | EList _ zn _ cast n _ x => widthb zn && widthb n && ((cast =? 16) || (cast =? 32)) && jfine_eelem x
  | EMark x => plain_local x
  | EObj _ | EObjOpt _ | EDiff _ _ _ | ESum _ _ => true
  end.

(* a name that means a class, wherever no local has it *)
Record class_env (P : program) (stat : list (string * jval)) (c : string) (cd : class_def) : Prop := {
  ce_field : forall f, field_ty P c f = option_map type_name (assoc f (c_fields cd));
  ce_two : forall m n, (2 <= n)%nat -> find_method P c m n = method_in (members class_BinaryCodec) m n;
  ce_util : is_class P stat c "StringUtil" "StringUtil";
  ce_math : is_class P stat c "Math" "Math";
  ce_utf : is_class P stat c "StandardCharsets" "StandardCharsets";
  ce_sum : is_class P stat c "ChecksumServiceFactory" "ChecksumServiceFactory" }.
(* what buffers always are *)
Definition okb (b : bytebuf) : Prop := (ridx b <= widx b)%nat /\ (widx b <= List.length (arr b))%nat /\ Z.of_nat (List.length (arr b)) <= maxcap b < 2 ^ 31.
(* v is a service that computes g *)
Definition computes (P : program) (stat : list (string * jval)) (v : jval) (g : list Z -> Z) : Prop :=
  match v with JSvc _ _ | JOne _ => True | _ => False end /\
  forall pr vcall n x0 x h b L, 2 ^ 31 <= Z.of_nat n -> okb b -> let s := {| s_h := h; s_b := b; s_loc := L; s_stat := stat |} in
    exists t, dispatch P vcall (run P pr vcall (S n)) x0 x v "calc" [JBuf] s = Ret (JT t (HInt (g (readable b)))) s.
(* the library and the registry *)
Record base_env (E : env) (P : program) (stat : list (string * jval)) : Prop := {
  be_util : assoc "StringUtil"%string P = None;
  be_math : assoc "Math"%string P = None;
  be_reg : assoc "ChecksumServiceFactory"%string P = Some class_ChecksumServiceFactory;
  be_inst : assoc "ChecksumServiceFactory.INSTANCE"%string stat = None;
  be_sums : exists m, assoc "ChecksumServiceFactory.CACHE"%string stat = Some (JMap m)
                      /\ forall a, match checksum E a with
                                   | Some g => exists v, m (MKey (KStr (chars a))) = Some v /\ computes P stat v g
                                   | None => m (MKey (KStr (chars a))) = None
                                   end }.
Definition small (h : heap) : Prop := forall l vs, nth_error h l = Some (CList vs) -> Z.of_nat (List.length vs) < 2 ^ 31.

(* encode changes nothing but numbers *)
Definition steady (h h1 : heap) : Prop :=
  List.length h1 = List.length h /\ forall l f, (forall z, field h l f <> HInt z) -> field h1 l f = field h l f.
Lemma steady_refl h : steady h h. Proof. split; auto. Qed.
Lemma steady_trans h h1 h2 : steady h h1 -> steady h1 h2 -> steady h h2.
Proof. intros [A B] [C D]. split; [congruence|]. intros l f H. rewrite D, B; auto. intros z. rewrite B; auto. Qed.
Lemma steady_put h l f x z c fs : nth_error h l = Some (CObj c fs) -> field h l f = HInt z -> steady h (put_field h l f x).
Proof.
  intros Hl Hf. split; [apply put_length|]. intros m g H. destruct (Nat.eq_dec m l) as [->|N].
  - rewrite (field_at _ _ _ _ _ Hl) in Hf. rewrite (field_at _ _ g _ _ Hl) in *. rewrite (field_at _ _ _ _ _ (put_at h l f x c fs Hl)). destruct (String.eqb_spec g f) as [->|D]; [exfalso; eapply H; eauto|].
    apply hget_hset_off. congruence.
  - unfold field. now rewrite put_off.
Qed.
Lemma small_steady h h1 : small h -> steady h h1 -> keeps h h1 -> small h1.
Proof.
  intros S [L _] K l vs H. assert (B : (l < List.length h)%nat) by (rewrite <- L; eapply nth_lt; eauto). destruct (nth_error h l) as [k|] eqn:Q; [|apply nth_error_None in Q; lia].
  destruct (K l k Q) as (k' & Hk & Pr). rewrite H in Hk. injection Hk as <-. destruct k; cbn in Pr; [discriminate|]. injection Pr as ->. eapply S; eauto.
Qed.

Section Steady.
  Variable E : env.
  Let C := classes E.
  Definition still (enc : heap -> hval -> bytebuf -> option exn * heap * bytebuf) : Prop :=
    forall (h : heap) v b, heap_ok C h -> fits h v TCodec -> steady h (snd (fst (enc h v b))).
  Lemma still_elem enc u x h v b : still enc -> heap_ok C h -> fine_eelem u x = true -> (v = HNull \/ fits h v u) -> steady h (snd (fst (henc_elem enc x h v b))).
  Proof.
    intros S OK Hx Hv. pose proof (steady_refl h) as R.
    destruct x; cbn [henc_elem].
    - destruct v; auto. destruct (write_int o n z b); exact R.
    - destruct v; auto. destruct (write_int o n bits b); exact R.
    - destruct (hstring_of v); auto. destruct (write_fixed j len pad left b); exact R.
    - destruct (hstring_of v); auto. destruct (write_dyn j zn zo n o b); exact R.
    - apply S; auto. destruct Hv as [->|Hv]; [exact I|eapply fits_obj; eauto].
  Qed.
  Lemma still_elems enc u x : calm E enc -> still enc -> fine_eelem u x = true -> forall vs h b, heap_ok C h -> (forall v, In v vs -> v = HNull \/ fits h v u) -> steady h (snd (fst (henc_elems enc x h vs b))).
  Proof.
    intros G S Hx. induction vs as [|v vs IH]; intros h b OK Hv; cbn [henc_elems]; [apply steady_refl|].
    pose proof (calm_elem E enc u x h v b G OK Hx (Hv v (or_introl eq_refl))) as Q. pose proof (still_elem enc u x h v b S OK Hx (Hv v (or_introl eq_refl))) as R.
    destruct (henc_elem enc x h v b) as [[[e|] h1] b1]; [exact R|]. destruct Q as (_ & OK1 & K1). eapply steady_trans; [exact R|]. apply IH; auto.
    intros w Hw. destruct (Hv w (or_intror Hw)); auto. right. eapply fits_keeps; eauto.
  Qed.
  Definition next_marks (L : list string) (s : estmt) : list string := match s with EMark x => x :: L | _ => L end.
  Lemma fine_cons F L s r : fine_enc F L (s :: r) = true -> fine_enc F L [s] = true /\ fine_enc F (next_marks L s) r = true.
  Proof. destruct s; cbn [fine_enc next_marks]; rewrite ?andb_true_iff; tauto. Qed.
  Lemma hexec_one enc sums this s st : hexec_enc enc sums this [s] st = hexec_estmt enc sums this s st.
  Proof. cbn [hexec_enc]. destruct (hexec_estmt enc sums this s st) as [[e|] q]; reflexivity. Qed.
  Lemma calm_stmt enc sums this c cd s h loc b fs : calm E enc -> assoc c C = Some cd -> heap_ok C h -> nth_error h this = Some (CObj c fs) ->
    fine_enc (c_fields cd) (map fst loc) [s] = true -> let '(e, (h1, _, _)) := hexec_estmt enc sums this s (h, loc, b) in True /\ heap_ok C h1 /\ keeps h h1.
  Proof. intros G Hc OK Ht F. rewrite <- hexec_one. eapply calm_enc; eauto. Qed.
  Lemma marks_stmt enc sums this s h loc b st' : hexec_estmt enc sums this s (h, loc, b) = (None, st') -> map fst (snd (fst st')) = next_marks (map fst loc) s.
  Proof.
    destruct s; cbn [hexec_estmt next_marks]; intros H;
      repeat match type of H with
      | (let '(_, _) := ?x in _) = _ => destruct x eqn:?
      | match ?x with _ => _ end = _ => destruct x eqn:?
      end; try discriminate H; inversion H; subst; reflexivity.
  Qed.
  Lemma still_stmt enc sums this c cd s h loc b fs : calm E enc -> still enc -> assoc c C = Some cd -> heap_ok C h -> nth_error h this = Some (CObj c fs) ->
    fine_enc (c_fields cd) (map fst loc) [s] = true -> steady h (fst (fst (snd (hexec_estmt enc sums this s (h, loc, b))))).
  Proof.
    intros G S Hc OK Ht Hs. pose proof (steady_refl h) as R. assert (KF := fun f t => known_field E h this c cd fs f t OK Ht Hc).
    destruct s; cbn [fine_enc] in Hs; rewrite ?andb_true_r in Hs; cbn [hexec_estmt].
    - destruct (field h this f); auto. destruct (write_int o n z b); exact R.
    - destruct (field h this f); auto. destruct (write_int o n bits b); exact R.
    - destruct (hstring_of _); auto. destruct (write_fixed j len pad left b); exact R.
    - destruct (hstring_of _); auto. destruct (write_dyn j zn zo n o b); exact R.
    - apply at_type_inv in Hs. destruct Hs as (t & A & Q). destruct t as [| | | | | | |u| |]; try discriminate Q. pose proof (KF _ _ A) as FL. rewrite <- (field_at _ _ _ _ _ Ht) in FL.
      destruct (fits_list _ _ _ FL) as [Hn|(l & vs & Hl & Hvs & Hv)]; [rewrite Hn; destruct (write_int zo zn 0 b); exact R|].
      rewrite Hl. cbn [elements]. rewrite Hvs. destruct vs as [|v vs]; [destruct (write_int zo zn 0 b); exact R|].
      destruct (write_int o n _ b) as [[e|] b']; [exact R|]. pose proof (still_elems enc u x G S Q (v :: vs) h b' OK Hv) as W. destruct (henc_elems enc x h (v :: vs) b') as [[e h1] b1]. exact W.
    - apply at_type_inv in Hs. destruct Hs as (t & A & Q). pose proof (S h (field h this f) b OK) as W. rewrite (field_at _ _ f _ _ Ht) in W |- *. specialize (W (fits_obj _ _ _ Q (KF _ _ A))).
      destruct (enc h (hget f fs) b) as [[e h1] b1]. exact W.
    - apply at_type_inv in Hs. destruct Hs as (t & A & Q). pose proof (S h (field h this f) b OK) as W. rewrite (field_at _ _ f _ _ Ht) in W |- *. specialize (W (fits_obj _ _ _ Q (KF _ _ A))).
      destruct (hget f fs) as [|z|z|s|l] eqn:V; [exact R| | | |]; match goal with |- context [enc h ?v b] => destruct (enc h v b) as [[e h1] b1]; exact W end.
    - exact R.
    - destruct (write_int o n 0 b); exact R.
    - rewrite !andb_true_iff in Hs. destruct Hs as [[Hf _] _]. apply at_type_inv in Hf. destruct Hf as (t & A & Q). destruct t; try discriminate Q.
      destruct (assoc x loc); auto. destruct (assoc y loc); auto. cbn [snd fst]. destruct (fits_int h _ TInt eq_refl (KF _ _ A)) as (z & Hz). eapply steady_put; eauto. rewrite (field_at _ _ _ _ _ Ht). exact Hz.
    - destruct (assoc x loc); auto. destruct (field h this f); auto. destruct (set_int o n n0 z b); exact R.
    - apply at_type_inv in Hs. destruct Hs as (t & A & Q). destruct t; try discriminate Q. destruct (sums alg); auto. cbn [snd fst]. destruct (fits_int h _ TInt eq_refl (KF _ _ A)) as (z0 & Hz).
      eapply steady_put; eauto. rewrite (field_at _ _ _ _ _ Ht). exact Hz.
  Qed.
  Lemma still_enc enc sums this c cd : calm E enc -> still enc -> assoc c C = Some cd -> forall ss (h : heap) loc b fs, heap_ok C h -> nth_error h this = Some (CObj c fs) ->
    fine_enc (c_fields cd) (map fst loc) ss = true -> steady h (fst (fst (snd (hexec_enc enc sums this ss (h, loc, b))))).
  Proof.
    intros G S Hc. induction ss as [|s ss IH]; intros h loc b fs OK Ht Hs; [apply steady_refl|]. apply fine_cons in Hs as [H1 H2]. cbn [hexec_enc].
    pose proof (calm_stmt enc sums this c cd s h loc b fs G Hc OK Ht H1) as A. pose proof (still_stmt enc sums this c cd s h loc b fs G S Hc OK Ht H1) as B.
    pose proof (marks_stmt enc sums this s h loc b) as M.
    destruct (hexec_estmt enc sums this s (h, loc, b)) as [[e|] [[h1 loc1] b1]]; [exact B|]. destruct A as (_ & OK1 & K1). destruct (keeps_object _ _ _ _ _ K1 Ht) as (gs & Hg & _).
    eapply steady_trans; [exact B|]. apply (IH h1 loc1 b1 gs OK1 Hg). specialize (M _ eq_refl). cbn [fst snd] in M. now rewrite M.
  Qed.
  Hypothesis fine_classes : forall c cd, find_class E c = Some cd -> fine_enc (c_fields cd) [] (c_enc cd) = true.
  Theorem still_encode d : still (hencode E d).
  Proof.
    induction d as [|d IH]; intros h v b OK Hv; pose proof (steady_refl h) as R; (destruct v as [|z|z|s|l]; cbn [fits] in Hv; try contradiction; cbn [hencode]; [exact R|]).
    - exact R.
    - destruct Hv as (c & fs & Hl). rewrite Hl. destruct (OK l c fs Hl) as (cd & Hc & _). unfold find_class. fold C. rewrite Hc.
      pose proof (still_enc (hencode E d) (checksum E) l c cd (good_calm E _ (good_encode E fine_classes d)) IH Hc (c_enc cd) h [] b fs OK Hl (fine_classes c cd Hc)) as Q.
      destruct (hexec_enc (hencode E d) (checksum E) l (c_enc cd) (h, [], b)) as [e [[h1 loc] b1]]. exact Q.
  Qed.
End Steady.

(* encode keeps buffers what they are *)
Lemma okb_wf b : wf b -> okb b. Proof. intros []. repeat split; auto. Qed.
Lemma okb_write bs b : okb b -> okb (snd (write_bytes bs b)).
Proof.
  intros (A & B & D & M). unfold write_bytes. destruct (Z.leb_spec (Z.of_nat (widx b + List.length bs)) (maxcap b)) as [H|H]; [|repeat split; assumption].
  cbn [snd]. unfold okb, set_widx, set_arr, splice, grown. cbn [ridx widx arr maxcap].
  set (need := (widx b + List.length bs)%nat) in *.
  assert (G : let g := if Nat.leb need (List.length (arr b)) then arr b else arr b ++ map (fun i => fill (policy b) i mod 256) (seq (List.length (arr b)) (Z.to_nat (Z.min (maxcap b) (Z.of_nat (need + extra (policy b) need))) - List.length (arr b)))
              in (need <= List.length g)%nat /\ Z.of_nat (List.length g) <= maxcap b).
  { cbv zeta. destruct (Nat.leb_spec need (List.length (arr b))) as [N|N]; [split; assumption|]. rewrite app_length, map_length, seq_length. split; lia. }
  cbv zeta in G. destruct G as [G1 G2]. destruct (Nat.leb need (List.length (arr b))); rewrite !app_length, firstn_length, skipn_length; (split; [lia|]); split; lia.
Qed.
Lemma okb_int o n z b : okb b -> okb (snd (write_int o n z b)). Proof. apply okb_write. Qed.
Lemma okb_set o n i z b : okb b -> okb (snd (set_int o n i z b)).
Proof.
  intros (A & B & M). unfold set_int. destruct (Nat.leb_spec (i + n) (List.length (arr b))) as [H|H]; [|repeat split; tauto].
  cbn [snd]. unfold okb, set_arr, splice. cbn [ridx widx arr maxcap]. assert (L : List.length (put_int o n z) = n) by (rewrite put_int_number; apply number_length). rewrite !app_length, firstn_length, skipn_length, L. repeat split; try lia; tauto.
Qed.
Lemma okb_pad n ch : forall b, okb b -> okb (snd (pad_loop n ch b)).
Proof.
  induction n as [|n IH]; intros b H; cbn [pad_loop]; [exact H|]. pose proof (okb_int BE 1 ch b H) as W. destruct (write_int BE 1 ch b) as [[e|] b']; [exact W|apply IH; exact W].
Qed.
Lemma okb_fixed s len pad lft b : okb b -> okb (snd (write_fixed s len pad lft b)).
Proof.
  intros H. unfold write_fixed. destruct s as [[|z u]|].
  1,3: destruct (negb lft && (0 <? len)); [apply okb_pad|]; exact H.
  set (w := Z.min _ len). assert (Q : okb (snd (if lft && (w <? len) then pad_char (len - w) pad b else (None, b)))) by (destruct (lft && (w <? len)); [apply okb_pad|]; exact H).
  destruct (if lft && (w <? len) then _ else _) as [[e|] b0]; cbn [snd] in Q; [exact Q|]. unfold write_prefix. destruct (w <? 0); [exact Q|].
  pose proof (okb_write (firstn (Z.to_nat w) (utf8_encode (z :: u))) b0 Q) as W. destruct (write_bytes _ b0) as [[e|] b1]; [exact W|]. destruct (negb lft && (w <? len)); [apply okb_pad|]; exact W.
Qed.
Lemma okb_dyn s zn zo n o b : okb b -> okb (snd (write_dyn s zn zo n o b)).
Proof.
  intros H. unfold write_dyn. destruct s as [[|z u]|]; [apply okb_int; exact H| |apply okb_int; exact H].
  pose proof (okb_int o n (Z.of_nat (List.length (utf8_encode (z :: u)))) b H) as W. destruct (write_int o n _ b) as [[e|] b']; [exact W|]. apply okb_write. exact W.
Qed.
Definition holds_buf (enc : heap -> hval -> bytebuf -> option exn * heap * bytebuf) : Prop := forall h v b, okb b -> okb (snd (enc h v b)).
Ltac okb_step := match goal with
  | H : okb ?b |- context [write_int ?o ?n ?z ?b] => let W := fresh in pose proof (okb_int o n z b H) as W; destruct (write_int o n z b) as [[?|] ?]; exact W
  | H : okb ?b |- context [write_fixed ?s ?n ?z ?l ?b] => let W := fresh in pose proof (okb_fixed s n z l b H) as W; destruct (write_fixed s n z l b) as [[?|] ?]; exact W
  | H : okb ?b |- context [write_dyn ?s ?zn ?zo ?n ?o ?b] => let W := fresh in pose proof (okb_dyn s zn zo n o b H) as W; destruct (write_dyn s zn zo n o b) as [[?|] ?]; exact W
  | H : okb ?b |- context [set_int ?o ?n ?i ?z ?b] => let W := fresh in pose proof (okb_set o n i z b H) as W; destruct (set_int o n i z b) as [[?|] ?]; exact W
  end.
Lemma okb_elem enc x h v b : holds_buf enc -> okb b -> okb (snd (henc_elem enc x h v b)).
Proof. intros G H. destruct x; cbn [henc_elem]; [destruct v|destruct v|destruct (hstring_of v)|destruct (hstring_of v)|apply G]; try exact H; okb_step. Qed.
Lemma okb_elems enc x : holds_buf enc -> forall vs h b, okb b -> okb (snd (henc_elems enc x h vs b)).
Proof.
  intros G. induction vs as [|v vs IH]; intros h b H; cbn [henc_elems]; [exact H|]. pose proof (okb_elem enc x h v b G H) as W. destruct (henc_elem enc x h v b) as [[[e|] h1] b1]; [exact W|apply IH; exact W].
Qed.
Lemma okb_stmt enc sums this s h loc b : holds_buf enc -> okb b -> okb (snd (snd (hexec_estmt enc sums this s (h, loc, b)))).
Proof.
  intros G H. destruct s; cbn [hexec_estmt].
  - destruct (field h this f); try exact H; okb_step.
  - destruct (field h this f); try exact H; okb_step.
  - destruct (hstring_of _); try exact H; okb_step.
  - destruct (hstring_of _); try exact H; okb_step.
  - destruct (field h this f) as [|z|z|s|l] eqn:V; try exact H; try okb_step. destruct (elements h (HRef l)) as [[|v vs]|]; try exact H; try okb_step.
    pose proof (okb_int o n (wrap cast (Z.of_nat (List.length (v :: vs)))) b H) as W. destruct (write_int o n _ b) as [[e|] b']; [exact W|]. pose proof (okb_elems enc x G (v :: vs) h b' W) as W'. destruct (henc_elems enc x h (v :: vs) b') as [[e h1] b1]. exact W'.
  - pose proof (G h (field h this f) b H) as W. destruct (enc h (field h this f) b) as [[e h1] b1]. exact W.
  - pose proof (G h (field h this f) b H) as W. destruct (field h this f); [exact H| | | |]; match goal with |- context [enc h ?v b] => destruct (enc h v b) as [[e h1] b1]; exact W end.
  - exact H.
  - okb_step.
  - destruct (assoc x loc); [|exact H]. destruct (assoc y loc); exact H.
  - destruct (assoc x loc); [|exact H]. destruct (field h this f); try exact H; okb_step.
  - destruct (sums alg); exact H.
Qed.
Lemma okb_enc enc sums this : holds_buf enc -> forall ss h loc b, okb b -> okb (snd (snd (hexec_enc enc sums this ss (h, loc, b)))).
Proof.
  intros G. induction ss as [|s ss IH]; intros h loc b H; cbn [hexec_enc]; [exact H|]. pose proof (okb_stmt enc sums this s h loc b G H) as W. destruct (hexec_estmt enc sums this s (h, loc, b)) as [[e|] [[h1 loc1] b1]]; [exact W|apply IH; exact W].
Qed.
Theorem okb_encode E d : holds_buf (hencode E d).
Proof.
  induction d as [|d IH]; intros h v b H; cbn [hencode]; [destruct v; exact H|]. destruct v as [|z|z|s|l]; try exact H. destruct (nth_error h l) as [[c fs|vs]|]; try exact H. destruct (find_class E c) as [cd|]; [|exact H].
  pose proof (okb_enc (hencode E d) (checksum E) l IH (c_enc cd) h [] b H) as W. destruct (hexec_enc _ _ _ _ _) as [e [[h1 loc] b1]]. exact W.
Qed.

(* ---------- one statement ---------- *)
Definition locals := list (string * (ty * jval)).
Definition base_locs (L : locals) : Prop := assoc "byteBuf"%string L = Some (T0 "ByteBuf", JBuf) /\ forall x, In x reserved -> assoc x L = None.
Lemma base_cons x v L : base_locs L -> ~ In x ("byteBuf" :: reserved)%string -> base_locs ((x, v) :: L).
Proof.
  intros [A B] N. split.
  - cbn [assoc]. destruct (String.eqb_spec "byteBuf" x) as [<-|D]; [exfalso; apply N; now left|exact A].
  - intros y Hy. cbn [assoc]. destruct (String.eqb_spec y x) as [->|D]; [exfalso; apply N; now right|auto].
Qed.
Definition locs_ok (loc : list (string * nat)) (L : locals) : Prop :=
  base_locs L /\ forall x i, assoc x loc = Some i -> x <> "checksumService"%string /\ assoc x L = Some (T1 "int", jint (Z.of_nat i)).

Section Statements.
  Variable E : env.
  Let C := classes E.
  Variable P : program.
  Variable pr : printers.
  Variable vcall : string -> nat -> list jval -> st -> res jval.
  Variable k : nat.
  Variable stat : list (string * jval).
  Variable enc : heap -> hval -> bytebuf -> option exn * heap * bytebuf.
  Hypothesis Hk : 2 ^ 31 <= Z.of_nat k.
  Hypothesis BE_ : base_env E P stat.
  Definition mk (h : heap) (b : bytebuf) (L : locals) : st := {| s_h := h; s_b := b; s_loc := L; s_stat := stat |}.
  Hypothesis HB : holds_buf enc.
  Hypothesis Hv : forall h l b L, heap_ok C h -> small h -> okb b -> (exists c fs, nth_error h l = Some (CObj c fs)) ->
    vcall "encode" l [JBuf] (mk h b L) = (let '(e, h', b') := enc h (HRef l) b in ends e JVoid (mk h' b' L)).
  Hypothesis Hnull : forall h b, enc h HNull b = (Some NPE, h, b).

  Variable c : string.
  Variable cd : class_def.
  Variable this : nat.
  Hypothesis CE : class_env P stat c cd.
  Let x0 := {| x_this := Some this; x_class := c |}.
  Let call := run P pr vcall (S (S (S k))).
  Let ev_ := eval P pr vcall call x0.
  Let ex := exec P pr vcall call (S (S (S k))) x0.
  Let exa := exec_all P pr vcall call (S (S (S k))) x0.

  Lemma ev_buf h b L : base_locs L -> ev_ buf (mk h b L) = Ret JBuf (mk h b L).
  Proof. intros [A _]. unfold ev_, buf. cbn [eval]. eapply name_loc. exact A. Qed.
  Lemma ev_this_f h b L f t fs : nth_error h this = Some (CObj c fs) -> assoc f (c_fields cd) = Some t ->
    ev_ (this_f f) (mk h b L) = Ret (JT (type_name t) (field h this f)) (mk h b L).
  Proof. intros Ht A. unfold ev_, this_f, x0. cbn [eval x_this bind field_val mk s_h]. rewrite Ht, (ce_field _ _ _ _ CE), A. reflexivity. Qed.
  Lemma ev_callu m args s : String.eqb m "getClass" || String.eqb m "values" = false ->
    eval P pr vcall call x0 (ECallU m args) s = bind (eval_args P pr vcall call x0 args s) (fun vs s' => call (x_this x0) (x_class x0) m vs s').
  Proof. intros N. apply orb_false_iff in N. destruct N as [N1 N2]. cbn [eval]. rewrite N1, N2. reflexivity. Qed.
  Lemma ev_lit z s : ev_ (lit z) s = Ret (jint z) s. Proof. reflexivity. Qed.

  Lemma ex_write n o e t z h b L : base_locs L -> width n -> ev_ e (mk h b L) = Ret (JT t (HInt z)) (mk h b L) ->
    ex (call_s buf ("write" ++ int_name n o) [e]) (mk h b L) = (let '(x, b') := write_int o n z b in ends x None (mk h b' L)).
  Proof.
    intros B W He. unfold ex, call_s. rewrite ex_expr, ev_call. fold ev_. rewrite ev_buf by exact B. cbn [bind]. rewrite args_cons. fold ev_. rewrite He. cbn [bind]. rewrite args_nil. cbn [bind dispatch].
    rewrite buf_write by exact W. cbn [num mk s_b]. destruct (write_int o n z b) as [[x|] b']; reflexivity.
  Qed.
  Lemma ex_write_null n o e t h b L : base_locs L -> width n -> ev_ e (mk h b L) = Ret (JT t HNull) (mk h b L) ->
    ex (call_s buf ("write" ++ int_name n o) [e]) (mk h b L) = Exc NPE (mk h b L).
  Proof.
    intros B W He. unfold ex, call_s. rewrite ex_expr, ev_call. fold ev_. rewrite ev_buf by exact B. cbn [bind]. rewrite args_cons. fold ev_. rewrite He. cbn [bind]. rewrite args_nil. cbn [bind dispatch].
    rewrite buf_write by exact W. reflexivity.
  Qed.
  Lemma ex_writef n o e t v h b L : base_locs L -> fwidth n -> (v = HNull \/ exists z, v = HFlt z) -> ev_ e (mk h b L) = Ret (JT t v) (mk h b L) ->
    ex (call_s buf ("write" ++ flt_name n o) [e]) (mk h b L) = match v with HFlt z => let '(x, b') := write_int o n z b in ends x None (mk h b' L) | _ => Exc NPE (mk h b L) end.
  Proof.
    intros B W V He. unfold ex, call_s. rewrite ex_expr, ev_call. fold ev_. rewrite ev_buf by exact B. cbn [bind]. rewrite args_cons. fold ev_. rewrite He. cbn [bind]. rewrite args_nil. cbn [bind dispatch].
    rewrite buf_write_f by exact W. destruct V as [->|(z & ->)]; cbn [mk s_b]; [reflexivity|]. destruct (write_int o n z b) as [[x|] b']; reflexivity.
  Qed.
  Definition str_val (s : jstring) : hval := match s with Some u => HStr u | None => HNull end.
  Lemma string_val v s : hstring_of v = Some s -> v = str_val s.
  Proof. destruct v; cbn; intros H; try discriminate; injection H as <-; reflexivity. Qed.
  Lemma ex_fix e len pad lft t s h b L : base_locs L -> 0 <= len < 2 ^ 31 -> ev_ e (mk h b L) = Ret (JT t (str_val s)) (mk h b L) ->
    ex (SExpr (ECallU "writeFixedString" ([buf; e; lit len] ++ pad_args pad lft))) (mk h b L) = (let '(x, b') := write_fixed s len pad lft b in ends x None (mk h b' L)).
  Proof.
    intros B Hl He. pose proof (fun V ch => run_write5 P pr V c stat (ce_two _ _ _ _ CE) (ce_util _ _ _ _ CE) (ce_math _ _ _ _ CE) (be_util _ _ _ BE_) (be_math _ _ _ BE_) (ce_utf _ _ _ _ CE) (S k) ch) as W5.
    pose proof (fun V ch => run_write3 P pr V c stat (ce_two _ _ _ _ CE) (ce_util _ _ _ _ CE) (ce_math _ _ _ _ CE) (be_util _ _ _ BE_) (be_math _ _ _ BE_) (ce_utf _ _ _ _ CE) k ch) as W3.
    unfold ex. rewrite ex_expr. unfold pad_args. destruct ((pad =? 32) && negb lft) eqn:Q.
    - apply andb_true_iff in Q. destruct Q as [Q1 Q2]. apply Z.eqb_eq in Q1. subst pad. destruct lft; [discriminate|]. cbn [List.app]. rewrite ev_callu by reflexivity. rewrite !args_cons. fold ev_. rewrite ev_buf by exact B. cbn [bind]. rewrite args_cons. fold ev_. rewrite He. cbn [bind].
      rewrite args_cons. fold ev_. rewrite ev_lit. cbn [bind]. rewrite args_nil. cbn [bind]. unfold call, str_val, jint. cbn [x_this x_class x0]. rewrite W3 by (auto || lia). unfold back, write_fixed_default. cbn [mk s_b]. destruct (write_fixed s len 32 false b) as [[x|] b']; reflexivity.
    - cbn [List.app]. rewrite ev_callu by reflexivity. rewrite !args_cons. fold ev_. rewrite ev_buf by exact B. cbn [bind]. rewrite args_cons. fold ev_. rewrite He. cbn [bind].
      rewrite args_cons. fold ev_. rewrite ev_lit. cbn [bind]. rewrite args_cons. cbn [eval bind]. rewrite args_cons. cbn [eval bind]. rewrite args_nil. cbn [bind]. unfold call, str_val, jint. cbn [x_this x_class x0]. rewrite W5 by (auto || lia). unfold back. cbn [mk s_b]. destruct (write_fixed s len pad lft b) as [[x|] b']; reflexivity.
  Qed.
  Lemma ev_utf h b L : base_locs L -> ev_ utf8 (mk h b L) = Ret JCharset (mk h b L).
  Proof.
    intros [_ R]. unfold ev_, utf8. cbn [eval]. unfold x0. rewrite name_class with (q := "StandardCharsets"%string); [reflexivity|exact (ce_utf _ _ _ _ CE)|apply R; cbn; tauto].
  Qed.
  Lemma ev_empty e t s h b L : base_locs L -> ev_ e (mk h b L) = Ret (JT t (str_val s)) (mk h b L) ->
    ev_ (ECall (EName "StringUtil") "isNullOrEmpty" [e]) (mk h b L) = Ret (JB (match s with Some (_ :: _) => false | _ => true end)) (mk h b L).
  Proof.
    intros [_ R] He. unfold ev_. rewrite ev_call. cbn [eval]. unfold x0 at 1. rewrite name_class with (q := "StringUtil"%string); [|exact (ce_util _ _ _ _ CE)|apply R; cbn; tauto]. cbn [bind].
    rewrite args_cons. fold ev_. rewrite He. cbn [bind]. rewrite args_nil. cbn [bind dispatch]. rewrite (be_util _ _ _ BE_). destruct s as [[|z u]|]; reflexivity.
  Qed.
  Lemma ex_dyn e zn zo n o t s h b L : base_locs L -> width zn -> width n -> ev_ e (mk h b L) = Ret (JT t (str_val s)) (mk h b L) ->
    ex (j_dyn e zn zo n o) (mk h b L) = (let '(x, b') := write_dyn s zn zo n o b in ends x None (mk h b' L)).
  Proof.
    intros B Wz Wn He. unfold ex, j_dyn. rewrite ex_if. fold ev_. rewrite (ev_empty e t s) by auto. cbn [bind].
    assert (Z0 : scoped (mk h b L) (ex (SBlock [call_s buf ("write" ++ int_name zn zo) [lit 0]]) (mk h b L)) = (let '(x, b') := write_int zo zn 0 b in ends x None (mk h b' L))).
    { unfold ex. rewrite ex_block, all_cons. fold ex. rewrite (ex_write zn zo (lit 0) (T1 "int") 0) by auto. destruct (write_int zo zn 0 b) as [[x|] b']; cbn [ends seq_st bind]; [|rewrite all_nil]; cbn [scoped]; unfold mk; cbn [s_loc]; rewrite !leave_same by reflexivity; reflexivity. }
    destruct s as [[|z u]|]; [exact Z0| |exact Z0]. cbn [str_val] in He. clear Z0.
    rewrite ex_block, all_cons, ex_local, ev_call. fold ev_. rewrite He. cbn [bind]. rewrite args_cons. fold ev_. rewrite ev_utf by exact B. cbn [bind]. rewrite args_nil. cbn [bind dispatch].
    unfold str_call. cbn [String.eqb Ascii.eqb Bool.eqb bind]. unfold declare. cbn [conv bind seq_st]. unfold set_loc. cbn [mk s_h s_b s_loc s_stat].
    unfold write_dyn. set (bytes := utf8_encode (z :: u)). set (L' := ("bytes"%string, (TyArr (T0 "byte"), JBytes bytes)) :: L). change {| s_h := h; s_b := b; s_loc := L'; s_stat := stat |} with (mk h b L').
    assert (B' : base_locs L') by (apply base_cons; [exact B|cbn; intuition discriminate]).
    rewrite all_cons. fold ex. rewrite (ex_write n o (EField (EName "bytes") "length") (T1 "int") (Z.of_nat (List.length bytes))) by (auto || reflexivity).
    destruct (write_int o n (Z.of_nat (List.length bytes)) b) as [[x|] b']; cbn [ends seq_st bind].
    { cbn [scoped]. unfold L', mk. cbn [s_loc]. rewrite leave_b by reflexivity. rewrite leave_same by reflexivity. reflexivity. }
    rewrite all_cons. unfold call_s at 1. rewrite ex_expr, ev_call. fold ev_. rewrite ev_buf by exact B'. cbn [bind]. rewrite args_cons. cbn [eval]. erewrite name_loc by reflexivity. cbn [bind]. rewrite args_nil. cbn [bind dispatch].
    change (buf_call "writeBytes" [JBytes bytes] (mk h b' L')) with (done (mk h b' L') (write_bytes bytes b')).
    destruct (write_bytes bytes b') as [[x|] b'']; cbn [done ends seq_st bind]; [|rewrite all_nil]; cbn [scoped]; unfold L', mk, set_b; cbn [s_loc s_h s_b s_stat]; rewrite leave_b by reflexivity; rewrite leave_same by reflexivity; reflexivity.
  Qed.
  Lemma ex_obj e t v h b L : base_locs L -> heap_ok C h -> small h -> okb b -> fits h v TCodec -> ev_ e (mk h b L) = Ret (JT t v) (mk h b L) ->
    ex (call_s e "encode" [buf]) (mk h b L) = (let '(x, h', b') := enc h v b in ends x None (mk h' b' L)).
  Proof.
    intros B OK SM OB F He. unfold ex, call_s. rewrite ex_expr, ev_call. fold ev_. rewrite He. cbn [bind]. rewrite args_cons. fold ev_. rewrite ev_buf by exact B. cbn [bind]. rewrite args_nil. cbn [bind].
    destruct v as [|z|z|s|l]; cbn [fits] in F; try contradiction.
    - rewrite Hnull. reflexivity.
    - cbn [dispatch]. unfold mk at 1. cbn [s_h]. destruct F as (c' & fs & F). rewrite F. change (String.eqb "encode" "getClass") with false. cbv iota. rewrite Hv by eauto.
      destruct (enc h (HRef l) b) as [[[x|] h'] b']; reflexivity.
  Qed.
  Lemma ex_elem x e u t v h b L : base_locs L -> heap_ok C h -> small h -> okb b -> fine_eelem u x = true -> jfine_eelem x = true -> (v = HNull \/ fits h v u) -> ev_ e (mk h b L) = Ret (JT t v) (mk h b L) ->
    ex (j_eelem x e) (mk h b L) = (let '(y, h', b') := henc_elem enc x h v b in ends y None (mk h' b' L)).
  Proof.
    intros B OK SM OB Fx Jx V He. destruct x; cbn [fine_eelem jfine_eelem j_eelem henc_elem] in *.
    - apply widthb_ok in Jx. destruct V as [->|V]; [eapply ex_write_null; eauto|]. destruct (fits_int _ _ _ Fx V) as (z & ->). rewrite (ex_write n o e t z) by auto. destruct (write_int o n z b); reflexivity.
    - apply fwidthb_ok in Jx. assert (V' : v = HNull \/ exists z, v = HFlt z) by (destruct V as [->|V]; [now left|right; eapply fits_flt; eauto]).
      rewrite (ex_writef n o e t v) by auto. destruct V' as [->|(z & ->)]; [reflexivity|]. destruct (write_int o n z b); reflexivity.
    - apply andb_true_iff in Fx. destruct Fx as [Fx _]. unfold lenb in Jx. rewrite andb_true_iff, Z.leb_le, Z.ltb_lt in Jx.
      assert (Q : exists s, hstring_of v = Some s) by (destruct V as [->|V]; [eexists; reflexivity|eapply fits_str; eauto]). destruct Q as (s & Q). rewrite Q. apply string_val in Q. subst v.
      rewrite (ex_fix e len pad left t s) by auto. destruct (write_fixed s len pad left b); reflexivity.
    - apply andb_true_iff in Jx. destruct Jx as [J1 J2]. apply widthb_ok in J1, J2.
      assert (Q : exists s, hstring_of v = Some s) by (destruct V as [->|V]; [eexists; reflexivity|eapply fits_str; eauto]). destruct Q as (s & Q). rewrite Q. apply string_val in Q. subst v.
      rewrite (ex_dyn e zn zo n o t s) by auto. destruct (write_dyn s zn zo n o b); reflexivity.
    - rewrite (ex_obj e t v) by (auto; (destruct V as [->|V]; [exact I|eapply fits_obj; eauto])). destruct (enc h v b) as [[y h'] b']; reflexivity.
  Qed.

  Lemma ev_bin o a e s : match o with OAnd | OOr => false | _ => true end = true ->
    eval P pr vcall call x0 (EBin o a e) s = bind (eval P pr vcall call x0 a s) (fun v s' => bind (eval P pr vcall call x0 e s') (fun w s'' => binary pr vcall o v w s'')).
  Proof. destruct o; intros H; try discriminate; reflexivity. Qed.
  Lemma ev_or a e s : eval P pr vcall call x0 (EBin OOr a e) s = bind (eval P pr vcall call x0 a s) (fun v s' =>
    match v with JB false => bind (eval P pr vcall call x0 e s') (fun w s'' => match w with JB _ => Ret w s'' | _ => Bad end) | JB true => Ret v s' | _ => Bad end).
  Proof. reflexivity. Qed.
  Lemma ev_name x s : eval P pr vcall call x0 (EName x) s = name_val P x0 x s. Proof. reflexivity. Qed.
  Lemma ex_set e f t t0 v h b s0 L : ev_ e s0 = Ret (JT t0 v) (mk h b L) -> assoc f (c_fields cd) = Some t -> (v <> HNull \/ is_prim (type_name t) = false) ->
    ex (set_s (this_f f) e) s0 = Ret None (mk (put_field h this f v) b L).
  Proof.
    intros He A V. unfold ex, set_s. rewrite ex_expr. unfold this_f. change (eval P pr vcall call x0 (EAsg ASet (EField EThis f) e) s0) with (bind (ev_ e s0) (fun v s' => assign_field P x0 f v s')).
    rewrite He. cbn [bind]. unfold assign_field, x0. cbn [x_this x_class]. rewrite (ce_field _ _ _ _ CE), A. cbn [option_map].
    replace (conv (type_name t) (JT t0 v) (mk h b L)) with (fun kk : jval -> res jval => kk (JT (type_name t) v)).
    - reflexivity.
    - destruct v; try reflexivity. destruct V as [V|V]; [congruence|]. unfold conv. rewrite V. reflexivity.
  Qed.
  (* the list loop *)
  Hypothesis G : calm E enc.
  Hypothesis ST : still E enc.
  Hypothesis Hc : assoc c C = Some cd.
  Definition i_loc (i : Z) : string * (ty * jval) := ("i"%string, (T0 "int", jint i)).
  Lemma base_i i L : base_locs L -> base_locs (i_loc i :: L).
  Proof. intros B. apply base_cons; [exact B|cbn; intuition discriminate]. Qed.
  Lemma keeps_list h h1 l vs : keeps h h1 -> nth_error h l = Some (CList vs) -> nth_error h1 l = Some (CList vs).
  Proof. intros K H. destruct (K _ _ H) as (k' & A & B). cbn in B. now subst k'. Qed.
  Lemma ev_size f u h b L l vs fs : nth_error h this = Some (CObj c fs) -> assoc f (c_fields cd) = Some (TList u) -> field h this f = HRef l -> nth_error h l = Some (CList vs) ->
    ev_ (ECall (this_f f) "size" []) (mk h b L) = Ret (jint (Z.of_nat (List.length vs))) (mk h b L).
  Proof.
    intros Ht A Hf Hl. unfold ev_. rewrite ev_call. fold ev_. erewrite ev_this_f by eauto. cbn [bind]. rewrite args_nil. cbn [bind]. rewrite Hf. cbn [dispatch]. unfold mk at 1. cbn [s_h]. rewrite Hl. reflexivity.
  Qed.
  Lemma ev_get f u h b L l vs fs i v : nth_error h this = Some (CObj c fs) -> assoc f (c_fields cd) = Some (TList u) -> field h this f = HRef l -> nth_error h l = Some (CList vs) ->
    nth_error vs i = Some v -> ev_ (ECall (this_f f) "get" [EName "i"]) (mk h b (i_loc (Z.of_nat i) :: L)) = Ret (JT (boxed_name u) v) (mk h b (i_loc (Z.of_nat i) :: L)).
  Proof.
    intros Ht A Hf Hl Hi. unfold ev_. rewrite ev_call. fold ev_. erewrite ev_this_f by eauto. cbn [bind]. rewrite args_cons. cbn [eval]. erewrite name_loc by reflexivity. cbn [bind]. rewrite args_nil. cbn [bind]. rewrite Hf. cbn [dispatch]. unfold mk at 1. cbn [s_h]. rewrite Hl.
    unfold list_call, jint. cbn [String.eqb Ascii.eqb Bool.eqb]. replace (0 <=? Z.of_nat i) with true by (symmetry; apply Z.leb_le; lia). rewrite Nat2Z.id, Hi. reflexivity.
  Qed.
  Lemma nth_mid {A} (pre : list A) v rest : nth_error (pre ++ v :: rest) (List.length pre) = Some v.
  Proof. rewrite nth_error_app2, Nat.sub_diag by lia. reflexivity. Qed.
  Lemma loop_elems f u x l L : assoc f (c_fields cd) = Some (TList u) -> fine_eelem u x = true -> jfine_eelem x = true -> base_locs L ->
    forall rest pre h b m fs, let vs := pre ++ rest in (List.length rest < m)%nat -> heap_ok C h -> small h -> okb b -> nth_error h this = Some (CObj c fs) -> field h this f = HRef l -> nth_error h l = Some (CList vs) ->
    (forall v, In v vs -> v = HNull \/ fits h v u) ->
    exists i, loop m (ev_ (EBin OLt (EName "i") (ECall (this_f f) "size" []))) (fun s => scoped s (ex (SBlock [j_eelem x (ECall (this_f f) "get" [EName "i"])]) s)) (ev_ (EInc (EName "i"))) (mk h b (i_loc (Z.of_nat (List.length pre)) :: L))
      = (let '(y, h', b') := henc_elems enc x h rest b in ends y None (mk h' b' (i_loc i :: L))).
  Proof.
    intros A Fx Jx B. induction rest as [|v rest IH]; intros pre h b m fs vs Hm OK SM OB Ht Hf Hl Hvs; (destruct m as [|m]; [lia|]).
    - exists (Z.of_nat (List.length pre)). apply loop_stop. unfold ev_. rewrite ev_bin by reflexivity. rewrite ev_name. erewrite name_loc by reflexivity. cbn [bind]. fold ev_.
      erewrite ev_size by eauto. cbn [bind jint binary num arith]. unfold vs. rewrite app_nil_r, Z.ltb_irrefl. reflexivity.
    - pose proof (SM _ _ Hl) as Hs. unfold vs in Hs. rewrite app_length in Hs. cbn [List.length] in Hs.
      assert (Cond : ev_ (EBin OLt (EName "i") (ECall (this_f f) "size" [])) (mk h b (i_loc (Z.of_nat (List.length pre)) :: L)) = Ret (JB true) (mk h b (i_loc (Z.of_nat (List.length pre)) :: L))).
      { unfold ev_. rewrite ev_bin by reflexivity. rewrite ev_name. erewrite name_loc by reflexivity. cbn [bind]. fold ev_.
        erewrite ev_size by eauto. cbn [bind jint binary num arith]. unfold vs. rewrite app_length. cbn [List.length].
        replace (_ <? _) with true by (symmetry; apply Z.ltb_lt; lia). reflexivity. }
      assert (V : v = HNull \/ fits h v u) by (apply Hvs; unfold vs; apply in_or_app; right; now left).
      assert (Body : scoped (mk h b (i_loc (Z.of_nat (List.length pre)) :: L)) (ex (SBlock [j_eelem x (ECall (this_f f) "get" [EName "i"])]) (mk h b (i_loc (Z.of_nat (List.length pre)) :: L))) =
        (let '(y, h', b') := henc_elem enc x h v b in ends y None (mk h' b' (i_loc (Z.of_nat (List.length pre)) :: L)))).
      { unfold ex. rewrite ex_block, all_cons. fold ex. erewrite (ex_elem x _ u); eauto using base_i; [|eapply ev_get; eauto; apply nth_mid].
        destruct (henc_elem enc x h v b) as [[[y|] h'] b']; cbn [ends seq_st bind]; [|rewrite all_nil]; cbn [scoped]; unfold mk; cbn [s_loc]; rewrite !leave_same by reflexivity; reflexivity. }
      pose proof (calm_elem E enc u x h v b G OK Fx V) as Q. pose proof (still_elem E enc u x h v b ST OK Fx V) as R. pose proof (okb_elem enc x h v b HB OB) as OB1.
      cbn [henc_elems]. destruct (henc_elem enc x h v b) as [[[y|] h1] b1].
      { eexists. eapply loop_exc; [exact Cond|exact Body]. }
      cbn [fst snd] in R. destruct Q as (_ & OK1 & K1). destruct (keeps_object _ _ _ _ _ K1 Ht) as (gs & Hg & _).
      destruct (IH (pre ++ [v]) h1 b1 m gs) as (i & IHi).
      + cbn [List.length] in Hm. lia.
      + exact OK1.
      + eapply small_steady; eauto.
      + exact OB1.
      + exact Hg.
      + destruct R as [_ R]. rewrite R; [exact Hf|]. rewrite Hf. discriminate.
      + rewrite <- app_assoc. cbn [List.app]. eapply keeps_list; eauto.
      + rewrite <- app_assoc. cbn [List.app]. intros w Hw. destruct (Hvs w Hw); auto. right. eapply fits_keeps; eauto.
      + exists i. refine (eq_trans _ IHi). eapply loop_go; [exact Cond|exact Body|].
        unfold ev_. cbn [eval]. erewrite name_loc by reflexivity. cbn [bind num jint]. unfold assign, mk, i_loc. cbn [s_loc assoc String.eqb Ascii.eqb Bool.eqb conv bind]. unfold set_loc. cbn [s_h s_b s_loc s_stat put_assoc String.eqb Ascii.eqb Bool.eqb].
        unfold cast_z. cbn [T1 T0 is_name String.eqb Ascii.eqb Bool.eqb]. rewrite wrap_small by lia. rewrite app_length. cbn [List.length]. replace (Z.of_nat (List.length pre + 1)) with (Z.of_nat (List.length pre) + 1) by lia. reflexivity.
  Qed.

  Definition lands (loc : list (string * nat)) (e : option exn) (h : heap) (b : bytebuf) (r : res (option jval)) : Prop :=
    match e with None => exists L, r = Ret None (mk h b L) /\ locs_ok loc L | Some x => exists L, r = Exc x (mk h b L) end.
  Lemma lands_one loc L e h b s s0 : ex s s0 = ends e None (mk h b L) -> locs_ok loc L -> lands loc e h b (exa [s] s0).
  Proof. intros H K. unfold exa. rewrite all_cons. fold ex. rewrite H. destruct e as [x|]; cbn [ends seq_st bind]; [|rewrite all_nil]; eexists; eauto. Qed.
  Lemma get_checksum alg h b L : base_locs L -> exists v, (forall g, checksum E alg = Some g -> computes P stat v g) /\
    ev_ (ECall (ECall (EName "ChecksumServiceFactory") "getInstance" []) "getChecksumService" [EStr alg]) (mk h b L) =
    Ret (match checksum E alg with Some f => v | None => JT (Ty "ChecksumService" [Ty "T" []; Ty "R" []]) HNull end) (mk h b L).
  Proof.
    intros [_ R]. destruct (be_sums _ _ _ BE_) as (m & Hm & Hs). specialize (Hs alg).
    assert (HV : exists v, (forall g, checksum E alg = Some g -> computes P stat v g) /\ m (MKey (KStr (chars alg))) = match checksum E alg with Some _ => Some v | None => None end).
    { destruct (checksum E alg) as [g|]; [|exists JVoid; split; [discriminate|exact Hs]]. destruct Hs as (v & A & B). exists v. split; [|exact A]. intros g' H. injection H as <-. exact B. }
    clear Hs. destruct HV as (v & Hv' & Hs). exists v. split; [exact Hv'|].
    unfold ev_. rewrite !ev_call. rewrite ev_name. unfold x0 at 1. rewrite name_class with (q := "ChecksumServiceFactory"%string); [|exact (ce_sum _ _ _ _ CE)|apply R; cbn; tauto].
    cbn [bind]. rewrite args_nil. cbn [bind dispatch]. rewrite (be_reg _ _ _ BE_). unfold call.
    erewrite (run_eq _ _ _ _ _ "ChecksumServiceFactory" "getInstance") by (unfold find_method; rewrite (be_reg _ _ _ BE_); reflexivity).
    cbn [bind_params bind]. rewrite all_cons, ex_return. cbn [eval]. unfold name_val. cbn [set_loc s_loc assoc x_this x_class s_stat mk]. cbn [String.append].
    rewrite (be_inst _ _ _ BE_), (be_reg _ _ _ BE_). cbn [consts class_ChecksumServiceFactory existsb String.eqb Ascii.eqb Bool.eqb fst orb bind seq_st]. cbn [result s_loc]. unfold set_loc. cbn [s_h s_b s_loc s_stat].
    rewrite args_cons. cbn [eval bind]. rewrite args_nil. cbn [bind dispatch].
    erewrite (run_eq _ _ _ _ _ "ChecksumServiceFactory" "getChecksumService") by (unfold find_method; rewrite (be_reg _ _ _ BE_); reflexivity).
    cbn [bind_params bind jstr conv is_prim]. rewrite all_cons, ex_return. cbn [eval]. unfold name_val at 1. unfold set_loc. cbn [s_loc assoc String.eqb Ascii.eqb Bool.eqb x_this x_class s_stat s_h s_b]. cbn [String.append]. unfold mk at 1 2. cbn [s_stat]. rewrite Hm. cbn [bind].
    erewrite name_loc by reflexivity. cbn [bind dispatch map_call mkey_of String.eqb Ascii.eqb Bool.eqb]. rewrite Hs. destruct (checksum E alg) as [g|]; [|reflexivity]. destruct (Hv' g eq_refl) as [Hj _]. destruct v; try contradiction; reflexivity.
  Qed.
  Lemma ev_null_test (o : binop) f t h b L fs (flip : bool) : nth_error h this = Some (CObj c fs) -> assoc f (c_fields cd) = Some t -> (field h this f = HNull \/ exists l, field h this f = HRef l) ->
    (o = OEq \/ o = ONe) ->
    ev_ (if flip then EBin o (this_f f) ENull else EBin o ENull (this_f f)) (mk h b L) =
    Ret (JB (match o with OEq => match field h this f with HNull => true | _ => false end | _ => negb (match field h this f with HNull => true | _ => false end) end)) (mk h b L).
  Proof.
    intros Ht A Hf Ho. unfold ev_. destruct flip; rewrite ev_bin by (destruct Ho as [->| ->]; reflexivity); fold ev_.
    - erewrite ev_this_f by eauto. cbn [bind]. change (ev_ ENull (mk h b L)) with (Ret jnull (mk h b L)). cbn [bind]. destruct Ho as [->| ->]; destruct Hf as [->|(l & ->)]; reflexivity.
    - change (ev_ ENull (mk h b L)) with (Ret jnull (mk h b L)). cbn [bind]. erewrite ev_this_f by eauto. cbn [bind]. destruct Ho as [->| ->]; destruct Hf as [->|(l & ->)]; reflexivity.
  Qed.
  Lemma fits_ref h v t : is_obj t = true -> fits h v t -> v = HNull \/ exists l, v = HRef l.
  Proof. destruct t; try discriminate; intros _; destruct v; cbn; try contradiction; eauto. Qed.

  Lemma ex_stmt flip s h loc b L fs : heap_ok C h -> small h -> okb b -> nth_error h this = Some (CObj c fs) -> fine_enc (c_fields cd) (map fst loc) [s] = true -> jfine_estmt s = true -> locs_ok loc L ->
    let '(e, (h', loc', b')) := hexec_estmt enc (checksum E) this s (h, loc, b) in lands loc' e h' b' (exa (j_estmt flip s) (mk h b L)).
  Proof.
    intros OK SM OB Ht F J LO. assert (KF := fun f t => known_field E h this c cd fs f t OK Ht Hc). pose proof (fun f => field_at h this f c fs Ht) as FA. destruct (LO) as [B M].
    destruct s; cbn [fine_enc jfine_estmt] in F, J; rewrite ?andb_true_r in F; cbn [hexec_estmt j_estmt].
    - apply at_type_inv in F. destruct F as (t & A & Q). destruct (fits_int _ _ _ Q (KF _ _ A)) as (z & Hz). rewrite FA, Hz. pose proof (ev_this_f h b L f t fs Ht A) as EV. rewrite FA, Hz in EV.
      pose proof (ex_write n o _ _ _ h b L B (widthb_ok _ J) EV) as W. destruct (write_int o n z b) as [e b']. eapply lands_one; eauto.
    - apply at_type_inv in F. destruct F as (t & A & Q). destruct (fits_flt _ _ _ Q (KF _ _ A)) as (z & Hz). rewrite FA, Hz. pose proof (ev_this_f h b L f t fs Ht A) as EV. rewrite FA, Hz in EV.
      pose proof (ex_writef n o _ _ _ h b L B (fwidthb_ok _ J) (or_intror (ex_intro _ z eq_refl)) EV) as W. cbn iota in W. destruct (write_int o n z b) as [e b']. eapply lands_one; eauto.
    - apply andb_true_iff in F. destruct F as [F _]. apply at_type_inv in F. destruct F as (t & A & Q). destruct (fits_str _ _ _ Q (KF _ _ A)) as (u & Hz). rewrite FA, Hz. apply string_val in Hz.
      pose proof (ev_this_f h b L f t fs Ht A) as EV. rewrite FA, Hz in EV. unfold lenb in J. rewrite andb_true_iff, Z.leb_le, Z.ltb_lt in J.
      pose proof (ex_fix _ len pad left _ u h b L B J EV) as W. destruct (write_fixed u len pad left b) as [e b']. eapply lands_one; eauto.
    - apply at_type_inv in F. destruct F as (t & A & Q). destruct (fits_str _ _ _ Q (KF _ _ A)) as (u & Hz). rewrite FA, Hz. apply string_val in Hz.
      pose proof (ev_this_f h b L f t fs Ht A) as EV. rewrite FA, Hz in EV. apply andb_true_iff in J. destruct J as [J1 J2].
      pose proof (ex_dyn _ zn zo n o _ u h b L B (widthb_ok _ J1) (widthb_ok _ J2) EV) as W. destruct (write_dyn u zn zo n o b) as [e b']. eapply lands_one; eauto.
    - rewrite !andb_true_iff in J. destruct J as [[[Jz Jn] Jc] Jx]. apply widthb_ok in Jz, Jn. apply at_type_inv in F. destruct F as (t & A & Q). destruct t as [| | | | | | |u| |]; try discriminate Q.
      pose proof (KF _ _ A) as FL. rewrite <- FA in FL.
      assert (Z0 : scoped (mk h b L) (ex (SBlock [call_s buf ("write" ++ int_name zn zo) [lit 0]]) (mk h b L)) = (let '(x, b') := write_int zo zn 0 b in ends x None (mk h b' L))).
      { unfold ex. rewrite ex_block, all_cons. fold ex. rewrite (ex_write zn zo (lit 0) (T1 "int") 0) by auto. destruct (write_int zo zn 0 b) as [[y|] b']; cbn [ends seq_st bind]; [|rewrite all_nil]; cbn [scoped]; unfold mk; cbn [s_loc]; rewrite !leave_same by reflexivity; reflexivity. }
      pose proof (ev_null_test OEq f (TList u) h b L fs false Ht A) as NT. cbn [negb] in NT.
      assert (Done : forall (q : bool) e h' b', ev_ (EBin OOr (EBin OEq ENull (this_f f)) (EBin OEq (ECall (this_f f) "size" []) (lit 0))) (mk h b L) = Ret (JB q) (mk h b L) ->
        (if q then scoped (mk h b L) (ex (SBlock [call_s buf ("write" ++ int_name zn zo) [lit 0]]) (mk h b L))
         else scoped (mk h b L) (ex (SBlock [call_s buf ("write" ++ int_name n o) [ECast (cast_type cast) (ECall (this_f f) "size" [])]; for_i (ECall (this_f f) "size" []) [j_eelem x (ECall (this_f f) "get" [EName "i"])]]) (mk h b L))) = ends e None (mk h' b' L) ->
        lands loc e h' b' (exa (j_estmt flip (EList f zn zo cast n o x)) (mk h b L))).
      { intros q e h' b' C1 C2. cbn [j_estmt]. apply lands_one with (L := L); [|exact LO]. unfold ex. rewrite ex_if. fold ev_. rewrite C1. cbn [bind]. fold ex. destruct q; exact C2. }
      destruct (fits_list _ _ _ FL) as [Hn|(l & vs & Hl & Hvs & Hvv)].
      { rewrite Hn. destruct (write_int zo zn 0 b) as [e b'] eqn:W. apply (Done true); [|exact Z0]. unfold ev_. rewrite ev_or. fold ev_. rewrite NT by auto. rewrite Hn. reflexivity. }
      assert (Test : ev_ (EBin OOr (EBin OEq ENull (this_f f)) (EBin OEq (ECall (this_f f) "size" []) (lit 0))) (mk h b L) = Ret (JB (match vs with [] => true | _ => false end)) (mk h b L)).
      { unfold ev_. rewrite ev_or. fold ev_. rewrite NT by eauto. rewrite Hl. cbn [bind]. unfold ev_. rewrite ev_bin by reflexivity. fold ev_. erewrite ev_size by eauto. cbn [bind]. rewrite ev_lit. cbn [bind].
        unfold binary, jint. cbn [is_numeric is_prim T1 existsb String.eqb Ascii.eqb Bool.eqb orb num arith bind]. destruct vs; reflexivity. }
      rewrite Hl. cbn [elements]. rewrite Hvs. destruct vs as [|v0 vs0].
      { destruct (write_int zo zn 0 b) as [e b'] eqn:W. apply (Done true); [exact Test|exact Z0]. }
      set (vs := v0 :: vs0) in *.
      assert (W1 : ex (call_s buf ("write" ++ int_name n o) [ECast (cast_type cast) (ECall (this_f f) "size" [])]) (mk h b L) = (let '(e, b') := write_int o n (wrap cast (Z.of_nat (List.length vs))) b in ends e None (mk h b' L))).
      { apply ex_write with (t := cast_type cast); auto. unfold ev_.
        change (eval P pr vcall call x0 (ECast (cast_type cast) (ECall (this_f f) "size" [])) (mk h b L)) with
          (bind (ev_ (ECall (this_f f) "size" []) (mk h b L)) (fun v s' => if is_prim (cast_type cast) then num v s' (fun _ z => Ret (JT (cast_type cast) (HInt (cast_z (cast_type cast) z))) s') else
             match v with
               | JT _ (HRef l) =>
                   match cast_type cast with
                   | Ty c _ => match assoc (resolve P (x_class x0) c) P with
                               | Some _ => if String.eqb (class_of (s_h s') (HRef l)) (resolve P (x_class x0) c) then Ret (JT (cast_type cast) (HRef l)) s' else Bad
                               | None => Ret (JT (cast_type cast) (HRef l)) s'
                               end
                   | _ => Bad
                   end
               | JT _ w => Ret (JT (cast_type cast) w) s'
               | w => Ret w s'
               end)).
        erewrite ev_size by eauto. cbn [bind]. apply orb_true_iff in Jc. destruct Jc as [Jc|Jc]; apply Z.eqb_eq in Jc; subst cast; reflexivity. }
      pose proof (okb_int o n (wrap cast (Z.of_nat (List.length vs))) b OB) as OB1. destruct (write_int o n (wrap cast (Z.of_nat (List.length vs))) b) as [[e|] b'].
      { apply (Done false); [exact Test|]. unfold ex. rewrite ex_block, all_cons. fold ex. rewrite W1. cbn [ends seq_st bind scoped]. unfold mk. cbn [s_loc]. rewrite !leave_same by reflexivity. reflexivity. }
      destruct (loop_elems f u x l L A Q Jx B vs [] h b' (S (S (S k))) fs) as (i & LE); auto.
      { pose proof (SM _ _ Hvs). lia. }
      cbn [List.app List.length] in LE. destruct (henc_elems enc x h vs b') as [[e h'] b''].
      apply (Done false); [exact Test|]. unfold ex. rewrite ex_block, all_cons. fold ex. rewrite W1. cbn [ends seq_st bind]. rewrite all_cons. unfold for_i. rewrite ex_for. fold ex ev_. rewrite ev_lit. cbn [bind]. unfold declare at 1. cbn [jint conv bind]. unfold set_loc. cbn [s_h s_b s_loc s_stat mk].
      change {| s_h := h; s_b := b'; s_loc := _; s_stat := stat |} with (mk h b' (i_loc (Z.of_nat 0) :: L)). rewrite LE.
      destruct e as [e|]; cbn [ends seq_st bind scoped]; rewrite ?all_nil; cbn [scoped]; unfold mk, i_loc; cbn [s_loc]; rewrite leave_b by reflexivity; cbn [seq_st bind]; rewrite ?all_nil; cbn [scoped s_loc]; rewrite !leave_same by reflexivity; reflexivity.
    - apply at_type_inv in F. destruct F as (t & A & Q). pose proof (ev_this_f h b L f t fs Ht A) as EV. pose proof (KF _ _ A) as V. rewrite <- FA in V.
      pose proof (ex_obj _ _ _ h b L B OK SM OB (fits_obj _ _ _ Q V) EV) as W. destruct (enc h (field h this f) b) as [[e h'] b']. eapply lands_one; eauto.
    - apply at_type_inv in F. destruct F as (t & A & Q). pose proof (ev_this_f h b L f t fs Ht A) as EV. pose proof (KF _ _ A) as V. rewrite <- FA in V.
      pose proof (fits_ref _ _ _ Q V) as VR. pose proof (ex_obj _ _ _ h b L B OK SM OB (fits_obj _ _ _ Q V) EV) as W.
      unfold exa. rewrite all_cons, ex_if. fold ev_. rewrite (ev_null_test ONe f t h b L fs flip) by auto. cbn [bind]. destruct (field h this f) as [|z|z|s|l] eqn:Fv; try (destruct VR as [VR|(? & VR)]; discriminate VR).
      + cbn [negb seq_st bind]. rewrite all_nil. exists L. auto.
      + cbn [negb]. rewrite ex_block, all_cons. fold ex. rewrite W. destruct (enc h (HRef l) b) as [[[x|] h'] b']; cbn [ends seq_st bind]; [|rewrite all_nil]; cbn [scoped]; unfold mk; cbn [s_loc]; rewrite !leave_same by reflexivity; cbn [seq_st bind].
        * eexists. reflexivity.
        * rewrite all_nil. eexists. split; [reflexivity|exact LO].
    - unfold exa. rewrite all_cons, ex_local, ev_call. fold ev_. rewrite ev_buf by exact B. cbn [bind]. rewrite args_nil. cbn [bind dispatch]. change (buf_call "writerIndex" [] (mk h b L)) with (Ret (jint (Z.of_nat (widx b))) (mk h b L)).
      cbn [bind]. unfold declare, jint. cbn [conv seq_st bind]. rewrite all_nil. eexists. split; [reflexivity|]. unfold mk. cbn [s_loc]. unfold plain_local in J. apply negb_true_iff in J. split.
      + apply base_cons; [exact B|]. intros I0. apply mem_in in I0. cbn [mem existsb] in J, I0. apply orb_false_iff in J. destruct J as [J1 J]. apply orb_false_iff in J. destruct J as [J2 J]. cbn [mem existsb] in I0. rewrite J1 in I0. cbn [orb] in I0.
        change (existsb (String.eqb x) reserved = true) in I0. congruence.
      + intros y i. cbn [assoc]. destruct (String.eqb_spec y x) as [->|D]; [|auto]. intros H; injection H as <-. split; [|reflexivity]. intros ->. discriminate J.
    - pose proof (ex_write n o (lit 0) (T1 "int") 0 h b L B (widthb_ok _ J) (ev_lit _ _)) as W. destruct (write_int o n 0 b) as [e b']. eapply lands_one; eauto.
    - rewrite !andb_true_iff in F. destruct F as [[F Hx] Hy]. apply at_type_inv in F. destruct F as (t & A & Q). destruct t; try discriminate Q.
      destruct (mem_assoc _ _ Hx) as (i & Hi). destruct (mem_assoc _ _ Hy) as (j & Hj). rewrite Hi, Hj. 
      eapply lands_one; [|exact LO]. cbn [ends]. eapply ex_set; [|exact A|left; discriminate]. unfold ev_. cbn [eval].
      erewrite (name_loc _ _ x) by (apply M; exact Hi). cbn [bind]. erewrite (name_loc _ _ y) by (apply M; exact Hj). cbn [bind jint binary num arith is_long is_name String.eqb Ascii.eqb Bool.eqb orb T1 is_prim existsb T0 andb].
      unfold cast_z. cbn [is_name String.eqb Ascii.eqb Bool.eqb]. rewrite (wrap_id 32 (wrap 32 _)) by (lia || (apply wrap_in_signed; lia)). reflexivity.
    - rewrite !andb_true_iff in F. destruct F as [Hx F]. apply at_type_inv in F. destruct F as (t & A & Q). destruct (mem_assoc _ _ Hx) as (i & Hi). rewrite Hi. destruct (fits_int _ _ _ Q (KF _ _ A)) as (z & Hz). rewrite FA, Hz.
      pose proof (ev_this_f h b L f t fs Ht A) as EV. rewrite FA, Hz in EV.
      assert (W : ex (call_s buf ("set" ++ int_name n o) [EName x; this_f f]) (mk h b L) = (let '(e, b') := set_int o n i z b in ends e None (mk h b' L))).
      { unfold ex, call_s. rewrite ex_expr, ev_call. fold ev_. rewrite ev_buf by exact B. cbn [bind]. rewrite args_cons, ev_name. erewrite (name_loc _ _ x) by (apply M; exact Hi). cbn [bind]. rewrite args_cons. fold ev_. rewrite EV. cbn [bind]. rewrite args_nil. cbn [bind dispatch].
        unfold jint. rewrite buf_set by (apply widthb_ok; exact J). cbn [num mk s_b]. destruct (set_int o n i z b) as [[e|] b']; reflexivity. }
      destruct (set_int o n i z b) as [e b']. eapply lands_one; eauto.
    - apply at_type_inv in F. destruct F as (t & A & Q). destruct t; try discriminate Q. unfold exa. rewrite all_cons, ex_local. fold ev_. destruct (get_checksum alg h b L B) as (v & Hcomp & ->). cbn [bind]. unfold declare.
      set (T := Ty "ChecksumService" [T0 "ByteBuf"; T0 "Integer"]).
      assert (B' : forall v, locs_ok loc (("checksumService"%string, (T, v)) :: L)). 
      { intros w. split; [apply base_cons; [exact B|cbn; intuition discriminate]|]. intros y i Hy. cbn [assoc]. destruct (String.eqb_spec y "checksumService") as [->|D]; [|apply M; exact Hy]. destruct (M _ _ Hy) as [NE _]. congruence. }
      destruct (checksum E alg) as [g|].
      + destruct (Hcomp g eq_refl) as [Hj Hd]. replace (conv T v (mk h b L)) with (fun kk : jval -> res (option jval) => kk v) by (destruct v; try contradiction; reflexivity).
        cbn [seq_st bind]. unfold set_loc. cbn [s_h s_b s_loc s_stat mk]. set (L' := ("checksumService"%string, (T, v)) :: L). change {| s_h := h; s_b := b; s_loc := L'; s_stat := stat |} with (mk h b L').
        assert (LO' : locs_ok loc L') by apply B'. pose proof (proj1 LO') as BL.
        assert (EN : forall h', ev_ (EName "checksumService") (mk h' b L') = Ret v (mk h' b L')) by (intros h'; unfold ev_; rewrite ev_name; apply name_loc with (t := T); reflexivity).
        assert (CD : ev_ (EBin ONe (EName "checksumService") ENull) (mk h b L') = Ret (JB true) (mk h b L')) by (unfold ev_; rewrite ev_bin by reflexivity; fold ev_; rewrite EN; destruct v; try contradiction; reflexivity).
        assert (W : ex (set_s (this_f f) (ECast (T0 "int") (ECall (EName "checksumService") "calc" [buf]))) (mk h b L') = ends None None (mk (put_field h this f (HInt (wrap 32 (g (readable b))))) b L')).
        { eapply ex_set; [|exact A|left; discriminate]. unfold ev_.
          change (eval P pr vcall call x0 (ECast (T0 "int") ?e) ?s) with (bind (ev_ e s) (fun v s' => num v s' (fun _ z => Ret (JT (T0 "int") (HInt (cast_z (T0 "int") z))) s'))).
          unfold ev_. rewrite ev_call. fold ev_. rewrite EN. cbn [bind]. rewrite args_cons. fold ev_. rewrite ev_buf by exact BL. cbn [bind]. rewrite args_nil. cbn [bind]. unfold call. destruct (Hd pr vcall (S (S k)) x0 (var_of (EName "checksumService")) h b L') as (t & D); [lia|exact OB|]. unfold mk in *. rewrite D. reflexivity. }
        eapply lands_one with (L := L'); [|exact LO']. unfold ex. rewrite ex_if. fold ev_. rewrite CD. cbn [bind]. rewrite ex_block, all_cons. fold ex. rewrite W. cbn [ends seq_st bind]. rewrite all_nil. cbn [scoped]. unfold mk. cbn [s_loc]. rewrite !leave_same by reflexivity. reflexivity.
      + cbn [conv]. change (is_prim T) with false. cbn iota. cbn [seq_st bind]. unfold set_loc. cbn [s_h s_b s_loc s_stat mk]. set (L' := ("checksumService"%string, (T, JT T HNull)) :: L). change {| s_h := h; s_b := b; s_loc := L'; s_stat := stat |} with (mk h b L').
        assert (CD : ev_ (EBin ONe (EName "checksumService") ENull) (mk h b L') = Ret (JB false) (mk h b L')) by (unfold ev_; rewrite ev_bin by reflexivity; rewrite ev_name; erewrite name_loc with (t := T) by reflexivity; reflexivity).
        eapply lands_one with (L := L'); [|apply B']. unfold ex. rewrite ex_if. fold ev_. rewrite CD. reflexivity.
  Qed.

  Lemma all_app l m s : exa (l ++ m) s = seq_st (exa l s) (exa m).
  Proof.
    revert s. induction l as [|x l IH]; intros s; unfold exa; cbn [List.app]; [reflexivity|]. rewrite !all_cons. destruct (exec P pr vcall call (S (S (S k))) x0 x s) as [[v|] s'|e s'|]; cbn [seq_st bind]; try reflexivity. apply IH.
  Qed.
  Lemma ex_stmts flip : forall ss h loc b L fs, heap_ok C h -> small h -> okb b -> nth_error h this = Some (CObj c fs) -> fine_enc (c_fields cd) (map fst loc) ss = true -> forallb jfine_estmt ss = true -> locs_ok loc L ->
    let '(e, (h', loc', b')) := hexec_enc enc (checksum E) this ss (h, loc, b) in lands loc' e h' b' (exa (flat_map (j_estmt flip) ss) (mk h b L)).
  Proof.
    induction ss as [|s ss IH]; intros h loc b L fs OK SM OB Ht F J LO; cbn [hexec_enc flat_map forallb] in *; [exists L; auto|]. apply andb_true_iff in J. destruct J as [J1 J2]. apply fine_cons in F. destruct F as [F1 F2].
    pose proof (okb_stmt enc (checksum E) this s h loc b HB OB) as OB1. pose proof (ex_stmt flip s h loc b L fs OK SM OB Ht F1 J1 LO) as W. rewrite all_app. pose proof (calm_stmt E enc (checksum E) this c cd s h loc b fs G Hc OK Ht F1) as A. pose proof (still_stmt E enc (checksum E) this c cd s h loc b fs G ST Hc OK Ht F1) as B.
    pose proof (marks_stmt enc (checksum E) this s h loc b) as M.
    destruct (hexec_estmt enc (checksum E) this s (h, loc, b)) as [[e|] [[h1 loc1] b1]]; cbn [lands] in W.
    - destruct W as (L1 & ->). cbn [seq_st bind lands]. eauto.
    - destruct W as (L1 & -> & LO1). cbn [seq_st bind]. destruct A as (_ & OK1 & K1). destruct (keeps_object _ _ _ _ _ K1 Ht) as (gs & Hg & _). cbn [fst snd] in B. specialize (M _ eq_refl). cbn [fst snd] in M.
      eapply IH; eauto. { eapply small_steady; eauto. } now rewrite M.
  Qed.
End Statements.

(* ---------- the method ---------- *)
Section Encode.
  Variable E : env.
  Variable P : program.
  Variable pr : printers.
  Variable k : nat.
  Variable stat : list (string * jval).
  Hypothesis Hk : 2 ^ 31 <= Z.of_nat k.
  Hypothesis BE_ : base_env E P stat.
  Hypothesis fine_classes : forall c cd, find_class E c = Some cd -> fine_enc (c_fields cd) [] (c_enc cd) = true /\ forallb jfine_estmt (c_enc cd) = true /\ class_env P stat c cd /\
    exists flip, find_method P c "encode" 1 = Some ([(T0 "ByteBuf", "byteBuf")], flat_map (j_estmt flip) (c_enc cd)).
  Theorem java_encode d : forall h l b L, heap_ok (classes E) h -> small h -> okb b -> (exists c fs, nth_error h l = Some (CObj c fs)) ->
    vcalls P pr (S (S (S (S k)))) d "encode" l [JBuf] (mk stat h b L) = (let '(e, h', b') := hencode E d h (HRef l) b in ends e JVoid (mk stat h' b' L)).
  Proof.
    assert (FC : forall c cd, find_class E c = Some cd -> fine_enc (c_fields cd) [] (c_enc cd) = true) by (intros c cd H; apply (fine_classes c cd H)).
    induction d as [|d IH]; intros h l b L OK SM OB (c & fs & Hl); [reflexivity|]. cbn [vcalls hencode]. cbn [mk s_h]. rewrite Hl.
    destruct (OK l c fs Hl) as (cd & Hc & _). unfold find_class. rewrite Hc. destruct (fine_classes c cd Hc) as (F & J & CE & flip & FM).
    erewrite run_eq by exact FM. cbn [bind_params conv bind].
    assert (LO : locs_ok [] [("byteBuf"%string, (T0 "ByteBuf", JBuf))]).
    { split; [split; [reflexivity|]|intros x i H; discriminate H]. cbn. intuition subst; reflexivity. }
    pose proof (ex_stmts E P pr (vcalls P pr (S (S (S (S k)))) d) k stat (hencode E d) Hk BE_ (okb_encode E d) IH (fun h b => match d with O => eq_refl | S _ => eq_refl end) c cd l CE (good_calm E _ (good_encode E FC d)) (still_encode E FC d) Hc flip (c_enc cd) h [] b _ fs OK SM OB Hl F J LO) as W.
    destruct (hexec_enc (hencode E d) (checksum E) l (c_enc cd) (h, [], b)) as [e [[h' loc'] b']]. unfold set_loc. cbn [s_h s_b s_loc s_stat mk]. cbn [map List.rev List.app].
    change {| s_h := h; s_b := b; s_loc := _; s_stat := stat |} with (mk stat h b [("byteBuf"%string, (T0 "ByteBuf", JBuf))]).
    destruct e as [e|]; cbn [lands] in W; [destruct W as (L' & ->)|destruct W as (L' & -> & _)]; reflexivity.
  Qed.
End Encode.
