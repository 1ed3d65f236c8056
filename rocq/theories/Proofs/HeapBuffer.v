(* encode leaves a buffer of bytes, whatever the object graph: also if it contains cycles, and also if it throws. *)
From Coq Require Import ZArith List Bool String Lia.
From Verif.Model Require Import JavaPrim ByteBuf Utf8 Codec Ast Interp Show Heap.
From Verif.Spec Require Import Bytes Buffers Wire Sharing.
From Verif.Proofs Require Import BytesFacts BufFacts Utf8Facts CodecFacts DecodeFacts DecodeInv HeapFacts HeapOwn HeapReach HeapEq HeapCycle HeapFrame HeapTypes HeapEncTypes JavaEncode.
Import ListNotations.
Open Scope Z_scope.
Open Scope list_scope.

Definition clean (b : bytebuf) : Prop := bytes_ok (arr b).
Lemma wf_clean b : wf b <-> okb b /\ clean b.
Proof. unfold okb, clean. split; [intros []; intuition|intros [(A & B & C & D) E0]; constructor; auto]. Qed.
Lemma splice_clean a i bs : bytes_ok a -> bytes_ok bs -> bytes_ok (splice a i bs).
Proof. intros A B. unfold splice. apply Forall_app. split; [now apply Forall_firstn|]. apply Forall_app. split; [exact B|now apply Forall_skipn]. Qed.
Lemma grown_clean b n : clean b -> bytes_ok (grown b n).
Proof.
  intros H. unfold grown. destruct (Nat.leb _ _); [exact H|]. apply Forall_app. split; [exact H|]. apply Forall_forall. intros x Hx. apply in_map_iff in Hx. destruct Hx as (i & <- & _). apply Z.mod_pos_bound; lia.
Qed.
Lemma put_clean o n z : bytes_ok (put_int o n z).
Proof. rewrite put_int_number. apply number_bytes. Qed.
Lemma clean_bytes bs b : bytes_ok bs -> clean b -> clean (snd (write_bytes bs b)).
Proof. intros B H. unfold write_bytes. destruct (_ <=? _); [|exact H]. cbn [snd]. unfold clean. cbn [arr set_widx set_arr]. apply splice_clean; [now apply grown_clean|exact B]. Qed.
Lemma clean_int o n z b : clean b -> clean (snd (write_int o n z b)).
Proof. apply clean_bytes, put_clean. Qed.
Lemma clean_set o n i z b : clean b -> clean (snd (set_int o n i z b)).
Proof. intros H. unfold set_int. destruct (Nat.leb _ _); [|exact H]. cbn [snd]. unfold clean. cbn [arr set_arr]. apply splice_clean; [exact H|apply put_clean]. Qed.
Lemma clean_pad n ch : forall b, clean b -> clean (snd (pad_loop n ch b)).
Proof. induction n as [|n IH]; intros b H; cbn [pad_loop]; [exact H|]. pose proof (clean_int BE 1 ch b H) as W. destruct (write_int BE 1 ch b) as [[e|] b']; [exact W|apply IH; exact W]. Qed.
Definition unit_string (s : jstring) : Prop := match s with Some u => units u | None => True end.
Lemma units_encode u : units u -> bytes_ok (utf8_encode u).
Proof.
  intros H. assert (Q : forallb is_unit u = true); [|rewrite utf8_encode_spec by exact Q; now apply utf8_bytes]. apply forallb_forall. intros x Hx. unfold units in H. rewrite Forall_forall in H. specialize (H x Hx). unfold is_unit. lia.
Qed.
Lemma clean_fixed s len pad lft b : unit_string s -> clean b -> clean (snd (write_fixed s len pad lft b)).
Proof.
  intros U H. unfold write_fixed. destruct s as [[|z u]|].
  1,3: destruct (negb lft && (0 <? len)); [apply clean_pad|]; exact H.
  set (w := Z.min _ len). assert (Q : clean (snd (if lft && (w <? len) then pad_char (len - w) pad b else (None, b)))) by (destruct (lft && (w <? len)); [apply clean_pad|]; exact H).
  destruct (if lft && (w <? len) then _ else _) as [[e|] b0]; [exact Q|]. cbn [snd] in Q. unfold write_prefix. destruct (w <? 0); [exact Q|].
  pose proof (clean_bytes (firstn (Z.to_nat w) (utf8_encode (z :: u))) b0 (Forall_firstn _ _ _ (units_encode _ U)) Q) as W. destruct (write_bytes _ b0) as [[e|] b1]; [exact W|]. destruct (negb lft && (w <? len)); [apply clean_pad|]; exact W.
Qed.
Lemma clean_dyn s zn zo n o b : unit_string s -> clean b -> clean (snd (write_dyn s zn zo n o b)).
Proof.
  intros U H. unfold write_dyn. destruct s as [[|z u]|]; [apply clean_int; exact H| |apply clean_int; exact H].
  pose proof (clean_int o n (Z.of_nat (List.length (utf8_encode (z :: u)))) b H) as W. destruct (write_int o n _ b) as [[e|] b']; [exact W|]. apply clean_bytes; [now apply units_encode|exact W].
Qed.
Lemma fits_units h v t : is_str t = true -> v = HNull \/ fits h v t -> exists s, hstring_of v = Some s /\ unit_string s.
Proof. destruct t; try discriminate; intros _ [->|H]; try (eexists; split; [reflexivity|exact I]). destruct v; cbn in *; try contradiction; eexists; (split; [reflexivity|]); cbn; auto. Qed.

Section Clean.
  Variable E : env.
  Let C := classes E.
  Definition cleans (enc : heap -> hval -> bytebuf -> option exn * heap * bytebuf) : Prop := forall h v b, heap_ok C h -> fits h v TCodec -> clean b -> clean (snd (enc h v b)).
  Lemma clean_elem enc u x h v b : cleans enc -> heap_ok C h -> fine_eelem u x = true -> v = HNull \/ fits h v u -> clean b -> clean (snd (henc_elem enc x h v b)).
  Proof.
    intros G OK Hx Hv H. destruct x; cbn [henc_elem fine_eelem] in *.
    - destruct v; try exact H. pose proof (clean_int o n z b H) as W. destruct (write_int o n z b). exact W.
    - destruct v; try exact H. pose proof (clean_int o n bits b H) as W. destruct (write_int o n bits b). exact W.
    - apply andb_true_iff in Hx as [Hx _]. destruct (fits_units h v u Hx Hv) as (s & -> & U). pose proof (clean_fixed s len pad left b U H) as W. destruct (write_fixed s len pad left b). exact W.
    - destruct (fits_units h v u Hx Hv) as (s & -> & U). pose proof (clean_dyn s zn zo n o b U H) as W. destruct (write_dyn s zn zo n o b). exact W.
    - apply G; auto. destruct Hv as [->|Hv]; [exact I|eapply fits_obj; eauto].
  Qed.
  Lemma clean_elems enc u x : cleans enc -> good E enc -> fine_eelem u x = true -> forall vs h b, heap_ok C h -> (forall v, In v vs -> v = HNull \/ fits h v u) -> clean b -> clean (snd (henc_elems enc x h vs b)).
  Proof.
    intros G G2 Hx vs. induction vs as [|v vs IH]; intros h b OK Hv H; cbn [henc_elems]; [exact H|].
    pose proof (clean_elem enc u x h v b G OK Hx (Hv v (or_introl eq_refl)) H) as W. pose proof (good_elem E enc u x h v b G2 OK Hx (Hv v (or_introl eq_refl))) as Q. destruct (henc_elem enc x h v b) as [[[e|] h1] b1]; [exact W|].
    destruct Q as (_ & OK1 & K1). apply IH; auto. intros w Hw. destruct (Hv w (or_intror Hw)); auto. right. eapply fits_keeps; eauto.
  Qed.
  Lemma clean_stmt enc sums this c cd s h loc b fs : cleans enc -> good E enc -> assoc c C = Some cd -> heap_ok C h -> nth_error h this = Some (CObj c fs) -> fine_enc (c_fields cd) (map fst loc) [s] = true -> clean b ->
    clean (snd (snd (hexec_estmt enc sums this s (h, loc, b)))).
  Proof.
    intros G G2 Hc OK Ht Hs H. assert (KF := fun f t => known_field E h this c cd fs f t OK Ht Hc). destruct s; cbn [hexec_estmt fine_enc] in *; rewrite ?(field_at h this f c fs Ht).
    - destruct (hget f fs); try exact H. pose proof (clean_int o n z b H) as W. destruct (write_int o n z b). exact W.
    - destruct (hget f fs); try exact H. pose proof (clean_int o n bits b H) as W. destruct (write_int o n bits b). exact W.
    - rewrite !andb_true_iff in Hs. destruct Hs as [[Hf _] _]. apply at_type_inv in Hf as (t & A & P). destruct (fits_units h _ t P (or_intror (KF _ _ A))) as (s & -> & U). pose proof (clean_fixed s len pad left b U H) as W. destruct (write_fixed s len pad left b). exact W.
    - rewrite !andb_true_iff in Hs. destruct Hs as [Hf _]. apply at_type_inv in Hf as (t & A & P). destruct (fits_units h _ t P (or_intror (KF _ _ A))) as (s & -> & U). pose proof (clean_dyn s zn zo n o b U H) as W. destruct (write_dyn s zn zo n o b). exact W.
    - apply andb_true_iff in Hs as [Hf _]. apply at_type_inv in Hf as (t & A & P). destruct t as [| | | | | | |u| |]; try discriminate P. pose proof (KF _ _ A) as FL. pose proof (clean_int zo zn 0 b H) as W0.
      destruct (fits_list _ _ _ FL) as [Hn|(l & vs & Hl & Hvs & Hv)]; [rewrite Hn; destruct (write_int zo zn 0 b); exact W0|].
      rewrite Hl. cbn [elements]. rewrite Hvs. destruct vs as [|v vs]; [destruct (write_int zo zn 0 b); exact W0|].
      pose proof (clean_int o n (wrap cast (Z.of_nat (List.length (v :: vs)))) b H) as W1. destruct (write_int o n (wrap cast (Z.of_nat (List.length (v :: vs)))) b) as [[e|] b']; [exact W1|].
      pose proof (clean_elems enc u x G G2 P (v :: vs) h b' OK Hv W1) as Q. destruct (henc_elems enc x h (v :: vs) b') as [[e h1] b1]. exact Q.
    - apply andb_true_iff in Hs as [Hf _]. apply at_type_inv in Hf as (t & A & P). pose proof (G h (hget f fs) b OK (fits_obj _ _ _ P (KF _ _ A)) H) as Q. destruct (enc h (hget f fs) b) as [[e h1] b1]. exact Q.
    - apply andb_true_iff in Hs as [Hf _]. apply at_type_inv in Hf as (t & A & P). pose proof (G h (hget f fs) b OK (fits_obj _ _ _ P (KF _ _ A)) H) as Q.
      destruct (hget f fs) as [|z|z|s|l]; [exact H|destruct (enc h (HInt z) b) as [[e h1] b1]|destruct (enc h (HFlt z) b) as [[e h1] b1]|destruct (enc h (HStr s) b) as [[e h1] b1]|destruct (enc h (HRef l) b) as [[e h1] b1]]; exact Q.
    - exact H.
    - pose proof (clean_int o n 0 b H) as W. destruct (write_int o n 0 b). exact W.
    - destruct (assoc x loc), (assoc y loc); exact H.
    - destruct (assoc x loc) as [i|]; [|exact H]. destruct (hget f fs); try exact H. pose proof (clean_set o n i z b H) as W. destruct (set_int o n i z b). exact W.
    - destruct (sums alg); exact H.
  Qed.
  Lemma fine_one F : forall s ss L, fine_enc F L (s :: ss) = true -> fine_enc F L [s] = true /\ fine_enc F (match s with EMark x => x :: L | _ => L end) ss = true.
  Proof. intros s ss L. destruct s; cbn [fine_enc]; rewrite ?andb_true_iff; intuition. Qed.
  Lemma clean_stmts enc sums this c cd : cleans enc -> good E enc -> assoc c C = Some cd -> forall ss h loc b fs, heap_ok C h -> nth_error h this = Some (CObj c fs) -> fine_enc (c_fields cd) (map fst loc) ss = true -> clean b ->
    clean (snd (snd (hexec_enc enc sums this ss (h, loc, b)))).
  Proof.
    intros G G2 Hc ss. induction ss as [|s ss IH]; intros h loc b fs OK Ht Hs H; cbn [hexec_enc]; [exact H|]. destruct (fine_one _ _ _ _ Hs) as [Hs1 Hs2].
    pose proof (clean_stmt enc sums this c cd s h loc b fs G G2 Hc OK Ht Hs1 H) as W. pose proof (good_enc E enc sums this c cd G2 Hc [s] h loc b fs OK Ht Hs1) as Q. cbn [hexec_enc] in Q.
    assert (LOC : forall h1 loc1 b1, hexec_estmt enc sums this s (h, loc, b) = (None, (h1, loc1, b1)) -> map fst loc1 = match s with EMark x => x :: map fst loc | _ => map fst loc end).
    { intros h1 loc1 b1. destruct s; cbn [hexec_estmt]; repeat (match goal with |- context [match ?x with _ => _ end] => destruct x end); intros Q0; try discriminate Q0; injection Q0; intros; subst; reflexivity. }
    destruct (hexec_estmt enc sums this s (h, loc, b)) as [[e|] [[h1 loc1] b1]]; [exact W|]. destruct Q as (_ & OK1 & K1). destruct (keeps_object _ _ _ _ _ K1 Ht) as (gs & Hg & _).
    eapply IH; eauto. rewrite (LOC _ _ _ eq_refl). destruct s; exact Hs2.
  Qed.
  Hypothesis fine_classes : forall c cd, find_class E c = Some cd -> fine_enc (c_fields cd) [] (c_enc cd) = true.
  Theorem clean_encode d : cleans (hencode E d).
  Proof.
    induction d as [|d IH]; intros h v b OK Hv H; (destruct v as [|z|z|s|l]; cbn [fits] in Hv; try contradiction; cbn [hencode]; try exact H).
    destruct Hv as (c & fs & Hl). rewrite Hl. destruct (OK l c fs Hl) as (cd & Hc & _). unfold find_class. fold C. rewrite Hc.
    pose proof (clean_stmts (hencode E d) (checksum E) l c cd IH (good_encode E fine_classes d) Hc (c_enc cd) h [] b fs OK Hl (fine_classes c cd Hc) H) as Q.
    destruct (hexec_enc (hencode E d) (checksum E) l (c_enc cd) (h, [], b)) as [e [[h1 loc] b1]]. exact Q.
  Qed.
  Theorem wf_encode d h v b : heap_ok C h -> fits h v TCodec -> wf b -> wf (snd (hencode E d h v b)).
  Proof. intros OK Hv H. apply wf_clean in H as [A B]. apply wf_clean. split; [now apply okb_encode|now apply clean_encode]. Qed.
End Clean.
