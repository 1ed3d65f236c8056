(* What holds of a buffer after each write also holds after encode; for any objects, and also if encode throws. *)
From Coq Require Import ZArith List Bool String Lia.
From Verif.Model Require Import JavaPrim ByteBuf Utf8 Codec Ast Interp Show Heap.
From Verif.Spec Require Import Bytes Buffers Sharing.
From Verif.Proofs Require Import BytesFacts BufFacts DecodeInv HeapTypes HeapEncTypes HeapBuffer.
Import ListNotations.
Open Scope Z_scope.

Section Kept.
  Variable P : bytebuf -> Prop.
  Hypothesis WR : forall bs b, P b -> P (snd (write_bytes bs b)).
  Hypothesis ST : forall o n i z b, P b -> P (snd (set_int o n i z b)).
  Lemma p_int o n z b : P b -> P (snd (write_int o n z b)). Proof. apply WR. Qed.
  Lemma p_pad n ch : forall b, P b -> P (snd (pad_loop n ch b)).
  Proof. induction n as [|n IH]; intros b H; cbn [pad_loop]; [exact H|]. pose proof (p_int BE 1 ch b H) as W. destruct (write_int BE 1 ch b) as [[e|] b']; [exact W|apply IH; exact W]. Qed.
  Lemma p_fixed s len pad lft b : P b -> P (snd (write_fixed s len pad lft b)).
  Proof.
    intros H. unfold write_fixed. destruct s as [[|z u]|].
    1,3: destruct (negb lft && (0 <? len)); [apply p_pad|]; exact H.
    set (w := Z.min _ len). assert (Q : P (snd (if lft && (w <? len) then pad_char (len - w) pad b else (None, b)))) by (destruct (lft && (w <? len)); [apply p_pad|]; exact H).
    destruct (if lft && (w <? len) then _ else _) as [[e|] b0]; [exact Q|]. cbn [snd] in Q. unfold write_prefix. destruct (w <? 0); [exact Q|].
    pose proof (WR (firstn (Z.to_nat w) (utf8_encode (z :: u))) b0 Q) as W. destruct (write_bytes _ b0) as [[e|] b1]; [exact W|]. destruct (negb lft && (w <? len)); [apply p_pad|]; exact W.
  Qed.
  Lemma p_dyn s zn zo n o b : P b -> P (snd (write_dyn s zn zo n o b)).
  Proof.
    intros H. unfold write_dyn. destruct s as [[|z u]|]; [apply p_int; exact H| |apply p_int; exact H].
    pose proof (p_int o n (Z.of_nat (List.length (utf8_encode (z :: u)))) b H) as W. destruct (write_int o n _ b) as [[e|] b']; [exact W|]. apply WR. exact W.
  Qed.
  Variable enc : heap -> hval -> bytebuf -> option exn * heap * bytebuf.
  Hypothesis K : forall h v b, P b -> P (snd (enc h v b)).
  Variable sums : string -> option (list Z -> Z).
  Lemma p_elem x h v b : P b -> P (snd (henc_elem enc x h v b)).
  Proof.
    intros H. destruct x; cbn [henc_elem]; [| | | |apply K; exact H].
    - destruct v; try exact H. pose proof (p_int o n z b H) as W. destruct (write_int o n z b). exact W.
    - destruct v; try exact H. pose proof (p_int o n bits b H) as W. destruct (write_int o n bits b). exact W.
    - destruct (hstring_of v) as [s|]; [|exact H]. pose proof (p_fixed s len pad left b H) as W. destruct (write_fixed s len pad left b). exact W.
    - destruct (hstring_of v) as [s|]; [|exact H]. pose proof (p_dyn s zn zo n o b H) as W. destruct (write_dyn s zn zo n o b). exact W.
  Qed.
  Lemma p_elems x : forall l h b, P b -> P (snd (henc_elems enc x h l b)).
  Proof. induction l as [|v l IH]; intros h b H; cbn [henc_elems]; [exact H|]. pose proof (p_elem x h v b H) as W. destruct (henc_elem enc x h v b) as [[[e|] h1] b1]; [exact W|apply IH; exact W]. Qed.
  Lemma p_stmt this s h loc b : P b -> P (snd (snd (hexec_estmt enc sums this s (h, loc, b)))).
  Proof.
    intros H. destruct s; cbn [hexec_estmt].
    - destruct (field h this f); try exact H. pose proof (p_int o n z b H) as W. destruct (write_int o n z b). exact W.
    - destruct (field h this f); try exact H. pose proof (p_int o n bits b H) as W. destruct (write_int o n bits b). exact W.
    - destruct (hstring_of (field h this f)) as [s|]; [|exact H]. pose proof (p_fixed s len pad left b H) as W. destruct (write_fixed s len pad left b). exact W.
    - destruct (hstring_of (field h this f)) as [s|]; [|exact H]. pose proof (p_dyn s zn zo n o b H) as W. destruct (write_dyn s zn zo n o b). exact W.
    - pose proof (p_int zo zn 0 b H) as W0. destruct (field h this f) as [| | | |l]; try exact H; [destruct (write_int zo zn 0 b); exact W0|].
      destruct (elements h (HRef l)) as [[|v vs]|]; [destruct (write_int zo zn 0 b); exact W0| |exact H].
      pose proof (p_int o n (wrap cast (Z.of_nat (List.length (v :: vs)))) b H) as W1. destruct (write_int o n (wrap cast (Z.of_nat (List.length (v :: vs)))) b) as [[e|] b']; [exact W1|].
      pose proof (p_elems x (v :: vs) h b' W1) as Q. destruct (henc_elems enc x h (v :: vs) b') as [[e h1] b1]. exact Q.
    - pose proof (K h (field h this f) b H) as Q. destruct (enc h (field h this f) b) as [[e h1] b1]. exact Q.
    - pose proof (K h (field h this f) b H) as Q. destruct (field h this f) as [| | | |l]; try exact H; destruct (enc h _ b) as [[e h1] b1]; exact Q.
    - exact H.
    - pose proof (p_int o n 0 b H) as W. destruct (write_int o n 0 b). exact W.
    - destruct (assoc x loc), (assoc y loc); exact H.
    - destruct (assoc x loc) as [i|]; [|exact H]. destruct (field h this f); try exact H. pose proof (ST o n i z b H) as W. destruct (set_int o n i z b). exact W.
    - destruct (sums alg); exact H.
  Qed.
  Lemma p_enc this : forall ss h loc b, P b -> P (snd (snd (hexec_enc enc sums this ss (h, loc, b)))).
  Proof. induction ss as [|s ss IH]; intros h loc b H; cbn [hexec_enc]; [exact H|]. pose proof (p_stmt this s h loc b H) as W. destruct (hexec_estmt enc sums this s (h, loc, b)) as [[e|] [[h1 loc1] b1]]; [exact W|apply IH; exact W]. Qed.
End Kept.
Lemma encode_buffer (P : bytebuf -> Prop) E : (forall bs b, P b -> P (snd (write_bytes bs b))) -> (forall o n i z b, P b -> P (snd (set_int o n i z b))) -> forall d h v b, P b -> P (snd (hencode E d h v b)).
Proof.
  intros WR ST. induction d as [|d IH]; intros h v b H; destruct v as [| | | |l]; cbn [hencode]; try exact H. destruct (nth_error h l) as [[c fs|vs]|]; try exact H. destruct (find_class E c) as [cd|]; [|exact H].
  pose proof (p_enc P WR ST (hencode E d) IH (checksum E) l (c_enc cd) h [] b H) as Q. destruct (hexec_enc (hencode E d) (checksum E) l (c_enc cd) (h, [], b)) as [e [[h1 loc] b1]]. exact Q.
Qed.
Definition within_array (b : bytebuf) : Prop := (widx b <= List.length (arr b))%nat.
Lemma within_bytes bs b : within_array b -> within_array (snd (write_bytes bs b)).
Proof.
  unfold within_array, write_bytes. intros H. destruct (_ <=? _); [|exact H]. cbn [snd widx arr set_widx set_arr]. unfold splice. rewrite !app_length, firstn_length, skipn_length. unfold grown.
  destruct (Nat.leb_spec (widx b + List.length bs) (List.length (arr b))); [lia|]. rewrite app_length. lia.
Qed.
Lemma within_set o n i z b : within_array b -> within_array (snd (set_int o n i z b)).
Proof. unfold within_array, set_int. intros H. destruct (Nat.leb_spec (i + n) (List.length (arr b))); [|exact H]. cbn [snd widx arr set_arr]. unfold splice. rewrite !app_length, firstn_length, skipn_length, put_int_number, number_length. lia. Qed.
Lemma bk_iff b : bk b <-> clean b /\ within_array b.
Proof. unfold clean, within_array. split; [intros [A B C]; split; [exact A|lia]|]. intros [A B]. constructor; [exact A| |]; unfold cs_limit; destruct (cs_slack b); lia. Qed.
Lemma bk_encode E (fine : forall c cd, find_class E c = Some cd -> fine_enc (c_fields cd) [] (c_enc cd) = true) d h v b : heap_ok (classes E) h -> fits h v TCodec -> bk b -> bk (snd (hencode E d h v b)).
Proof. intros OK F H. apply bk_iff in H as [A B]. apply bk_iff. split; [now apply clean_encode|]. apply encode_buffer; [apply within_bytes|apply within_set|exact B]. Qed.
