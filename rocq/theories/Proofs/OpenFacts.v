(* Messages of library objects only: user code makes no difference. *)
From Coq Require Import ZArith List Bool String Lia.
From Verif.Model Require Import JavaPrim ByteBuf Utf8 Codec Ast Interp Open.
From Verif.Spec Require Import Bytes Buffers Open.
From Verif.Proofs Require Import ValInd DecodeFacts.
Import ListNotations.
Open Scope Z_scope.

Section Closed.
  Variable W : world.
  Variable E : env.
  Variable ok : string -> bool.
  Hypothesis ok_known : forall c, ok c = true -> of_library E c = true.
  Notation closed := (made_of ok).
  Definition all_closed (fs : list (string * val)) : bool := forallb (fun fv => closed (snd fv)) fs.
  Definition fields_kept (fs fs' : list (string * val)) : Prop := (forall g, closed (get g fs) = true -> closed (get g fs') = true) /\ (all_closed fs = true -> all_closed fs' = true).
  Lemma closed_get g fs : all_closed fs = true -> closed (get g fs) = true.
  Proof. induction fs as [|[h x] fs IH]; intros H; [reflexivity|]. cbn [all_closed forallb snd] in H. apply andb_true_iff in H as [H1 H]. cbn [get]. destruct (String.eqb g h); auto. Qed.
  Lemma kept_refl fs : fields_kept fs fs.
  Proof. split; auto. Qed.
  Lemma kept_trans a b c : fields_kept a b -> fields_kept b c -> fields_kept a c.
  Proof. intros [A1 A2] [B1 B2]. split; auto. Qed.
  Lemma kept_set f x fs : closed x = true -> fields_kept fs (set f x fs).
  Proof.
    intros Hx. split.
    - intros g. induction fs as [|[h y] fs IH]; cbn [set get]; auto. destruct (String.eqb f h) eqn:Q; cbn [get]; [|destruct (String.eqb g h); auto]. destruct (String.eqb g h); auto.
    - induction fs as [|[h y] fs IH]; cbn [set all_closed forallb snd]; auto. intros H. apply andb_true_iff in H as [H1 H]. destruct (String.eqb f h); cbn [forallb snd]; apply andb_true_iff; auto.
  Qed.

  (* the fields a statement of encode uses *)
  Definition uses (s : estmt) : list string :=
    match s with
    | EWrite _ _ f | EWriteF _ _ f | EFix f _ _ _ | EDyn f _ _ _ _ | EList f _ _ _ _ _ _ | EObj f | EObjOpt f | EDiff f _ _ | EPatch _ _ _ f | ESum _ f => [f]
    | EMark _ | EZero _ _ => []
    end.
  Section Enc.
    Variable enc enc' : val -> bytebuf -> option exn * val * bytebuf.
    Hypothesis He : forall x b, closed x = true -> enc' x b = enc x b /\ closed (snd (fst (enc x b))) = true.
    Lemma elem_closed x v b : closed v = true -> enc_elem enc' x v b = enc_elem enc x v b /\ closed (snd (fst (enc_elem enc x v b))) = true.
    Proof.
      intros Hv. destruct x; cbn [enc_elem]; auto.
      - split; [reflexivity|]. destruct v as [|z|z|s|l|c fs]; try exact Hv. destruct (write_int o n z b). exact Hv.
      - split; [reflexivity|]. destruct v as [|z|z|s|l|c fs]; try exact Hv. destruct (write_int o n z b). exact Hv.
      - split; [reflexivity|]. destruct (string_of v); [|exact Hv]. destruct (write_fixed _ _ _ _ b). exact Hv.
      - split; [reflexivity|]. destruct (string_of v); [|exact Hv]. destruct (write_dyn _ _ _ _ _ b). exact Hv.
    Qed.
    Lemma elems_closed x l : forall b, forallb closed l = true -> enc_elems enc' x l b = enc_elems enc x l b /\ forallb closed (snd (fst (enc_elems enc x l b))) = true.
    Proof.
      induction l as [|v l IH]; intros b Hl; [auto|]. cbn [forallb] in Hl. apply andb_true_iff in Hl as [Hv Hl]. cbn [enc_elems]. destruct (elem_closed x v b Hv) as [-> C1].
      destruct (enc_elem enc x v b) as [[[e|] v'] b']; cbn [fst snd] in C1.
      - split; [reflexivity|]. cbn [fst snd forallb]. rewrite C1. exact Hl.
      - destruct (IH b' Hl) as [-> C2]. destruct (enc_elems enc x l b') as [[e l'] b'']. split; [reflexivity|]. cbn [fst snd forallb] in *. rewrite C1. exact C2.
    Qed.
    Lemma estmt_closed s fs loc b : (forall alg f, s = ESum alg f -> computes W E alg) -> (forall g, In g (uses s) -> closed (get g fs) = true) ->
      exec_estmt_open enc' W s (fs, loc, b) = exec_estmt enc (checksum E) s (fs, loc, b) /\ fields_kept fs (fst (fst (snd (exec_estmt enc (checksum E) s (fs, loc, b))))).
    Proof.
      intros HW U. destruct s; cbn [exec_estmt_open exec_estmt uses] in *; try (assert (G := U f (or_introl eq_refl))).
      - split; [reflexivity|]. destruct (get f fs) as [|z|z|s|l|c gs]; try apply kept_refl. destruct (write_int o n z b). apply kept_refl.
      - split; [reflexivity|]. destruct (get f fs) as [|z|z|s|l|c gs]; try apply kept_refl. destruct (write_int o n z b). apply kept_refl.
      - split; [reflexivity|]. destruct (string_of (get f fs)); [|apply kept_refl]. destruct (write_fixed _ _ _ _ b). apply kept_refl.
      - split; [reflexivity|]. destruct (string_of (get f fs)); [|apply kept_refl]. destruct (write_dyn _ _ _ _ _ b). apply kept_refl.
      - destruct (get f fs) as [| | | |l|] eqn:Q; try (split; [reflexivity|apply kept_refl]).
        + split; [reflexivity|]. destruct (write_int zo zn 0 b). apply kept_refl.
        + destruct l as [|v l]; [split; [reflexivity|]; destruct (write_int zo zn 0 b); apply kept_refl|]. destruct (write_int o n (wrap cast (Z.of_nat (List.length (v :: l)))) b) as [[e|] b']; [split; [reflexivity|apply kept_refl]|].
          destruct (elems_closed x (v :: l) b' G) as [-> C2]. destruct (enc_elems enc x (v :: l) b') as [[e l'] b'']. cbn [fst snd] in *. split; [reflexivity|]. apply kept_set. exact C2.
      - destruct (He (get f fs) b G) as [-> C1]. destruct (enc (get f fs) b) as [[e v'] b']. split; [reflexivity|]. cbn [fst snd] in *. apply kept_set. exact C1.
      - destruct (get f fs) as [| | | | |] eqn:Q; try (split; [reflexivity|apply kept_refl]);
          match goal with |- context [enc' ?v b] => destruct (He v b G) as [-> C1]; destruct (enc v b) as [[e v'] b'] end; (split; [reflexivity|]); cbn [fst snd] in *; apply kept_set; exact C1.
      - split; [reflexivity|apply kept_refl].
      - split; [reflexivity|]. destruct (write_int o n 0 b). apply kept_refl.
      - split; [reflexivity|]. destruct (assoc x loc); [|apply kept_refl]. destruct (assoc y loc); [|apply kept_refl]. apply kept_set. reflexivity.
      - split; [reflexivity|]. destruct (assoc x loc) as [i|]; [|apply kept_refl]. destruct (get f fs) as [|z|z|s|l|c gs]; try apply kept_refl. destruct (set_int o n i z b). apply kept_refl.
      - specialize (HW alg f eq_refl). unfold computes in HW. destruct (services W alg) as [sv|], (checksum E alg) as [c|]; try contradiction; [|split; [reflexivity|apply kept_refl]]. rewrite HW. split; [reflexivity|]. apply kept_set. reflexivity.
    Qed.
    Lemma stmts_closed ss : forall fs loc b, (forall alg f, In (ESum alg f) ss -> computes W E alg) -> (forall s g, In s ss -> In g (uses s) -> closed (get g fs) = true) ->
      exec_enc_open enc' W ss (fs, loc, b) = exec_enc enc (checksum E) ss (fs, loc, b) /\ fields_kept fs (fst (fst (snd (exec_enc enc (checksum E) ss (fs, loc, b))))).
    Proof.
      induction ss as [|s ss IH]; intros fs loc b HW U; [split; [reflexivity|apply kept_refl]|]. cbn [exec_enc_open exec_enc]. destruct (estmt_closed s fs loc b) as [-> K]; [intros alg f ->; apply (HW alg f); left; reflexivity|intros g; apply U; left; reflexivity|].
      destruct (exec_estmt enc (checksum E) s (fs, loc, b)) as [[e|] [[fs1 loc1] b1]]; cbn [fst snd] in K; [split; [reflexivity|exact K]|].
      destruct (IH fs1 loc1 b1) as [-> K2]; [intros alg f I; apply (HW alg f); right; exact I|intros s' g I1 I2; apply K; apply (U s' g); [right; exact I1|exact I2]|]. split; [reflexivity|]. eapply kept_trans; eauto.
    Qed.
  End Enc.
  Theorem encode_closed : (forall c cd alg f, ok c = true -> find_class E c = Some cd -> In (ESum alg f) (c_enc cd) -> computes W E alg) -> forall d v b, closed v = true -> encode_open W E d v b = encode E d v b /\ closed (snd (fst (encode E d v b))) = true.
  Proof.
    intros HW. induction d as [|d IH]; intros v b Hv; destruct v as [| | | | |c fs]; try (split; [reflexivity|exact Hv]). cbn [encode_open encode]. cbn [made_of] in Hv. apply andb_true_iff in Hv as [Hc Hv]. pose proof (ok_known c Hc) as F. unfold of_library in F. destruct (find_class E c) as [cd|] eqn:FC; [clear F|discriminate].
    destruct (stmts_closed (encode E d) (encode_open W E d) IH (c_enc cd) fs [] b) as [-> [_ K]]; [intros alg f; exact (HW c cd alg f Hc FC)|intros; apply closed_get; exact Hv|].
    destruct (exec_enc (encode E d) (checksum E) (c_enc cd) (fs, [], b)) as [e [[fs1 loc1] b1]]. split; [reflexivity|]. cbn [fst snd made_of] in *. rewrite Hc. apply K. exact Hv.
  Qed.

  (* decode *)
  Lemma new_closed c : ok c = true -> new_open W E c = new_obj E c /\ closed (new_obj E c) = true.
  Proof.
    intros Hc. pose proof (ok_known c Hc) as F. unfold of_library in F. unfold new_open, new_obj. destruct (find_class E c) as [cd|]; [|discriminate]. split; [reflexivity|]. cbn [made_of]. rewrite Hc. cbn [andb]. induction (c_fields cd) as [|[f t] l IH]; [reflexivity|]. cbn [map forallb snd fst]. rewrite IH. destruct t; reflexivity.
  Qed.

  (* the classes a statement of decode creates by name *)
  Definition makes (s : dstmt) : list string :=
    match s with
    | DList _ _ _ (YObj c) => [c]
    | DNewIfNull _ c => [c]
    | _ => []
    end.
  Section Dec.
    Variable dec dec' : val -> bytebuf -> option exn * val * bytebuf.
    Hypothesis Hd : forall x b, closed x = true -> dec' x b = dec x b /\ closed (snd (fst (dec x b))) = true.
    Variable create : key -> option string.
    Notation new := (new_obj E).
    Notation new' := (new_open W E).
    Notation known c := (ok c = true).
    Lemma known_new c : known c -> new' c = new c /\ closed (new c) = true.
    Proof. exact (new_closed c). Qed.
    Lemma delem_closed y l b : (forall c, y = YObj c -> known c) -> forallb closed l = true ->
      dec_elem dec' new' y (l, b) = dec_elem dec new y (l, b) /\ forallb closed (fst (snd (dec_elem dec new y (l, b)))) = true.
    Proof.
      intros K Hl. assert (AP : forall x, closed x = true -> forallb closed (l ++ [x]) = true) by (intros x Hx; rewrite forallb_app, Hl; cbn; rewrite Hx; reflexivity).
      destruct y as [n o|n o|len pad lft|n o|c]; cbn [dec_elem].
      - split; [reflexivity|]. destruct (read_bytes n b) as [[e|bs] b']; [exact Hl|apply AP; reflexivity].
      - split; [reflexivity|]. destruct (read_bytes n b) as [[e|bs] b']; [exact Hl|apply AP; reflexivity].
      - split; [reflexivity|]. destruct (read_fixed len pad lft b) as [[e|bs] b']; [exact Hl|apply AP; reflexivity].
      - split; [reflexivity|]. destruct (read_bytes n b) as [[e|bs] b']; [exact Hl|]. cbv zeta. destruct (get_int o bs >? 0); [|exact Hl]. destruct (read_chars (get_int o bs) b') as [[e|cs] b'']; [exact Hl|apply AP; reflexivity].
      - destruct (known_new c (K c eq_refl)) as [-> C]. destruct (Hd (new c) b C) as [-> C1]. destruct (dec (new c) b) as [[[e|] v] b']; (split; [reflexivity|]); [exact Hl|apply AP; exact C1].
    Qed.
    Lemma diter_closed y k : (forall c, y = YObj c -> known c) -> forall l b, forallb closed l = true ->
      iter k (dec_elem dec' new' y) (l, b) = iter k (dec_elem dec new y) (l, b) /\ forallb closed (fst (snd (iter k (dec_elem dec new y) (l, b)))) = true.
    Proof.
      intros K. induction k as [|k IH]; intros l b Hl; [split; [reflexivity|exact Hl]|]. cbn [iter]. destruct (delem_closed y l b K Hl) as [-> C].
      destruct (dec_elem dec new y (l, b)) as [[e|] [l1 b1]]; [split; [reflexivity|exact C]|]. exact (IH l1 b1 C).
    Qed.
    Lemma dstmt_closed s fs b : (forall c, In c (makes s) -> known c) -> (forall f k, s = DCreate f k -> forall t c, create t = Some c -> known c) -> (forall f, s = DObj f -> closed (get f fs) = true) ->
      exec_dstmt dec' new' create s (fs, b) = exec_dstmt dec new create s (fs, b) /\ fields_kept fs (fst (snd (exec_dstmt dec new create s (fs, b)))).
    Proof.
      intros K KC G. destruct s as [n o f|n o f|f len pad lft|f n o|f n o y|f c|f|f key]; cbn [exec_dstmt makes] in *.
      - split; [reflexivity|]. destruct (read_bytes n b) as [[e|bs] b']; [apply kept_refl|apply kept_set; reflexivity].
      - split; [reflexivity|]. destruct (read_bytes n b) as [[e|bs] b']; [apply kept_refl|apply kept_set; reflexivity].
      - split; [reflexivity|]. destruct (read_fixed len pad lft b) as [[e|bs] b']; [apply kept_refl|apply kept_set; reflexivity].
      - split; [reflexivity|]. destruct (read_bytes n b) as [[e|bs] b']; [apply kept_refl|]. cbv zeta. destruct (get_int o bs >? 0); [|apply kept_refl]. destruct (read_chars (get_int o bs) b') as [[e|cs] b'']; [apply kept_refl|apply kept_set; reflexivity].
      - destruct (read_bytes n b) as [[e|bs] b']; [split; [reflexivity|apply kept_refl]|]. cbv zeta. destruct (get_int o bs >? 0); [|split; [reflexivity|apply kept_refl]]. rewrite !repeat_z_iter.
        destruct (diter_closed y (Z.to_nat (get_int o bs)) (fun c Q => K c (ltac:(rewrite Q; left; reflexivity))) [] b' eq_refl) as [-> C]. destruct (iter _ (dec_elem dec new y) ([], b')) as [e [l b'']]. split; [reflexivity|]. apply kept_set. exact C.
      - destruct (known_new c (K c (or_introl eq_refl))) as [-> C]. split; [reflexivity|]. destruct (get f fs); try apply kept_refl. apply kept_set. exact C.
      - destruct (Hd (get f fs) b (G f eq_refl)) as [-> C]. destruct (dec (get f fs) b) as [[e v] b']. split; [reflexivity|]. apply kept_set. exact C.
      - destruct (key_of (get key fs)) as [t|]; [|split; [reflexivity|apply kept_refl]]. destruct (create t) as [c|] eqn:Q; [|split; [reflexivity|apply kept_refl]]. destruct (known_new c (KC f key eq_refl t c Q)) as [-> C]. split; [reflexivity|]. apply kept_set. exact C.
    Qed.
    Lemma dstmts_closed ss : forall fs b, (forall s c, In s ss -> In c (makes s) -> known c) -> (forall f k, In (DCreate f k) ss -> forall t c, create t = Some c -> known c) ->
      (forall f, In (DObj f) ss -> closed (get f fs) = true) ->
      exec_dec dec' new' create ss (fs, b) = exec_dec dec new create ss (fs, b) /\ fields_kept fs (fst (snd (exec_dec dec new create ss (fs, b)))).
    Proof.
      induction ss as [|s ss IH]; intros fs b K KC G; [split; [reflexivity|apply kept_refl]|]. cbn [exec_dec].
      destruct (dstmt_closed s fs b) as [-> K1]; [intros c; apply K; left; reflexivity|intros f k Q; subst s; apply (KC f k); left; reflexivity|intros f Q; apply G; left; exact Q|].
      destruct (exec_dstmt dec new create s (fs, b)) as [[e|] [fs1 b1]]; cbn [fst snd] in K1; [split; [reflexivity|exact K1]|].
      destruct (IH fs1 b1) as [-> K2]; [intros s' c I; apply K; right; exact I|intros f k I; apply (KC f k); right; exact I|intros f I; apply K1, G; right; exact I|]. split; [reflexivity|]. eapply kept_trans; eauto.
    Qed.
  End Dec.
  Hypothesis makes_known : forall c cd s n, ok c = true -> find_class E c = Some cd -> In s (c_dec cd) -> In n (makes s) -> ok n = true.
  Theorem decode_closed : (forall o cd f k t c, ok o = true -> find_class E o = Some cd -> In (DCreate f k) (c_dec cd) -> factory E o t = Some c -> ok c = true) -> forall d v b, closed v = true -> decode_open W E d v b = decode E d v b /\ closed (snd (fst (decode E d v b))) = true.
  Proof.
    intros HF. induction d as [|d IH]; intros v b Hv; destruct v as [| | | | |c fs]; try (split; [reflexivity|exact Hv]). cbn [decode_open decode]. cbn [made_of] in Hv. apply andb_true_iff in Hv as [Hc Hv]. pose proof (ok_known c Hc) as F. unfold of_library in F. destruct (find_class E c) as [cd|] eqn:FC; [clear F|discriminate].
    destruct (dstmts_closed (decode E d) (decode_open W E d) IH (factory E c) (c_dec cd) fs b) as [-> [_ K]]; [intros s n; exact (makes_known c cd s n Hc FC)|intros f k Q t n; exact (HF c cd f k t n Hc FC Q)|intros; apply closed_get; exact Hv|].
    destruct (exec_dec (decode E d) (new_obj E) (factory E c) (c_dec cd) (fs, b)) as [e [fs1 b1]]. split; [reflexivity|]. cbn [fst snd made_of] in *. rewrite Hc. apply K. exact Hv.
  Qed.
End Closed.
