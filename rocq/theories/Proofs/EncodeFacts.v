(* encode against the wire specification. *)
From Coq Require Import ZArith List Bool String Lia.
From Verif.Model Require Import JavaPrim ByteBuf Utf8 Codec Ast Interp.
From Verif.Spec Require Import Bytes Buffers Wire Reading.
From Verif.Proofs Require Import BytesFacts BufFacts Utf8Facts CodecFacts Conform TableFacts.
Import ListNotations.
Open Scope Z_scope.

Section Encode.
  Variable C : list (string * class_def).
  Variable Y : layouts.
  Hypothesis HC : conforms C Y.
  Variable E : env.
  Hypothesis HE : classes E = C.

  Notation sums := (checksum E).
  Notation ser := (ser Y).
  Notation fill := (fill_in Y sums).

  (* names for the loops inside fill_in *)
  Definition fill_list (w : wire) : list Z -> list val -> list val :=
    fix go pre l :=
      match l with
      | [] => []
      | x :: r => let x' := fill pre x w in x' :: go (pre ++ ser x' w) r
      end.
  Fixpoint fill_fields (pre : list Z) (fs : list (string * val)) (L : layout) : list (string * val) :=
    match fs, L with
    | (f, x) :: fs', (_, w) :: L' =>
        match w with
        | WLen n o =>
            match fs', L' with
            | (g, y) :: fs'', (_, w') :: L'' =>
                let y' := fill (pre ++ repeat 0 n) y w' in
                let len := Z.of_nat (List.length (ser y' w')) in
                (f, VInt len) :: (g, y') :: fill_fields (pre ++ number o n len ++ ser y' w') fs'' L''
            | _, _ => fs
            end
        | WSum n o alg =>
            let x' := match sums alg with Some c => VInt (wrap 32 (c pre)) | None => x end in
            (f, x') :: fill_fields (pre ++ ser x' w) fs' L'
        | _ => let x' := fill pre x w in (f, x') :: fill_fields (pre ++ ser x' w) fs' L'
        end
    | _, _ => fs
    end.
  Lemma fill_list_eq pre l n o w : fill pre (VList l) (WList n o w) = VList (fill_list w (pre ++ number o n (Z.of_nat (List.length l))) l).
  Proof. reflexivity. Qed.
  Lemma fill_obj_eq pre c fs w L : find c Y = Some L -> fill pre (VObj c fs) w = VObj c (fill_fields pre fs L).
  Proof. intros H. cbn [fill_in]. rewrite H. reflexivity. Qed.
  Definition ser_fields (fs : list (string * val)) (L : layout) : list Z :=
    concat2 (fun fv fw => ser (snd fv) (snd fw)) fs L.
  Definition is_obj_wire (w : wire) : bool := match w with WObj _ | WBody _ => true | _ => false end.
  Lemma ser_obj_eq c fs w L : is_obj_wire w = true -> find c Y = Some L -> ser (VObj c fs) w = ser_fields fs L.
  Proof. intros Hw H. destruct w; try discriminate Hw; cbn [Wire.ser]; rewrite H; reflexivity. Qed.
  Lemma fill_list_length w pre l : List.length (fill_list w pre l) = List.length l.
  Proof. revert pre; induction l; simpl; auto. Qed.

  (* why an encode failed *)
  Definition reason (d : nat) (b : bytebuf) (cmpl : bool) (len nest : nat) (e : exn) : Prop :=
    e = NPE /\ cmpl = false \/ e = IOOBE /\ ~ fits b len \/ e = SOE /\ (d < nest)%nat.
  Definition broken (b b1 : bytebuf) : Prop := wf b1 /\ exists bs, appended b bs b1.

  Definition post (d : nat) (b : bytebuf) (x x' : val) (w : wire) (r : option exn * val * bytebuf) : Prop :=
    match r with
    | (None, x1, b1) => x1 = x' /\ appended b (ser x' w) b1 /\ wf b1 /\ complete Y x w = true /\ (nesting x <= d)%nat
    | (Some e, _, b1) => broken b b1 /\ reason d b (complete Y x w) (List.length (ser x' w)) (nesting x) e
    end.

  (* a leaf value whose bytes are written by a buffer-only operation *)
  Lemma post_wrote d b x w r : wf b -> wrote b (ser x w) r -> complete Y x w = true -> nesting x = O ->
    post d b x x w (let '(e, b') := r in (e, x, b')).
  Proof.
    intros H Hw Hc Hn. destruct r as [[e|] b1]; simpl in *.
    - destruct Hw as (-> & F & W & X). split; [split; auto|]. right; left; auto.
    - destruct Hw as [A W]. rewrite Hn. repeat (split; auto). lia.
  Qed.

  Lemma string_of_typed v : typed C v TStr = true ->
    exists s, string_of v = Some s /\ text_of s = text v /\ forallb is_unit (text_of s) = true /\ nesting v = O.
  Proof.
    intros H. destruct (typed_str C v H) as [->|(s & -> & Hs)].
    - exists None. auto.
    - exists (Some s). auto.
  Qed.

  Lemma write_dyn_wrote s n o b : wf b -> forallb is_unit (text_of s) = true ->
    wrote b (number o n (Z.of_nat (List.length (utf8 (text_of s)))) ++ utf8 (text_of s)) (write_dyn s n BE n o b).
  Proof.
    intros H Hu. unfold write_dyn.
    assert (H0 : wrote b (number o n 0 ++ []) (write_int BE n 0 b)).
    { rewrite app_nil_r, number_zero. pose proof (wrote_int BE n 0 b H) as A. rewrite number_zero in A. exact A. }
    destruct s as [[|c s]|]; cbn [text_of] in *; [exact H0| |exact H0]. clear H0.
    rewrite (utf8_encode_spec (c :: s) Hu).
    pose proof (wrote_seq b _ (utf8 (c :: s)) _ (write_bytes (utf8 (c :: s))) H
      (wrote_int o n (Z.of_nat (List.length (utf8 (c :: s)))) b H)
      (fun b1 W _ => wrote_bytes b1 _ W (utf8_bytes _ Hu))) as S.
    destruct (write_int o n (Z.of_nat (List.length (utf8 (c :: s)))) b) as [[e|] b1]; exact S.
  Qed.

  Lemma ser_fix v len pad lft : typed C v TStr = true -> ser v (WFix len pad lft) = fixed (Z.to_nat len) pad lft (text v).
  Proof. intros H. destruct (typed_str C v H) as [->|(s & -> & Hs)]; reflexivity. Qed.
  Lemma ser_dyn v n o : typed C v TStr = true ->
    ser v (WDyn n o) = number o n (Z.of_nat (List.length (utf8 (text v)))) ++ utf8 (text v).
  Proof. intros H. destruct (typed_str C v H) as [->|(s & -> & Hs)]; cbn [Wire.ser text]; auto. rewrite app_nil_r. reflexivity. Qed.
  Lemma complete_str v w : typed C v TStr = true -> match w with WFix _ _ _ | WDyn _ _ => complete Y v w = true | _ => True end.
  Proof. intros H. destruct (typed_str C v H) as [->|(s & -> & Hs)]; destruct w; auto. Qed.

  Definition enc_ok (d : nat) : Prop := forall v b w, is_obj_wire w = true -> v <> VNull -> typed C v TCodec = true -> wf b ->
    post d b v (fill (readable b) v w) w (encode E d v b).

  (* scalars are not changed by fill *)
  Lemma fill_scalar pre v w : match v with VList _ | VObj _ _ => False | _ => True end -> fill pre v w = v.
  Proof. destruct v; simpl; intuition. Qed.

  Lemma encode_null d b w : is_obj_wire w = true -> wf b -> (forall k, w <> WBody k) ->
    post d b VNull VNull w (encode E d VNull b).
  Proof.
    intros Hw H Hk. replace (encode E d VNull b) with (Some NPE, VNull, b) by (destruct d; reflexivity). split.
    - split; auto. exists []. apply appended_nil.
    - left. split; auto. destruct w; try discriminate Hw; auto. destruct (Hk key); auto.
  Qed.

  Lemma enc_elem_post d w x b : enc_ok d -> ok_elem Y w = true -> (x = VNull \/ typed C x (wire_type w) = true) -> wf b ->
    post d b x (fill (readable b) x w) w (enc_elem (encode E d) (compile_eelem w) x b).
  Proof.
    intros IH Hok Hx H.
    destruct w; try discriminate Hok; cbn [compile_eelem enc_elem].
    - (* int *) destruct Hx as [->|Hx].
      + cbn. split; [split; auto; exists []; apply appended_nil|]. left; auto.
      + cbn [ok_elem] in Hok. destruct (typed_int C x n o Hok Hx) as (z & -> & _). rewrite fill_scalar by exact I.
        apply post_wrote; auto. apply wrote_int; auto.
    - destruct Hx as [->|Hx].
      + cbn. split; [split; auto; exists []; apply appended_nil|]. left; auto.
      + cbn [ok_elem] in Hok. destruct (typed_flt C x n o Hok Hx) as (z & -> & _). rewrite fill_scalar by exact I.
        apply post_wrote; auto. apply wrote_int; auto.
    - (* fixed *) assert (Ht : typed C x TStr = true) by (destruct Hx as [->|Hx]; auto).
      destruct (string_of_typed x Ht) as (s & Es & Et & Hu & Hn). rewrite Es.
      rewrite fill_scalar by (destruct (typed_str C x Ht) as [->|(? & -> & _)]; exact I).
      apply post_wrote; auto; [|apply (complete_str x (WFix len pad lft) Ht)].
      rewrite ser_fix by exact Ht. rewrite <- Et. apply write_fixed_wrote; auto.
      cbn [ok_elem] in Hok. apply andb_true_iff in Hok as [Hl _]. apply Z.ltb_lt in Hl. lia.
    - (* dyn *) assert (Ht : typed C x TStr = true) by (destruct Hx as [->|Hx]; auto).
      destruct (string_of_typed x Ht) as (s & Es & Et & Hu & Hn). rewrite Es.
      rewrite fill_scalar by (destruct (typed_str C x Ht) as [->|(? & -> & _)]; exact I).
      apply post_wrote; auto; [|apply (complete_str x (WDyn n o) Ht)].
      rewrite ser_dyn by exact Ht. rewrite <- Et. apply write_dyn_wrote; auto.
    - (* obj *) destruct x as [| | | | |c' fs].
      + apply (encode_null d b (WObj c) eq_refl H). congruence.
      + destruct Hx as [Hx|Hx]; discriminate Hx.
      + destruct Hx as [Hx|Hx]; discriminate Hx.
      + destruct Hx as [Hx|Hx]; discriminate Hx.
      + destruct Hx as [Hx|Hx]; discriminate Hx.
      + apply IH; auto; [discriminate|]. destruct Hx as [Hx|Hx]; [discriminate|]. apply typed_obj_codec in Hx. exact Hx.
  Qed.

  Lemma reason_mono d b b0 cm cm' len len' nest nest' e bs :
    wf b -> wf b0 -> appended b bs b0 ->
    (cm = false -> cm' = false) -> (List.length bs + len <= len')%nat -> (nest <= nest')%nat ->
    reason d b0 cm len nest e -> reason d b cm' len' nest' e.
  Proof.
    intros H H0 A Hc Hl Hn [[-> R]|[[-> R]|[-> R]]].
    - left; auto.
    - right; left. split; auto. intros F. apply R. apply (fits_after b bs b0); auto. eapply fits_weaken; eauto.
    - right; right. split; auto. lia.
  Qed.
  Lemma broken_trans b bs b0 b1 : appended b bs b0 -> broken b0 b1 -> broken b b1.
  Proof. intros A [W [bs' A']]. split; auto. eexists. eapply appended_trans; eauto. Qed.

  Lemma enc_elems_post d w l b : enc_ok d -> ok_elem Y w = true -> forallb (fun x => is_null x || typed C x (wire_type w)) l = true -> wf b ->
    match enc_elems (encode E d) (compile_eelem w) l b with
    | (None, l1, b1) => l1 = fill_list w (readable b) l /\ appended b (flat_map (fun x => ser x w) l1) b1 /\ wf b1
                        /\ forallb (fun x => complete Y x w) l = true /\ (max_of nesting l <= d)%nat
    | (Some e, _, b1) => broken b b1 /\
        reason d b (forallb (fun x => complete Y x w) l) (List.length (flat_map (fun x => ser x w) (fill_list w (readable b) l))) (max_of nesting l) e
    end.
  Proof.
    intros IH Hok. revert b. induction l as [|x l IHl]; intros b Hl H.
    - cbn. split; auto. split; [apply appended_nil|]. split; auto. split; auto. lia.
    - cbn [forallb] in Hl. apply andb_true_iff in Hl as [Hx Hl].
      assert (Hx' : x = VNull \/ typed C x (wire_type w) = true).
      { apply orb_true_iff in Hx as [Hx|Hx]; [left|right; auto]. destruct x; try discriminate; auto. }
      pose proof (enc_elem_post d w x b IH Hok Hx' H) as P. cbn [enc_elems].
      destruct (enc_elem (encode E d) (compile_eelem w) x b) as [[[e|] x1] b1].
      + destruct P as [B R]. split; auto. eapply reason_mono with (bs := []); [exact H|exact H|apply appended_nil| | | |exact R].
        * cbn [forallb]. intros ->. reflexivity.
        * cbn [fill_list flat_map]. rewrite app_length. simpl. lia.
        * cbn [max_of]. lia.
      + destruct P as (-> & A & W & Hc & Hn).
        specialize (IHl b1 Hl W). rewrite (appended_readable b _ b1 H A) in IHl.
        destruct (enc_elems (encode E d) (compile_eelem w) l b1) as [[[e|] l1] b2].
        * destruct IHl as [B R]. split; [eapply broken_trans; eauto|].
          eapply reason_mono with (bs := ser (fill (readable b) x w) w); [exact H|exact W|exact A| | | |exact R].
          -- cbn [forallb]. rewrite Hc. auto.
          -- cbn [fill_list flat_map]. rewrite app_length. reflexivity.
          -- cbn [max_of]. lia.
        * destruct IHl as (-> & A2 & W2 & Hc2 & Hn2). split; [reflexivity|]. split; [|split; [auto|split]].
          -- cbn [flat_map]. eapply appended_trans; eauto.
          -- cbn [forallb]. rewrite Hc, Hc2. reflexivity.
          -- cbn [max_of]. lia.
  Qed.

  (* one field, one statement *)
  Definition simple_wire (w : wire) : bool := match w with WLen _ _ | WSum _ _ _ => false | _ => true end.
  Definition stmt_of (f : string) (w : wire) : estmt :=
    match w with
    | WInt n o => EWrite n o f
    | WFlt n o => EWriteF n o f
    | WFix len pad l => EFix f len pad l
    | WDyn n o => EDyn f n BE n o
    | WObj _ => EObj f
    | WBody _ => EObjOpt f
    | WList n o w' => EList f n BE (8 * Z.of_nat n) n o (compile_eelem w')
    | _ => EZero 0 BE
    end.
  Definition ok_simple (w : wire) : bool :=
    match w with
    | WList n _ w' => ok_count n && ok_elem Y w'
    | WBody _ => true
    | _ => ok_elem Y w
    end.

  Lemma exec_simple d f w x dn td loc b : enc_ok d -> simple_wire w = true -> ok_simple w = true ->
    existsb (fun fw : string * val => String.eqb f (fst fw)) dn = false ->
    typed C x (wire_type w) = true -> wf b ->
    exists r, post d b x (fill (readable b) x w) w r /\
      exec_estmt (encode E d) sums (stmt_of f w) (dn ++ (f, x) :: td, loc, b) =
      (let '(e, x1, b1) := r in (e, (dn ++ (f, x1) :: td, loc, b1))).
  Proof.
    intros IH Hs Hok Hf Hx H.
    assert (G : forall y, get f (dn ++ (f, y) :: td) = y) by (intros; apply get_mid; auto).
    assert (S : forall y y', set f y' (dn ++ (f, y) :: td) = dn ++ (f, y') :: td) by (intros; apply set_mid; auto).
    destruct w; try discriminate Hs; cbn [stmt_of exec_estmt].
    - (* WInt *) destruct (typed_int C x n o Hok Hx) as (z & -> & _). rewrite G.
      exists (let '(e, b') := write_int o n z b in (e, VInt z, b')). split.
      + rewrite fill_scalar by exact I. apply post_wrote; auto. apply wrote_int; auto.
      + destruct (write_int o n z b) as [e b']. reflexivity.
    - (* WFlt *) destruct (typed_flt C x n o Hok Hx) as (z & -> & _). rewrite G.
      exists (let '(e, b') := write_int o n z b in (e, VFlt z, b')). split.
      + rewrite fill_scalar by exact I. apply post_wrote; auto. apply wrote_int; auto.
      + destruct (write_int o n z b) as [e b']. reflexivity.
    - (* WFix *) destruct (string_of_typed x Hx) as (s & Es & Et & Hu & Hn). rewrite G, Es.
      exists (let '(e, b') := write_fixed s len pad lft b in (e, x, b')). split.
      + rewrite fill_scalar by (destruct (typed_str C x Hx) as [->|(? & -> & _)]; exact I).
        apply post_wrote; auto; [|apply (complete_str x (WFix len pad lft) Hx)].
        rewrite ser_fix by exact Hx. rewrite <- Et. apply write_fixed_wrote; auto.
        cbn [ok_simple ok_elem] in Hok. apply andb_true_iff in Hok as [Hl _]. apply Z.ltb_lt in Hl. lia.
      + destruct (write_fixed s len pad lft b) as [e b']. reflexivity.
    - (* WDyn *) destruct (string_of_typed x Hx) as (s & Es & Et & Hu & Hn). rewrite G, Es.
      exists (let '(e, b') := write_dyn s n BE n o b in (e, x, b')). split.
      + rewrite fill_scalar by (destruct (typed_str C x Hx) as [->|(? & -> & _)]; exact I).
        apply post_wrote; auto; [|apply (complete_str x (WDyn n o) Hx)].
        rewrite ser_dyn by exact Hx. rewrite <- Et. apply write_dyn_wrote; auto.
      + destruct (write_dyn s n BE n o b) as [e b']. reflexivity.
    - (* WObj *) rewrite G. exists (encode E d x b). split.
      + destruct (typed_tobj C x c Hx) as [->|(fs & ->)].
        * apply (encode_null d b (WObj c) eq_refl H). congruence.
        * apply IH; auto; [discriminate|]. eapply typed_obj_codec; eauto.
      + destruct (encode E d x b) as [[e x1] b1]. rewrite S. reflexivity.
    - (* WBody *) rewrite G. destruct (typed_codec C x Hx) as [->|(c & fs & ->)].
      + exists (None, VNull, b). split; [|reflexivity]. cbn. split; auto. split; [apply appended_nil|]. split; auto. split; auto. lia.
      + exists (encode E d (VObj c fs) b). split.
        * apply IH; auto. discriminate.
        * destruct (encode E d (VObj c fs) b) as [[e x1] b1]. rewrite S. reflexivity.
    - (* WList *) rewrite G. cbn [ok_simple] in Hok. apply andb_true_iff in Hok as [Hn Hok].
      change (wire_type (WList n o w)) with (TList (wire_type w)) in Hx.
      assert (Hz : wrote b (number o n 0) (write_int BE n 0 b)).
      { pose proof (wrote_int BE n 0 b H) as A. rewrite number_zero in *. exact A. }
      destruct (typed_list C x _ Hx) as [->|(l & -> & Hl)].
      + exists (let '(e, b') := write_int BE n 0 b in (e, VNull, b')). split.
        * rewrite fill_scalar by exact I. apply post_wrote; auto.
        * destruct (write_int BE n 0 b) as [e b']. reflexivity.
      + destruct l as [|x0 l0].
        * exists (let '(e, b') := write_int BE n 0 b in (e, VList [], b')). split.
          -- change (fill (readable b) (VList []) (WList n o w)) with (VList []). apply post_wrote; auto.
             change (ser (VList []) (WList n o w)) with (number o n 0 ++ []). rewrite app_nil_r. exact Hz.
          -- destruct (write_int BE n 0 b) as [e b']. reflexivity.
        * set (l := x0 :: l0) in *. rewrite fill_list_eq.
          assert (n0 : (0 < n)%nat) by (destruct n; [discriminate|lia]).
          assert (Ew : number o n (wrap (8 * Z.of_nat n) (Z.of_nat (List.length l))) = number o n (Z.of_nat (List.length l))) by (apply number_wrap; auto).
          pose proof (wrote_int o n (wrap (8 * Z.of_nat n) (Z.of_nat (List.length l))) b H) as Hw. rewrite Ew in Hw.
          set (pre1 := number o n (Z.of_nat (List.length l))) in *.
          assert (Es : ser (VList (fill_list w (readable b ++ pre1) l)) (WList n o w) = pre1 ++ flat_map (fun x => ser x w) (fill_list w (readable b ++ pre1) l)).
          { cbn [Wire.ser]. rewrite fill_list_length. reflexivity. }
          destruct (write_int o n (wrap (8 * Z.of_nat n) (Z.of_nat (List.length l))) b) as [[e|] b1] eqn:Ewr.
          -- exists (Some e, VList l, b1). split; [|unfold l; rewrite Ewr || idtac].
             ++ destruct Hw as (-> & F & W & X). split; [split; auto|]. right; left. split; auto.
                intros F'. apply F. eapply fits_weaken; [|exact F']. rewrite Es, app_length. lia.
             ++ reflexivity.
          -- destruct Hw as [A W].
             pose proof (enc_elems_post d w l b1 IH Hok Hl W) as P. rewrite (appended_readable b _ b1 H A) in P.
             destruct (enc_elems (encode E d) (compile_eelem w) l b1) as [[[e|] l1] b2] eqn:Eel.
             ++ exists (Some e, VList l1, b2). split.
                ** destruct P as [B R]. split; [eapply broken_trans; eauto|].
                   eapply reason_mono with (bs := pre1); [exact H|exact W|exact A| | | |exact R].
                   --- auto.
                   --- rewrite Es, app_length. lia.
                   --- auto.
                ** unfold l. rewrite ?Ewr. rewrite S. reflexivity.
             ++ exists (None, VList l1, b2). split.
                ** destruct P as (-> & A2 & W2 & Hc & Hm). split; [reflexivity|]. split; [|split; [auto|split]].
                   --- rewrite Es. eapply appended_trans; eauto.
                   --- exact Hc.
                   --- exact Hm.
                ** unfold l. rewrite ?Ewr. rewrite S. reflexivity.
  Qed.

  (* a whole object, field by field *)
  Definition nest_fields (fs : list (string * val)) : nat := max_of (fun fv => nesting (snd fv)) fs.
  Definition complete_fields (fs : list (string * val)) (L : layout) : bool :=
    all2 (fun fv fw => complete Y (snd fv) (snd fw)) fs L.
  Definition fpost (d : nat) (dn td : list (string * val)) (L : layout) (b : bytebuf) (r : option exn * est) : Prop :=
    match r with
    | (None, (fs1, _, b1)) =>
        fs1 = dn ++ fill_fields (readable b) td L /\ appended b (ser_fields (fill_fields (readable b) td L) L) b1 /\ wf b1
        /\ complete_fields td L = true /\ (nest_fields td <= d)%nat
    | (Some e, (_, _, b1)) =>
        broken b b1 /\ reason d b (complete_fields td L) (List.length (ser_fields (fill_fields (readable b) td L) L)) (nest_fields td) e
    end.

  Lemma compile_simple f w L : simple_wire w = true -> compile_enc ((f, w) :: L) = stmt_of f w :: compile_enc L.
  Proof. destruct w; intros H; try discriminate H; reflexivity. Qed.
  Lemma fill_simple f w L pre x td g : simple_wire w = true ->
    fill_fields pre ((f, x) :: td) ((g, w) :: L) = (f, fill pre x w) :: fill_fields (pre ++ ser (fill pre x w) w) td L.
  Proof. destruct w; intros H; try discriminate H; reflexivity. Qed.
  Lemma ok_simple_of seen f w L : simple_wire w = true -> ok_fields Y seen ((f, w) :: L) = true ->
    existsb (fun fw => String.eqb f (fst fw)) seen = false /\ ok_simple w = true /\ ok_fields Y (seen ++ [(f, w)]) L = true.
  Proof.
    intros Hs H. cbn [ok_fields] in H. apply andb_true_iff in H as [H H3]. apply andb_true_iff in H as [H1 H2].
    apply negb_true_iff in H1. split; auto. split; auto. destruct w; try discriminate Hs; auto.
  Qed.
  Lemma names_snoc (f : string) (x : val) (w : wire) (dn : list (string * val)) (seen : layout) : map fst dn = map fst seen -> map fst (dn ++ [(f, x)]) = map fst (seen ++ [(f, w)]).
  Proof. intros H. rewrite !map_app, H. reflexivity. Qed.

  (* a step that wrote the field [f], followed by the rest *)
  Lemma fpost_cons d dn f g x x' w td td' L b b1 bs r :
    wf b -> wf b1 -> appended b bs b1 ->
    bs = ser x' w ->
    complete Y x w = true -> (nesting x <= d)%nat ->
    td' = fill_fields (readable b ++ bs) td L ->
    fill_fields (readable b) ((f, x) :: td) ((g, w) :: L) = (f, x') :: td' ->
    fpost d (dn ++ [(f, x')]) td L b1 r ->
    fpost d dn ((f, x) :: td) ((g, w) :: L) b r.
  Proof.
    intros H W A -> Hc Hn -> Hf P. unfold fpost in *. rewrite Hf. rewrite (appended_readable b _ b1 H A) in P.
    unfold complete_fields, nest_fields, ser_fields in *. cbn [all2 max_of concat2 snd] in *. rewrite Hc. cbn [andb].
    destruct r as [[e|] [[fs1 loc1] b2]].
    - destruct P as [B R]. split; [eapply broken_trans; eauto|].
      eapply reason_mono; [exact H|exact W|exact A| | | |exact R]; auto; [|lia]. rewrite app_length. lia.
    - destruct P as (-> & A2 & W2 & Hc2 & Hn2). split; [rewrite <- app_assoc; reflexivity|].
      split; [eapply appended_trans; eauto|]. split; auto. split; auto. lia.
  Qed.

  Lemma exec_cons en st0 r st : exec_enc en sums (st0 :: r) st =
    match exec_estmt en sums st0 st with (None, st') => exec_enc en sums r st' | x => x end.
  Proof. reflexivity. Qed.
  Lemma mark_same x i loc : assoc x ((x, i) :: loc) = Some i :> option nat.
  Proof. simpl. rewrite String.eqb_refl. reflexivity. Qed.
  Lemma mark_other x y i loc : String.eqb x y = false -> assoc x ((y, i) :: loc) = assoc x loc :> option nat.
  Proof. simpl. intros ->. reflexivity. Qed.

  Lemma enc_fields_post d : enc_ok d -> forall m L, (List.length L <= m)%nat -> forall seen dn td loc b,
    ok_fields Y seen L = true -> map fst dn = map fst seen -> fields_ok C td L = true -> wf b ->
    fpost d dn td L b (exec_enc (encode E d) sums (compile_enc L) (dn ++ td, loc, b)).
  Proof.
    intros IHd. induction m as [|m IH]; intros L HL seen dn td loc b Hok Hnm Htd H.
    { destruct L; [|simpl in HL; lia]. destruct td; [|discriminate]. cbn. rewrite app_nil_r. split; auto.
      split; [apply appended_nil|]. split; auto. split; auto. lia. }
    destruct L as [|[f w] L].
    { destruct td; [|discriminate]. cbn. rewrite app_nil_r. split; auto.
      split; [apply appended_nil|]. split; auto. split; auto. lia. }
    destruct td as [|[f' x] td]; [discriminate|]. apply fields_ok_cons in Htd as (-> & Hx & Htd). simpl in HL.
    destruct (simple_wire w) eqn:Hs.
    - (* one statement *)
      apply ok_simple_of in Hok as (Hf & Hw & Hok); auto.
      rewrite <- (existsb_names f dn seen Hnm) in Hf.
      rewrite compile_simple by exact Hs.
      destruct (exec_simple d f w x dn td loc b IHd Hs Hw Hf Hx H) as (r & P & Er).
      cbn [exec_enc]. rewrite Er. destruct r as [[[e|] x1] b1]; cbn [post] in P.
      + destruct P as [B R]. unfold fpost. rewrite fill_simple by exact Hs. split; auto.
        unfold complete_fields, nest_fields, ser_fields. cbn [all2 max_of concat2 snd].
        eapply reason_mono with (bs := []); [exact H|exact H|apply appended_nil| | | |exact R].
        * intros Hc. rewrite Hc. reflexivity.
        * rewrite app_length. simpl. lia.
        * lia.
      + destruct P as (-> & A & W & Hc & Hn).
        eapply fpost_cons; [exact H|exact W|exact A|reflexivity|exact Hc|exact Hn|reflexivity|apply fill_simple; exact Hs|].
        replace (dn ++ (f, fill (readable b) x w) :: td) with ((dn ++ [(f, fill (readable b) x w)]) ++ td) by (rewrite <- app_assoc; reflexivity).
        apply IH with (seen := seen ++ [(f, w)]); auto; [lia|]. apply names_snoc; auto.
    - destruct w; try discriminate Hs.
      + (* length, body, patch *)
        cbn [ok_fields] in Hok. apply andb_true_iff in Hok as [Hok Hok3]. apply andb_true_iff in Hok as [Hok1 Hok2].
        apply andb_true_iff in Hok2 as [Hn4 Hok2]. apply Nat.eqb_eq in Hn4. subst n.
        destruct L as [|[g wg] L]; [discriminate|]. destruct wg; try discriminate Hok2.
        apply andb_true_iff in Hok2 as [Hok2 M3]. apply andb_true_iff in Hok2 as [Hok2 M2]. apply andb_true_iff in Hok2 as [M0 M1].
        apply negb_true_iff in Hok1, M0, M1, M2, M3.
        cbn [ok_fields] in Hok3. apply andb_true_iff in Hok3 as [Hok3 Hok5]. apply andb_true_iff in Hok3 as [Hok3 _].
        apply negb_true_iff in Hok3.
        destruct td as [|[g' y] td]; [discriminate|]. apply fields_ok_cons in Htd as (-> & Hy & Htd).
        destruct (typed_int C x 4 o eq_refl Hx) as (z & -> & _).
        assert (Hf : existsb (fun fw : string * val => String.eqb f (fst fw)) dn = false) by (rewrite (existsb_names f dn seen Hnm); exact Hok1).
        assert (Hg : forall v, existsb (fun fw : string * val => String.eqb g (fst fw)) (dn ++ [(f, v)]) = false).
        { intros v. rewrite (existsb_names g _ (seen ++ [(f, WLen 4 o)])); [exact Hok3|]. apply names_snoc; auto. }
        cbn [compile_enc].
        set (wg := WBody key) in *.
        set (fp := (f ++ "Pos")%string) in *. set (gs := (g ++ "Start")%string) in *. set (ge := (g ++ "End")%string) in *.
        (* EMark; EZero *)
        rewrite exec_cons. cbn [exec_estmt]. rewrite exec_cons. cbn [exec_estmt].
        pose proof (wrote_int o 4 0 b H) as Hz. rewrite number_zero in Hz.
        unfold fpost.
        assert (Ef : fill_fields (readable b) ((f, VInt z) :: (g, y) :: td) ((f, WLen 4 o) :: (g, wg) :: L) =
           let y' := fill (readable b ++ repeat 0 4) y wg in
           let len := Z.of_nat (List.length (ser y' wg)) in
           (f, VInt len) :: (g, y') :: fill_fields (readable b ++ number o 4 len ++ ser y' wg) td L) by reflexivity.
        rewrite Ef. clear Ef. cbv zeta.
        set (y' := fill (readable b ++ repeat 0 4) y wg).
        set (len := Z.of_nat (List.length (ser y' wg))).
        destruct (write_int o 4 0 b) as [[e|] b1] eqn:E1.
        * destruct Hz as (-> & F & W & X). split; [split; auto|]. right; left. split; auto. intros F'. apply F. eapply fits_weaken; [|exact F'].
          unfold ser_fields. cbn [concat2 snd Wire.ser]. rewrite app_length, number_length, repeat_length. lia.
        * destruct Hz as [A1 W1].
          pose proof (appended_widx _ _ _ H W1 A1) as Wi1. rewrite repeat_length in Wi1.
          pose proof (appended_readable b _ b1 H A1) as R1.
          destruct (exec_simple d g wg y (dn ++ [(f, VInt z)]) td ((gs, widx b1) :: (fp, widx b) :: loc) b1 IHd eq_refl eq_refl (Hg _) Hy W1) as (r & P & Er).
          rewrite R1 in P. fold y' in P.
          replace (dn ++ (f, VInt z) :: (g, y) :: td) with ((dn ++ [(f, VInt z)]) ++ (g, y) :: td) by (rewrite <- app_assoc; reflexivity).
          rewrite exec_cons. cbn [exec_estmt]. rewrite exec_cons. change (EObjOpt g) with (stmt_of g wg).
          rewrite Er. clear Er. destruct r as [[[e|] y1] b2]; cbn [post] in P.
          -- destruct P as [B R]. split; [eapply broken_trans; eauto|].
             unfold complete_fields, nest_fields, ser_fields. cbn [all2 max_of concat2 snd nesting complete andb].
             eapply reason_mono; [exact H|exact W1|exact A1| | | |exact R].
             ++ intros Hc. rewrite Hc. reflexivity.
             ++ rewrite !app_length. cbn [Wire.ser]. rewrite number_length, repeat_length. lia.
             ++ lia.
          -- destruct P as (-> & A2 & W2 & Hc & Hn).
             pose proof (appended_trans _ _ _ _ _ A1 A2) as A12.
             pose proof (appended_widx _ _ _ W1 W2 A2) as Wi2.
             rewrite exec_cons. cbn [exec_estmt]. rewrite exec_cons. cbn [exec_estmt assoc]. rewrite !String.eqb_refl. rewrite M3.
             assert (S1 : forall v v', set f v' ((dn ++ [(f, v)]) ++ (g, y') :: td) = dn ++ (f, v') :: (g, y') :: td).
             { intros. rewrite <- app_assoc. simpl. apply set_mid; auto. }
             rewrite S1.
             assert (Elen : wrap 32 (Z.of_nat (widx b2) - Z.of_nat (widx b1)) = len).
             { replace (Z.of_nat (widx b2) - Z.of_nat (widx b1)) with len by (unfold len; lia). apply wrap_id; [lia|]. apply in_signed_spec.
               pose proof (wf_max _ W2). pose proof (wf_cap _ W2). pose proof (wf_widx _ W2). unfold len. change (2 ^ (32 - 1)) with 2147483648 in *. change (2 ^ 31) with 2147483648 in *. lia. }
             rewrite Elen. rewrite exec_cons. cbn [exec_estmt assoc]. rewrite String.eqb_refl. rewrite M2, M1.
             rewrite get_mid by exact Hf.
             destruct (set_int_patch o 4 len b2 (content b) (repeat 0 4) (ser y' wg) W2) as (b3 & E3 & W3 & C3 & X1 & X2 & X3 & X4 & X5); [rewrite (app_content _ _ _ A12); reflexivity|apply repeat_length|].
             rewrite content_length in E3 by apply H. rewrite E3.
             assert (A3 : appended b (number o 4 len ++ ser y' wg) b3).
             { destruct A12. constructor; congruence. }
             specialize (IH L ltac:(simpl in HL; lia) (seen ++ [(f, WLen 4 o)] ++ [(g, wg)]) (dn ++ [(f, VInt len)] ++ [(g, y')]) td
               ((ge, widx b2) :: (gs, widx b1) :: (fp, widx b) :: loc) b3).
             replace (dn ++ (f, VInt len) :: (g, y') :: td) with ((dn ++ [(f, VInt len)] ++ [(g, y')]) ++ td) by (rewrite <- !app_assoc; reflexivity).
             assert (P : fpost d (dn ++ [(f, VInt len)] ++ [(g, y')]) td L b3
               (exec_enc (encode E d) sums (compile_enc L) ((dn ++ [(f, VInt len)] ++ [(g, y')]) ++ td, (ge, widx b2) :: (gs, widx b1) :: (fp, widx b) :: loc, b3))).
             { apply IH; auto.
               - rewrite app_assoc. exact Hok5.
               - rewrite !map_app, Hnm. reflexivity. }
             clear IH. unfold fpost in P. rewrite (appended_readable b _ b3 H A3) in P.
             destruct (exec_enc (encode E d) sums (compile_enc L) _) as [[e|] [[fs1 loc1] b4]].
             ++ destruct P as [B R]. split; [eapply broken_trans; eauto|].
                unfold complete_fields, nest_fields, ser_fields in *. cbn [all2 max_of concat2 snd nesting] in *. rewrite Hc. cbn [complete andb].
                eapply reason_mono; [exact H|exact W3|exact A3| | | |exact R]; auto; [|lia].
                rewrite !app_length. cbn [Wire.ser]. lia.
             ++ destruct P as (-> & A4 & W4 & Hc4 & Hn4). split; [rewrite <- !app_assoc; reflexivity|].
                split; [|split; auto; split].
                ** unfold ser_fields in *. cbn [concat2 snd Wire.ser]. pose proof (appended_trans _ _ _ _ _ A3 A4) as A5. rewrite <- app_assoc in A5. exact A5.
                ** unfold complete_fields in *. cbn [all2 snd]. rewrite Hc. exact Hc4.
                ** unfold nest_fields in *. cbn [max_of snd nesting]. lia.
      + (* checksum *)
        cbn [ok_fields] in Hok. apply andb_true_iff in Hok as [Hok Hok3]. apply andb_true_iff in Hok as [Hok1 Hok2].
        apply Nat.eqb_eq in Hok2. subst n. apply negb_true_iff in Hok1.
        assert (Hf : existsb (fun fw : string * val => String.eqb f (fst fw)) dn = false) by (rewrite (existsb_names f dn seen Hnm); exact Hok1).
        destruct (typed_int C x 4 o eq_refl Hx) as (z & -> & _).
        cbn [compile_enc]. rewrite exec_cons.
        set (x' := match sums alg with Some c => VInt (wrap 32 (c (readable b))) | None => VInt z end).
        assert (Hx' : exists z', x' = VInt z') by (unfold x'; destruct (sums alg); eauto).
        assert (E1 : exec_estmt (encode E d) sums (ESum alg f) (dn ++ (f, VInt z) :: td, loc, b) = (None, (dn ++ (f, x') :: td, loc, b))).
        { cbn [exec_estmt]. unfold x'. destruct (sums alg); [rewrite set_mid by exact Hf|]; reflexivity. }
        rewrite E1. clear E1. destruct Hx' as (z' & Ez). rewrite Ez. rewrite exec_cons. cbn [exec_estmt]. rewrite get_mid by exact Hf.
        pose proof (wrote_int o 4 z' b H) as Hw.
        assert (Ef : fill_fields (readable b) ((f, VInt z) :: td) ((f, WSum 4 o alg) :: L) =
                     (f, x') :: fill_fields (readable b ++ ser x' (WSum 4 o alg)) td L) by reflexivity.
        rewrite Ez in Ef.
        destruct (write_int o 4 z' b) as [[e|] b1].
        * destruct Hw as (-> & F & W & X). unfold fpost. split; [split; auto|]. right; left. split; auto. intros F'. apply F. eapply fits_weaken; [|exact F'].
          rewrite Ef. unfold ser_fields. cbn [concat2 snd Wire.ser]. rewrite app_length. lia.
        * destruct Hw as [A W].
          eapply fpost_cons; [exact H|exact W|exact A| | | | |exact Ef|]; try reflexivity; [cbn; lia|].
          replace (dn ++ (f, VInt z') :: td) with ((dn ++ [(f, VInt z')]) ++ td) by (rewrite <- app_assoc; reflexivity).
          apply IH with (seen := seen ++ [(f, WSum 4 o alg)]); auto; [lia|]. apply names_snoc; auto.
  Qed.

  Theorem enc_all d : enc_ok d.
  Proof.
    induction d as [|d IH]; intros v b w Hw Hv Ht H.
    - destruct (typed_codec C v Ht) as [->|(c & fs & ->)]; [congruence|]. cbn. split.
      + split; auto. exists []. apply appended_nil.
      + right; right. split; auto. lia.
    - destruct (typed_codec C v Ht) as [->|(c & fs & ->)]; [congruence|].
      destruct (typed_obj_known C Y c fs _ HC Ht) as [L HL].
      pose proof (conforms_find C Y c HC) as F. rewrite HL in F. destruct F as (cd & E1 & _ & _ & E2 & _).
      cbn [encode]. unfold find_class. rewrite HE, E1, E2.
      pose proof (enc_fields_post d IH (List.length L) L (le_n _) [] [] fs [] b (conforms_ok C Y c L HC HL) eq_refl
        (typed_obj C Y c fs _ L HC HL Ht) H) as P. cbn [app] in P.
      destruct (exec_enc (encode E d) sums (compile_enc L) (fs, [], b)) as [[e|] [[fs1 loc1] b1]]; unfold post, fpost in *.
      + rewrite (fill_obj_eq _ _ _ _ L HL), (ser_obj_eq _ _ _ L Hw HL). destruct P as [B R]. split; auto.
        cbn [complete nesting]. rewrite HL. destruct R as [R|[R|[-> R]]]; [left; auto|right; left; auto|right; right; split; auto].
        unfold nest_fields in R. lia.
      + rewrite (fill_obj_eq _ _ _ _ L HL), (ser_obj_eq _ _ _ L Hw HL). destruct P as (-> & A & W & Hc & Hn). split; auto. split; auto. split; auto. split.
        * cbn [complete]. rewrite HL. exact Hc.
        * cbn [nesting]. unfold nest_fields in Hn. lia.
  Qed.
End Encode.
