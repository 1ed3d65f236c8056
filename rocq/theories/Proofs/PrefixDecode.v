(* decode of the first fields of a layout. *)
From Coq Require Import ZArith List Bool String Lia.
From Verif.Model Require Import JavaPrim ByteBuf Utf8 Codec Ast Interp.
From Verif.Spec Require Import Bytes Buffers Wire Reading Flat.
From Verif.Proofs Require Import BytesFacts BufFacts Utf8Facts Utf8More CodecFacts Conform TableFacts EncodeFacts DecodeFacts.
Import ListNotations.
Open Scope Z_scope.

Lemma compile_dec_app L M : compile_dec (L ++ M) = compile_dec L ++ compile_dec M.
Proof. induction L as [|[f w] L IH]; auto. rewrite <- app_comm_cons, !compile_dec_cons, IH, app_assoc. reflexivity. Qed.

Section Prefix.
  Variable C : list (string * class_def).
  Variable Y : layouts.
  Hypothesis HC : conforms C Y.
  Variable E : env.
  Hypothesis HE : classes E = C.

  (* fixed-width fields of arbitrary bytes *)
  Lemma exec_scalar d create f w old dn os b : fixed_width w = true -> ok_field Y w = true ->
    existsb (fun fw : string * val => String.eqb f (fst fw)) dn = false -> wf b -> (width w <= List.length (readable b))%nat ->
    exec_dec (decode E d) (new_obj E) create (dec_stmts f w) (dn ++ (f, old) :: os, b)
    = (None, (dn ++ (f, scalar_of w (firstn (width w) (readable b))) :: os, adv b (width w))).
  Proof.
    intros Hw Hok Hf H Hl.
    assert (S : forall y y', set f y' (dn ++ (f, y) :: os) = dn ++ (f, y') :: os) by (intros; apply set_mid; auto).
    assert (Hr : readable b = firstn (width w) (readable b) ++ skipn (width w) (readable b)) by (symmetry; apply firstn_skipn).
    assert (Hlen : List.length (firstn (width w) (readable b)) = width w) by (rewrite firstn_length; lia).
    assert (Rb : forall n, n = width w -> read_bytes n b = (inr (firstn (width w) (readable b)), adv b (width w))).
    { intros n ->. pose proof (read_bytes_ok b _ _ H Hr) as R. rewrite Hlen in R. exact R. }
    destruct w; try discriminate Hw; cbn [dec_stmts exec_dec exec_dstmt width scalar_of] in *; try (rewrite (Rb _ eq_refl), S; reflexivity).
    cbn [ok_field ok_elem] in Hok. apply andb_true_iff in Hok as [Hp _]. apply Z.ltb_lt in Hp.
    rewrite (read_fixed_ok len pad lft b _ _ H Hr) by (rewrite Hlen; lia). rewrite S, Hlen. reflexivity.
  Qed.
  Lemma exec_flat d create : forall L seen post dn os os2 b, ok_fields Y seen (L ++ post) = true -> map fst dn = map fst seen -> flat L = true ->
    map fst os = map fst L -> wf b -> (total_width L <= List.length (readable b))%nat ->
    exec_dec (decode E d) (new_obj E) create (compile_dec L) (dn ++ os ++ os2, b)
    = (None, (dn ++ parse L (readable b) ++ os2, adv b (total_width L))).
  Proof.
    induction L as [|[f w] L IH]; intros seen post dn os os2 b Hok N Hfl Hos H Hl.
    - destruct os; [|discriminate]. cbn. rewrite adv_0. reflexivity.
    - destruct os as [|[f2 old] os]; [discriminate|]. cbn [map fst] in Hos. injection Hos as -> Hos.
      cbn [flat forallb snd] in Hfl. apply andb_true_iff in Hfl as [Hw Hfl]. rewrite <- app_comm_cons in Hok.
      apply ok_field_of in Hok as (Hf & Hwo & Hok & _). cbn [total_width] in Hl |- *.
      rewrite compile_dec_cons, exec_dec_app. rewrite <- app_comm_cons, (exec_scalar d create f w old dn (os ++ os2) b Hw Hwo); auto; [|rewrite (existsb_names f dn seen N); exact Hf|lia].
      replace (dn ++ (f, scalar_of w (firstn (width w) (readable b))) :: os ++ os2) with ((dn ++ [(f, scalar_of w (firstn (width w) (readable b)))]) ++ os ++ os2)
        by (rewrite <- app_assoc; reflexivity).
      assert (W1 : wf (adv b (width w))) by (apply wf_advance; auto; lia).
      assert (R1 : readable (adv b (width w)) = skipn (width w) (readable b)) by apply readable_advance.
      rewrite (IH (seen ++ [(f, w)]) post _ os os2 (adv b (width w))); auto.
      + rewrite R1, adv_adv, <- app_assoc. reflexivity.
      + rewrite !map_app, N. reflexivity.
      + rewrite R1, skipn_length. lia.
  Qed.

  (* the first fields, given the bytes of values for them *)
  Lemma dec_prefix d c fsall Lall : forall L post seen fsd fs dn os os2 b rest,
    fsall = fsd ++ fs -> Lall = seen ++ L -> ok_fields Y seen (L ++ post) = true ->
    map fst dn = map fst seen -> map fst fsd = map fst seen -> tags_read fsd seen dn ->
    fields_ok C fs L = true -> fields_ok C os L = true -> par_fs Y E c fsall Lall fs L = true ->
    (max_of (fun fv => nesting (snd fv)) fs <= d)%nat -> wf b -> readable b = ser_fs Y fs L ++ rest ->
    exec_dec (decode E d) (new_obj E) (factory E c) (compile_dec L) (dn ++ os ++ os2, b)
    = (None, (dn ++ absorb_fields Y fs L os ++ os2, adv b (List.length (ser_fs Y fs L))))
    /\ tags_read (fsd ++ fs) (seen ++ L) (dn ++ absorb_fields Y fs L os).
  Proof.
    induction L as [|[f w] L IH]; intros post seen fsd fs dn os os2 b rest Ea El Hok N1 N2 T Hfs Hos Hp Hn H Hr.
    - destruct fs; [|discriminate]. destruct os; [|discriminate]. cbn. rewrite adv_0, !app_nil_r. split; [reflexivity|exact T].
    - destruct fs as [|[f1 x] fs]; [discriminate|]. destruct os as [|[f2 ov] os]; [discriminate|].
      apply fields_ok_cons in Hfs as (-> & Hx & Hfs). apply fields_ok_cons in Hos as (-> & Ho & Hos).
      rewrite <- app_comm_cons in Hok. apply ok_field_of in Hok as (Hf & Hw & Hok & Hkey).
      unfold par_fs in Hp. cbn [all2 snd] in Hp. apply andb_true_iff in Hp as [Hp Hps]. apply andb_true_iff in Hp as [Hpx Hpk].
      cbn [max_of snd] in Hn. unfold ser_fs in Hr |- *. cbn [concat2 snd] in Hr |- *. rewrite <- app_assoc in Hr.
      rewrite compile_dec_cons, exec_dec_app. rewrite <- app_comm_cons.
      rewrite (exec_field C Y HC E HE d (factory E c) f w x ov dn (os ++ os2) b (ser_fs Y fs L ++ rest) (dec_all C Y HC E HE d) Hw); auto.
      + destruct (adv_ok b _ _ H Hr) as [W1 R1].
        replace (dn ++ (f, Reading.absorb Y ov x w) :: os ++ os2) with ((dn ++ [(f, Reading.absorb Y ov x w)]) ++ os ++ os2) by (rewrite <- app_assoc; reflexivity).
        destruct (IH post (seen ++ [(f, w)]) (fsd ++ [(f, x)]) fs (dn ++ [(f, Reading.absorb Y ov x w)]) os os2 (adv b (List.length (Wire.ser Y x w))) rest) as [IH1 IH2]; auto.
        * rewrite <- app_assoc. exact Ea.
        * rewrite <- app_assoc. exact El.
        * rewrite !map_app, N1. reflexivity.
        * rewrite !map_app, N2. reflexivity.
        * apply (tags_read_snoc C Y); auto.
        * lia.
        * rewrite IH1. cbn [absorb_fields]. unfold ser_fs. rewrite adv_adv, app_length, <- !app_assoc.
          split; [reflexivity|]. rewrite <- !app_assoc in IH2. exact IH2.
      + rewrite (existsb_names f dn seen N1). exact Hf.
      + lia.
      + destruct w; auto. destruct x as [| | | | |c' fs']; auto.
        specialize (T key). destruct (find key seen) as [wk|] eqn:Ek; [|contradiction].
        pose proof (find_in _ _ _ Ek) as He.
        rewrite get_app by (rewrite (existsb_names key dn seen N1); exact He).
        rewrite Ea, El, (tag_app key fsd seen) in Hpk by auto.
        assert (T' : key_of (get key dn) = tag key fsd seen) by (destruct wk; auto; contradiction).
        rewrite T'. destruct (tag key fsd seen) as [t|]; [|discriminate].
        destruct (factory E c t) as [c''|]; [|discriminate]. apply String.eqb_eq in Hpk. subst. reflexivity.
  Qed.

  Lemma exec_dec_cons dc create s r st : exec_dec dc (new_obj E) create (s :: r) st =
    match exec_dstmt dc (new_obj E) create s st with (None, st') => exec_dec dc (new_obj E) create r st' | x => x end.
  Proof. reflexivity. Qed.
  Lemma decode_obj d c L os b : find c Y = Some L ->
    decode E (S d) (VObj c os) b = let '(e, (fs', b')) := exec_dec (decode E d) (new_obj E) (factory E c) (compile_dec L) (os, b) in (e, VObj c fs', b').
  Proof.
    intros HL. pose proof (conforms_find C Y c HC) as F. rewrite HL in F. destruct F as (cd & E1 & _ & _ & _ & E2).
    cbn [decode]. unfold find_class. rewrite HE, E1, E2. reflexivity.
  Qed.

  (* a body whose tag is not registered *)
  Lemma unknown_body d c k f post dn ov os2 b : existsb (fun fw : string * val => String.eqb k (fst fw)) dn = true ->
    (forall t, key_of (get k dn) = Some t -> factory E c t = None) ->
    exec_dec (decode E d) (new_obj E) (factory E c) (compile_dec ((f, WBody k) :: post)) (dn ++ (f, ov) :: os2, b)
    = (Some IAE, (dn ++ (f, ov) :: os2, b)).
  Proof.
    intros Hk Ht. rewrite compile_dec_cons. cbn [dec_stmts app]. rewrite exec_dec_cons. cbn [exec_dstmt]. rewrite get_app by exact Hk.
    destruct (key_of (get k dn)) as [t|]; [|reflexivity]. rewrite (Ht t eq_refl). reflexivity.
  Qed.
  Lemma parse_names L bs : map fst (parse L bs) = map fst L.
  Proof. revert bs; induction L as [|[f w] L IH]; intros bs; auto. cbn. f_equal. auto. Qed.
  Lemma split_names {A B} (os : list (string * A)) (L : list (string * B)) pre post : map fst os = map fst L -> L = pre ++ post ->
    exists o1 o2, os = o1 ++ o2 /\ map fst o1 = map fst pre /\ map fst o2 = map fst post /\ o2 = skipn (List.length pre) os.
  Proof.
    intros H ->. exists (firstn (List.length pre) os), (skipn (List.length pre) os). rewrite firstn_skipn. split; auto.
    assert (Hl : List.length os = (List.length pre + List.length post)%nat) by (apply (f_equal (@List.length _)) in H; rewrite !map_length, app_length in H; exact H).
    rewrite <- firstn_map, <- skipn_map, H, map_app. split; [|split; [|reflexivity]].
    - rewrite <- (map_length fst pre) at 1. rewrite firstn_app, Nat.sub_diag, firstn_all, app_nil_r. reflexivity.
    - rewrite <- (map_length fst pre) at 1. rewrite skipn_app, Nat.sub_diag, skipn_all. reflexivity.
  Qed.
End Prefix.
