(* decode against the specification of reading. *)
From Coq Require Import ZArith List Bool String Lia.
From Verif.Model Require Import JavaPrim ByteBuf Utf8 Codec Ast Interp.
From Verif.Spec Require Import Bytes Buffers Wire Reading.
From Verif.Proofs Require Import BytesFacts BufFacts Utf8Facts Utf8More CodecFacts Conform TableFacts EncodeFacts.
Import ListNotations.
Open Scope Z_scope.

(* loops *)
Fixpoint iter {S} (n : nat) (body : S -> option exn * S) (s : S) : option exn * S :=
  match n with
  | O => (None, s)
  | Datatypes.S n' => match body s with (None, s') => iter n' body s' | x => x end
  end.
Lemma iter_add {S} n m (body : S -> option exn * S) s :
  iter (n + m) body s = match iter n body s with (None, s') => iter m body s' | x => x end.
Proof.
  revert s; induction n; intros s; simpl; auto. destruct (body s) as [[e|] s']; auto.
Qed.
Lemma repeat_pos_iter {S} p (body : S -> option exn * S) s : repeat_pos p body s = iter (Pos.to_nat p) body s.
Proof.
  revert s; induction p; intros s; cbn [repeat_pos].
  - rewrite Pos2Nat.inj_xI. cbn [iter]. destruct (body s) as [[e|] s']; auto.
    replace (2 * Pos.to_nat p)%nat with (Pos.to_nat p + Pos.to_nat p)%nat by lia. rewrite iter_add, IHp.
    destruct (iter (Pos.to_nat p) body s') as [[e|] s'']; auto.
  - rewrite Pos2Nat.inj_xO. replace (2 * Pos.to_nat p)%nat with (Pos.to_nat p + Pos.to_nat p)%nat by lia. rewrite iter_add, IHp.
    destruct (iter (Pos.to_nat p) body s) as [[e|] s'']; auto.
  - rewrite Pos2Nat.inj_1. cbn [iter]. destruct (body s) as [[e|] s'']; auto.
Qed.
Lemma repeat_z_iter {S} z (body : S -> option exn * S) s : repeat_z z body s = iter (Z.to_nat z) body s.
Proof. destruct z; simpl; auto. apply repeat_pos_iter. Qed.

(* the buffer with the reader index moved on *)
Definition adv (b : bytebuf) (n : nat) : bytebuf := set_ridx b (ridx b + n).
Lemma adv_adv b n m : adv (adv b n) m = adv b (n + m).
Proof. unfold adv, set_ridx; simpl. f_equal. lia. Qed.
Lemma adv_0 b : adv b 0 = b.
Proof. unfold adv, set_ridx; destruct b; simpl. f_equal. lia. Qed.
Lemma adv_ok b bs rest : wf b -> readable b = bs ++ rest -> wf (adv b (List.length bs)) /\ readable (adv b (List.length bs)) = rest.
Proof.
  intros H Hr. split.
  - apply wf_advance; auto. rewrite Hr, app_length. lia.
  - unfold adv. rewrite readable_advance, Hr, skipn_app, skipn_all, Nat.sub_diag. reflexivity.
Qed.

Lemma read_number o n z b rest : (0 < n)%nat -> wf b -> readable b = number o n z ++ rest ->
  read_bytes n b = (inr (number o n z), adv b n) /\ wf (adv b n) /\ readable (adv b n) = rest.
Proof.
  intros Hn H Hr. pose proof (read_bytes_ok b _ _ H Hr) as R. pose proof (adv_ok b _ _ H Hr) as A.
  rewrite number_length in *. split; auto.
Qed.
Lemma ok_width_pos n : ok_width n = true -> (0 < n)%nat.
Proof. destruct n; [discriminate|lia]. Qed.
Lemma ok_count_pos n : ok_count n = true -> (0 < n)%nat.
Proof. destruct n; [discriminate|lia]. Qed.
Lemma ok_flt_pos n : ok_flt n = true -> (0 < n)%nat.
Proof. destruct n; [discriminate|lia]. Qed.
Lemma get_prefix o n k : (0 < n)%nat -> 0 <= k <= max_prefix n -> get_int o (number o n k) = k.
Proof.
  intros Hn Hk. rewrite get_int_number by exact Hn. apply wrap_id; [lia|]. apply in_signed_spec. unfold max_prefix in Hk.
  pose proof (pow2_pos (8 * Z.of_nat n - 1) ltac:(lia)). lia.
Qed.
Lemma short_spec n {A} (l : list A) : short_enough n l = true -> 0 <= Z.of_nat (List.length l) <= max_prefix n.
Proof. unfold short_enough. intros H. apply Z.leb_le in H. lia. Qed.

Section Decode.
  Variable C : list (string * class_def).
  Variable Y : layouts.
  Hypothesis HC : conforms C Y.
  Variable E : env.
  Hypothesis HE : classes E = C.
  Notation ser := (ser Y).
  Notation absorb := (absorb Y).
  Notation par := (parsable Y (factory E)).

  Fixpoint absorb_fields (fs : list (string * val)) (L : layout) (os : list (string * val)) : list (string * val) :=
    match fs, L, os with
    | (f, x) :: fs', (_, wx) :: L', (_, o) :: os' => (f, absorb o x wx) :: absorb_fields fs' L' os'
    | _, _, _ => []
    end.
  Definition olds (old : val) (L : layout) : list (string * val) := match old with VObj _ os => os | _ => blank L end.
  Lemma absorb_obj_eq old c fs c' L : find c Y = Some L ->
    absorb old (VObj c fs) (WObj c') = VObj c (absorb_fields fs L (olds old L)).
  Proof. intros H. cbn [Reading.absorb]. rewrite H. destruct old; reflexivity. Qed.
  Lemma absorb_body_eq old c fs k L : find c Y = Some L ->
    absorb old (VObj c fs) (WBody k) = VObj c (absorb_fields fs L (blank L)).
  Proof. intros H. cbn [Reading.absorb]. rewrite H. reflexivity. Qed.

  Lemma new_blank c : new_obj E c = blank_obj Y c.
  Proof.
    unfold new_obj, find_class, blank_obj. rewrite HE. pose proof (conforms_find C Y c HC) as F. destruct (find c Y) as [L|].
    - destruct F as (cd & -> & _ & -> & _). unfold types_of, blank. rewrite map_map. f_equal. apply map_ext. intros [f w].
      cbn [fst snd]. f_equal. destruct w; cbn; auto;
        repeat (match goal with |- context[match ?n with _ => _ end] => destruct n end; try reflexivity).
    - rewrite F. reflexivity.
  Qed.

  Definition dec_ok (d : nat) : Prop := forall c fs old b rest,
    typed C (VObj c fs) (TObj c) = true -> typed C old (TObj c) = true -> old <> VNull ->
    par (VObj c fs) (WObj c) = true -> (nesting (VObj c fs) <= d)%nat ->
    wf b -> readable b = ser (VObj c fs) (WObj c) ++ rest ->
    decode E d old b = (None, absorb old (VObj c fs) (WObj c), adv b (List.length (ser (VObj c fs) (WObj c)))).

  Lemma fields_ok_blank L : fields_ok C (blank L) L = true.
  Proof.
    induction L as [|[f w] L IH]; auto. unfold fields_ok, blank in *. cbn [map forall2b fst snd]. rewrite IH, String.eqb_refl, andb_true_r.
    destruct w; try reflexivity; cbn;
      repeat (match goal with |- context[match ?n with _ => _ end] => is_var n; destruct n end; try reflexivity).
  Qed.
  Lemma typed_blank c L : find c Y = Some L -> typed C (VObj c (blank L)) (TObj c) = true.
  Proof.
    intros H. cbn [typed]. rewrite String.eqb_refl. pose proof (conforms_find C Y c HC) as F. rewrite H in F.
    destruct F as (cd & -> & _ & -> & _). cbn [andb]. unfold types_of. rewrite forall2b_map_r.
    apply fields_ok_blank.
  Qed.

  Lemma par_dyn x n o : par x (WDyn n o) = short_enough n (utf8 (text x)).
  Proof. destruct x; reflexivity. Qed.
  Lemma par_fix x len pad lft : par x (WFix len pad lft) = negb lft || negb (match text x with [] => true | _ => false end).
  Proof. destruct x; reflexivity. Qed.

  Definition kept (w : wire) (x : val) : list val :=
    match w, text x with WDyn _ _, [] => [] | _, _ => [absorb VNull x w] end.

  Lemma text_typed x : x = VNull \/ typed C x TStr = true -> typed C x TStr = true.
  Proof. intros [->|H]; auto. Qed.
  Lemma text_units x : typed C x TStr = true -> forallb is_unit (text x) = true.
  Proof. intros H. destruct (typed_str C x H) as [->|(s & -> & Hs)]; auto. Qed.
  Lemma ser_fix' v len pad lft : typed C v TStr = true -> ser v (WFix len pad lft) = fixed (Z.to_nat len) pad lft (text v).
  Proof. intros H. destruct (typed_str C v H) as [->|(s & -> & Hs)]; reflexivity. Qed.
  Lemma ser_dyn' v n o : typed C v TStr = true ->
    ser v (WDyn n o) = number o n (Z.of_nat (List.length (utf8 (text v)))) ++ utf8 (text v).
  Proof. intros H. destruct (typed_str C v H) as [->|(s & -> & Hs)]; cbn [Wire.ser text]; auto. rewrite app_nil_r. reflexivity. Qed.

  Lemma read_fixed_ser x len pad lft b rest : typed C x TStr = true -> (0 <? len) && ok_pad pad = true -> par x (WFix len pad lft) = true ->
    wf b -> readable b = ser x (WFix len pad lft) ++ rest ->
    read_fixed len pad lft b = (inr (reread len pad lft (text x)), adv b (List.length (ser x (WFix len pad lft)))).
  Proof.
    intros Hx Hok Hp H Hr. rewrite ser_fix' in * by exact Hx. apply andb_true_iff in Hok as [Hl _]. apply Z.ltb_lt in Hl.
    apply read_fixed_ok with (rest := rest); auto. rewrite fixed_length; [lia|].
    rewrite par_fix in Hp. destruct lft; auto. right. cbn [negb orb] in Hp. destruct (text x); [discriminate Hp|discriminate].
  Qed.

  Lemma utf8_nil s : forallb is_unit s = true -> utf8 s = [] -> s = [].
  Proof.
    intros Hu. destruct s as [|c s]; auto. intros H. exfalso.
    assert (exists a r, scalars (c :: s) = a :: r) as (a & r & Hs).
    { cbn [scalars]. destruct (hi_sur c); [destruct s as [|l s']; [eauto|destruct (lo_sur l); eauto]|destruct (lo_sur c); eauto]. }
    unfold utf8 in H. rewrite Hs in H. cbn [flat_map] in H. apply app_eq_nil in H as [H _]. unfold utf8_scalar in H.
    destruct (a <? 128); [discriminate|]. destruct (a <? 2048); [discriminate|]. destruct (a <? 65536); discriminate.
  Qed.

  (* the bytes of a dynamic string behind its prefix *)
  Lemma read_dyn_ser x n o b rest : typed C x TStr = true -> ok_count n = true -> par x (WDyn n o) = true ->
    wf b -> readable b = ser x (WDyn n o) ++ rest ->
    let u := utf8 (text x) in
    read_bytes n b = (inr (number o n (Z.of_nat (List.length u))), adv b n)
    /\ get_int o (number o n (Z.of_nat (List.length u))) = Z.of_nat (List.length u)
    /\ read_chars (Z.of_nat (List.length u)) (adv b n) = (inr u, adv b (List.length (ser x (WDyn n o))))
    /\ (text x = [] -> List.length u = O /\ adv b (List.length (ser x (WDyn n o))) = adv b n)
    /\ (text x <> [] -> (0 < List.length u)%nat).
  Proof.
    intros Hx Hok Hp H Hr u. rewrite ser_dyn' in * by exact Hx. fold u in Hr |- *. rewrite <- app_assoc in Hr.
    destruct (read_number o n _ b _ (ok_count_pos n Hok) H Hr) as (R1 & W1 & Rd1).
    split; [exact R1|]. split; [apply get_prefix; [apply ok_count_pos; auto|]; apply short_spec; rewrite par_dyn in Hp; exact Hp|].
    split; [|split].
    - rewrite (read_chars_ok _ u rest W1 Rd1). rewrite app_length, number_length, <- adv_adv. reflexivity.
    - intros E0. unfold u. rewrite E0. split; auto. rewrite app_nil_r, number_length. reflexivity.
    - intros E0. destruct u eqn:Eu; [|simpl; lia]. exfalso. apply E0. apply utf8_nil; auto. apply text_units; auto.
  Qed.

  Lemma dec_elem_ok d w x l b rest cr : dec_ok d -> ok_elem Y w = true -> x = VNull \/ typed C x (wire_type w) = true ->
    par x w = true -> (nesting x <= d)%nat -> wf b -> readable b = ser x w ++ rest ->
    dec_elem (decode E d) (new_obj E) (compile_delem w) (l, b) = (None, (l ++ kept w x, adv b (List.length (ser x w)))) /\ cr = cr :> nat.
  Proof.
    intros IH Hok Hx Hp Hn H Hr. split; auto.
    destruct w; try discriminate Hok; cbn [compile_delem dec_elem].
    - (* int *) cbn [ok_elem] in Hok. destruct Hx as [->|Hx]; [discriminate|]. destruct (typed_int C x n o Hok Hx) as (z & -> & Hz).
      cbn [Wire.ser] in *. destruct (read_number o n z b rest (ok_width_pos _ Hok) H Hr) as (-> & _ & _).
      rewrite get_int_number by (apply ok_width_pos; auto). rewrite wrap_id by (auto; pose proof (ok_width_pos _ Hok); lia). rewrite number_length. reflexivity.
    - cbn [ok_elem] in Hok. destruct Hx as [->|Hx]; [discriminate|]. destruct (typed_flt C x n o Hok Hx) as (z & -> & Hz).
      cbn [Wire.ser] in *. destruct (read_number o n z b rest (ok_flt_pos _ Hok) H Hr) as (-> & _ & _).
      rewrite get_bits_number by exact Hz. rewrite number_length. reflexivity.
    - (* fixed *) assert (Ht : typed C x TStr = true) by (destruct Hx as [->|Hx]; auto).
      rewrite (read_fixed_ser x len pad lft b rest Ht Hok Hp H Hr). unfold kept.
      destruct (text x) eqn:Et; destruct x; cbn [Reading.absorb]; rewrite Et; reflexivity.
    - (* dyn *) assert (Ht : typed C x TStr = true) by (destruct Hx as [->|Hx]; auto).
      destruct (read_dyn_ser x n o b rest Ht Hok Hp H Hr) as (R1 & R2 & R3 & R4 & R5). rewrite R1, R2. unfold kept.
      destruct (text x) as [|c s] eqn:Et.
      + destruct (R4 eq_refl) as [-> ->]. cbn. rewrite app_nil_r. reflexivity.
      + specialize (R5 ltac:(discriminate)). rewrite (proj2 (Z.gtb_lt _ _)) by lia. rewrite R3.
        destruct x; cbn [Reading.absorb]; rewrite Et; reflexivity.
    - (* obj *) destruct x as [| | | | |c' fs]; try discriminate Hp; try (destruct Hx as [Hx|Hx]; discriminate Hx).
      destruct Hx as [Hx|Hx]; [discriminate|]. destruct (typed_tobj C _ c Hx) as [Hx'|(fs' & Hx')]; [discriminate|]. injection Hx' as -> ->.
      destruct (typed_obj_known C Y c fs' _ HC Hx) as [L HL].
      rewrite new_blank. unfold blank_obj. rewrite HL.
      rewrite (IH c fs' (VObj c (blank L)) b rest); auto; [|apply typed_blank; auto|discriminate].
      unfold kept. cbn [text]. rewrite !(absorb_obj_eq _ _ _ _ L HL). reflexivity.
  Qed.

  Lemma dec_elems_ok d w : dec_ok d -> ok_elem Y w = true -> forall l acc b rest,
    forallb (fun x => is_null x || typed C x (wire_type w)) l = true ->
    forallb (fun x => par x w) l = true -> (max_of nesting l <= d)%nat ->
    wf b -> readable b = flat_map (fun x => ser x w) l ++ rest ->
    iter (List.length l) (dec_elem (decode E d) (new_obj E) (compile_delem w)) (acc, b)
    = (None, (acc ++ flat_map (kept w) l, adv b (List.length (flat_map (fun x => ser x w) l)))).
  Proof.
    intros IH Hok. induction l as [|x l IHl]; intros acc b rest Ht Hp Hn H Hr.
    - cbn. rewrite app_nil_r, adv_0. reflexivity.
    - cbn [forallb] in Ht, Hp. apply andb_true_iff in Ht as [Hx Ht]. apply andb_true_iff in Hp as [Hpx Hp].
      cbn [max_of] in Hn. cbn [flat_map] in Hr |- *. rewrite <- app_assoc in Hr. cbn [List.length iter].
      assert (Hx' : x = VNull \/ typed C x (wire_type w) = true).
      { apply orb_true_iff in Hx as [Hx|Hx]; [left|right; auto]. destruct x; try discriminate; auto. }
      destruct (dec_elem_ok d w x acc b _ 0 IH Hok Hx' Hpx ltac:(lia) H Hr) as [-> _].
      destruct (adv_ok b _ _ H Hr) as [W1 R1].
      rewrite (IHl _ _ rest Ht Hp ltac:(lia) W1 R1). rewrite app_length, adv_adv, <- app_assoc. reflexivity.
  Qed.

  Lemma absorb_list old l n o w : absorb old (VList l) (WList n o w) = match l with [] => old | _ => VList (flat_map (kept w) l) end.
  Proof. destruct l; reflexivity. Qed.

  (* fields *)
  Definition ser_fs (fs : list (string * val)) (L : layout) : list Z := concat2 (fun fv fw => ser (snd fv) (snd fw)) fs L.
  Definition par_fs (c : string) (all : list (string * val)) (Lall : layout) (fs : list (string * val)) (L : layout) : bool :=
    all2 (fun fv fw =>
            par (snd fv) (snd fw)
            && match snd fw, snd fv with
               | WBody k, VObj c' _ =>
                   match tag k all Lall with
                   | Some t => match factory E c t with Some c'' => String.eqb c' c'' | None => false end
                   | None => false
                   end
               | _, _ => true
               end) fs L.
  Lemma par_obj_eq c fs L c' : find c Y = Some L -> par (VObj c fs) (WObj c') = par_fs c fs L fs L.
  Proof. intros H. cbn [parsable]. rewrite H. reflexivity. Qed.

  (* the tag, once read, is what the reader finds *)
  Definition tags_read (fsd : list (string * val)) (seen : layout) (dn : list (string * val)) : Prop :=
    forall k, match find k seen with
              | Some (WInt _ _) | Some (WFix _ _ _) => key_of (get k dn) = tag k fsd seen
              | _ => True
              end.

  Lemma exec_dec_app dc create ss1 ss2 st : exec_dec dc (new_obj E) create (ss1 ++ ss2) st =
    match exec_dec dc (new_obj E) create ss1 st with (None, st') => exec_dec dc (new_obj E) create ss2 st' | x => x end.
  Proof. revert st; induction ss1; intros st; simpl; auto. destruct (exec_dstmt _ _ _ a st) as [[e|] st']; auto. Qed.

  Definition dec_stmts (f : string) (w : wire) : list dstmt :=
    match w with
    | WInt n o | WLen n o | WSum n o _ => [DRead n o f]
    | WFlt n o => [DReadF n o f]
    | WFix len pad l => [DFix f len pad l]
    | WDyn n o => [DDyn f n o]
    | WObj c => [DNewIfNull f c; DObj f]
    | WBody k => [DCreate f k; DObj f]
    | WList n o w' => [DList f n o (compile_delem w')]
    end.
  Lemma compile_dec_cons f w L : compile_dec ((f, w) :: L) = dec_stmts f w ++ compile_dec L.
  Proof. destruct w; reflexivity. Qed.

  (* conditions on the format of one field, with the body's key *)
  Definition ok_field (w : wire) : bool :=
    match w with
    | WList n _ w' => ok_count n && ok_elem Y w'
    | WBody _ => true
    | WLen n _ | WSum n _ _ => Nat.eqb n 4
    | _ => ok_elem Y w
    end.
  Lemma ok_field_of seen f w L : ok_fields Y seen ((f, w) :: L) = true ->
    existsb (fun fw => String.eqb f (fst fw)) seen = false /\ ok_field w = true /\ ok_fields Y (seen ++ [(f, w)]) L = true
    /\ match w with WBody k => match find k seen with Some (WInt _ _) | Some (WFix _ _ _) => True | _ => False end | _ => True end.
  Proof.
    intros H. cbn [ok_fields] in H. apply andb_true_iff in H as [H H3]. apply andb_true_iff in H as [H1 H2].
    apply negb_true_iff in H1. split; auto. split; [|split; auto].
    - destruct w; auto. apply andb_true_iff in H2 as [H2 _]. exact H2.
    - destruct w; auto. destruct (find key seen) as [[]|]; auto; discriminate.
  Qed.

  Lemma exec_field d create f w x ov dn os b rest : dec_ok d -> ok_field w = true ->
    existsb (fun fw : string * val => String.eqb f (fst fw)) dn = false ->
    typed C x (wire_type w) = true -> typed C ov (wire_type w) = true ->
    par x w = true -> (nesting x <= d)%nat -> wf b -> readable b = ser x w ++ rest ->
    match w with
    | WBody k => match x with VObj c' _ => match key_of (get k (dn ++ (f, ov) :: os)) with Some t => create t = Some c' | None => False end | _ => True end
    | _ => True
    end ->
    exec_dec (decode E d) (new_obj E) create (dec_stmts f w) (dn ++ (f, ov) :: os, b)
    = (None, (dn ++ (f, absorb ov x w) :: os, adv b (List.length (ser x w)))).
  Proof.
    intros IH Hok Hf Hx Ho Hp Hn H Hr Hk.
    assert (G : forall y, get f (dn ++ (f, y) :: os) = y) by (intros; apply get_mid; auto).
    assert (S : forall y y', set f y' (dn ++ (f, y) :: os) = dn ++ (f, y') :: os) by (intros; apply set_mid; auto).
    assert (Hint : forall n o z, (n = 1 \/ n = 2 \/ n = 4 \/ n = 8)%nat -> in_signed (8 * Z.of_nat n) z = true -> readable b = number o n z ++ rest ->
       exec_dec (decode E d) (new_obj E) create [DRead n o f] (dn ++ (f, ov) :: os, b) = (None, (dn ++ (f, VInt z) :: os, adv b (List.length (number o n z))))).
    { intros n o z Hn' Hz Hr'. assert (Hn0 : (0 < n)%nat) by lia. cbn [exec_dec exec_dstmt].
      destruct (read_number o n z b rest Hn0 H Hr') as (-> & _ & _).
      rewrite get_int_number by exact Hn0. rewrite wrap_id by (auto; lia). rewrite number_length, S. reflexivity. }
    destruct w; cbn [dec_stmts].
    - (* int *) destruct (typed_int C x n o Hok Hx) as (z & -> & Hz). apply Hint; auto.
      cbn in Hok. destruct n as [|[|[|[|[|[|[|[|[|n]]]]]]]]]; try discriminate Hok; auto.
    - (* float *) destruct (typed_flt C x n o Hok Hx) as (z & -> & Hz). cbn [Wire.ser] in *.
      destruct (read_number o n z b rest (ok_flt_pos _ Hok) H Hr) as (R & _ & _).
      cbn [exec_dec exec_dstmt]. rewrite R, get_bits_number by exact Hz. rewrite number_length, S. reflexivity.
    - (* fixed *) cbn [exec_dec exec_dstmt]. rewrite (read_fixed_ser x len pad lft b rest Hx Hok Hp H Hr), S.
      destruct x; reflexivity.
    - (* dyn *) destruct (read_dyn_ser x n o b rest Hx Hok Hp H Hr) as (R1 & R2 & R3 & R4 & R5).
      cbn [exec_dec exec_dstmt]. rewrite R1, R2.
      destruct (text x) as [|c s] eqn:Et.
      + destruct (R4 eq_refl) as [-> ->]. cbn. destruct x; cbn [Reading.absorb]; cbn [text] in Et |- *; rewrite ?Et; reflexivity.
      + specialize (R5 ltac:(discriminate)). rewrite (proj2 (Z.gtb_lt _ _)) by lia. rewrite R3, S.
        destruct x; cbn [Reading.absorb]; cbn [text] in Et |- *; rewrite ?Et; try discriminate Et; reflexivity.
    - (* obj *) destruct x as [| | | | |c' fs]; try discriminate Hp.
      destruct (typed_tobj C _ c Hx) as [Hx'|(fs' & Hx')]; [discriminate|]. injection Hx' as -> ->.
      destruct (typed_obj_known C Y c fs' _ HC Hx) as [L HL].
      cbn [exec_dec exec_dstmt]. rewrite G.
      destruct (typed_tobj C ov c Ho) as [->|(os' & ->)].
      + rewrite S. cbn [exec_dstmt]. rewrite G, new_blank. unfold blank_obj. rewrite HL.
        rewrite (IH c fs' (VObj c (blank L)) b rest); auto; [|apply typed_blank; auto|discriminate].
        rewrite S. rewrite !(absorb_obj_eq _ _ _ _ L HL). reflexivity.
      + cbn [exec_dstmt]. rewrite G. rewrite (IH c fs' (VObj c os') b rest); auto; [|discriminate].
        rewrite S. reflexivity.
    - (* body *) destruct x as [| | | | |c' fs]; try discriminate Hp.
      cbn [exec_dec exec_dstmt]. destruct (key_of (get key (dn ++ (f, ov) :: os))) as [t|]; [|contradiction]. rewrite Hk.
      assert (Hx' : typed C (VObj c' fs) (TObj c') = true).
      { cbn [wire_type] in Hx. cbn [typed] in Hx |- *. rewrite String.eqb_refl. exact Hx. }
      destruct (typed_obj_known C Y c' fs _ HC Hx) as [L HL].
      rewrite S. cbn [exec_dstmt]. rewrite G, new_blank. unfold blank_obj. rewrite HL.
      change (ser (VObj c' fs) (WBody key)) with (ser (VObj c' fs) (WObj c')) in Hr |- *.
      rewrite (IH c' fs (VObj c' (blank L)) b rest); auto; [|apply typed_blank; auto|discriminate].
      rewrite S. rewrite (absorb_obj_eq _ _ _ _ L HL), (absorb_body_eq _ _ _ _ L HL). reflexivity.
    - (* list *) cbn [ok_field] in Hok. apply andb_true_iff in Hok as [Hc Hok].
      change (wire_type (WList n o w)) with (TList (wire_type w)) in Hx.
      assert (Hz : readable b = number o n 0 ++ rest ->
        exec_dec (decode E d) (new_obj E) create [DList f n o (compile_delem w)] (dn ++ (f, ov) :: os, b) = (None, (dn ++ (f, ov) :: os, adv b n))).
      { intros Hr0. cbn [exec_dec exec_dstmt]. destruct (read_number o n 0 b rest (ok_count_pos _ Hc) H Hr0) as (-> & _ & _).
        rewrite get_int_number by (apply ok_count_pos; auto). rewrite wrap_id; [reflexivity|pose proof (ok_count_pos _ Hc); lia|].
        apply in_signed_spec. pose proof (ok_count_pos _ Hc). pose proof (pow2_pos (8 * Z.of_nat n - 1) ltac:(lia)). lia. }
      destruct (typed_list C x _ Hx) as [->|(l & -> & Hl)].
      + cbn [Wire.ser] in *. rewrite Hz by exact Hr. rewrite number_length. reflexivity.
      + destruct l as [|x0 l0].
        * cbn [Wire.ser flat_map] in *. rewrite app_nil_r in *. rewrite Hz by exact Hr. rewrite number_length. reflexivity.
        * set (l := x0 :: l0) in *. clear Hz. cbn [Wire.ser exec_dec exec_dstmt] in *.
          cbn [parsable] in Hp. apply andb_true_iff in Hp as [Hs Hp]. rewrite <- app_assoc in Hr.
          destruct (read_number o n _ b _ (ok_count_pos _ Hc) H Hr) as (-> & W1 & R1).
          rewrite get_prefix by (try (apply ok_count_pos; assumption); apply short_spec; exact Hs).
          rewrite (proj2 (Z.gtb_lt _ _)) by (unfold l; simpl List.length; lia).
          rewrite repeat_z_iter, Nat2Z.id.
          rewrite (dec_elems_ok d w IH Hok l [] (adv b n) rest Hl Hp Hn W1 R1). cbn [app].
          rewrite S, absorb_list, adv_adv, app_length, number_length. unfold l. reflexivity.
    - (* len *) apply Nat.eqb_eq in Hok. subst n. destruct (typed_int C x 4 o eq_refl Hx) as (z & -> & Hz). apply Hint; auto.
    - (* sum *) apply Nat.eqb_eq in Hok. subst n. destruct (typed_int C x 4 o eq_refl Hx) as (z & -> & Hz). apply Hint; auto.
  Qed.

  Lemma get_app k (dn td : list (string * val)) : existsb (fun fw => String.eqb k (fst fw)) dn = true -> get k (dn ++ td) = get k dn.
  Proof.
    induction dn as [|[g y] dn IH]; [discriminate|]. cbn [existsb fst app get]. destruct (String.eqb k g); auto.
  Qed.
  Lemma find_in {A} k (l : list (string * A)) a : find k l = Some a -> existsb (fun fw => String.eqb k (fst fw)) l = true.
  Proof. induction l as [|[g y] l IH]; [discriminate|]. cbn [find existsb fst]. destruct (String.eqb k g); auto. Qed.
  Lemma find_app {A} k (l m : list (string * A)) : find k (l ++ m) = match find k l with Some a => Some a | None => find k m end.
  Proof. induction l as [|[g y] l IH]; auto. cbn [app find]. destruct (String.eqb k g); auto. Qed.
  Lemma tag_app k fsd seen fs L : map fst fsd = map fst seen -> existsb (fun fw => String.eqb k (fst fw)) seen = true ->
    tag k (fsd ++ fs) (seen ++ L) = tag k fsd seen.
  Proof.
    revert seen; induction fsd as [|[g y] fsd IH]; intros [|[h w] seen] H He; try discriminate. cbn [map fst] in H. injection H as -> H.
    cbn [app tag existsb fst] in *. destruct (String.eqb k h); auto.
  Qed.
  Lemma tag_snoc k f x w fsd seen : map fst fsd = map fst seen -> existsb (fun fw => String.eqb k (fst fw)) seen = false ->
    tag k (fsd ++ [(f, x)]) (seen ++ [(f, w)]) = if String.eqb k f then tag_of x w else None.
  Proof.
    revert seen; induction fsd as [|[g y] fsd IH]; intros [|[h u] seen] H He; try discriminate.
    - reflexivity.
    - cbn [map fst] in H. injection H as -> H. cbn [app tag existsb fst] in *. apply orb_false_iff in He as [He1 He2]. rewrite He1. auto.
  Qed.
  Lemma get_snoc k f (x : val) dn : existsb (fun fw : string * val => String.eqb k (fst fw)) dn = false ->
    get k (dn ++ [(f, x)]) = if String.eqb k f then x else VNull.
  Proof. induction dn as [|[g y] dn IH]; intros He; auto. cbn [app get existsb fst] in *. apply orb_false_iff in He as [-> He2]. auto. Qed.
  Lemma find_none_seen {A} k (l : list (string * A)) : find k l = None -> existsb (fun fw => String.eqb k (fst fw)) l = false.
  Proof. induction l as [|[g y] l IH]; auto. cbn [find existsb fst]. destruct (String.eqb k g); [discriminate|auto]. Qed.

  Lemma tags_read_snoc fsd seen dn f x w ov : map fst dn = map fst seen -> map fst fsd = map fst seen ->
    tags_read fsd seen dn -> ok_field w = true -> typed C x (wire_type w) = true ->
    tags_read (fsd ++ [(f, x)]) (seen ++ [(f, w)]) (dn ++ [(f, absorb ov x w)]).
  Proof.
    intros N1 N2 T Hok Hx k. rewrite find_app. specialize (T k).
    destruct (find k seen) as [w'|] eqn:Ef.
    - pose proof (find_in _ _ _ Ef) as He. rewrite get_app by (rewrite (existsb_names k dn seen N1); exact He).
      rewrite tag_app by auto. exact T.
    - apply find_none_seen in Ef. cbn [find]. destruct (String.eqb k f) eqn:Ek; [|exact I].
      rewrite get_snoc by (rewrite (existsb_names k dn seen N1); exact Ef). rewrite tag_snoc by auto. rewrite Ek.
      destruct w; auto.
      + destruct (typed_int C x n o Hok Hx) as (z & -> & _). reflexivity.
      + destruct x; reflexivity.
  Qed.

  Lemma dec_fields_ok d c fsall Lall : dec_ok d -> forall L seen fsd fs dn os b rest,
    fsall = fsd ++ fs -> Lall = seen ++ L -> ok_fields Y seen L = true ->
    map fst dn = map fst seen -> map fst fsd = map fst seen -> tags_read fsd seen dn ->
    fields_ok C fs L = true -> fields_ok C os L = true -> par_fs c fsall Lall fs L = true ->
    (max_of (fun fv => nesting (snd fv)) fs <= d)%nat -> wf b -> readable b = ser_fs fs L ++ rest ->
    exec_dec (decode E d) (new_obj E) (factory E c) (compile_dec L) (dn ++ os, b)
    = (None, (dn ++ absorb_fields fs L os, adv b (List.length (ser_fs fs L)))).
  Proof.
    intros IHd. induction L as [|[f w] L IH]; intros seen fsd fs dn os b rest Ea El Hok N1 N2 T Hfs Hos Hp Hn H Hr.
    - destruct fs; [|discriminate]. destruct os; [|discriminate]. cbn. rewrite adv_0. reflexivity.
    - destruct fs as [|[f1 x] fs]; [discriminate|]. destruct os as [|[f2 ov] os]; [discriminate|].
      apply fields_ok_cons in Hfs as (-> & Hx & Hfs). apply fields_ok_cons in Hos as (-> & Ho & Hos).
      apply ok_field_of in Hok as (Hf & Hw & Hok & Hkey).
      unfold par_fs in Hp. cbn [all2 snd] in Hp. apply andb_true_iff in Hp as [Hp Hps]. apply andb_true_iff in Hp as [Hpx Hpk].
      cbn [max_of snd] in Hn. unfold ser_fs in Hr |- *. cbn [concat2 snd] in Hr |- *. rewrite <- app_assoc in Hr.
      rewrite compile_dec_cons, exec_dec_app.
      rewrite (exec_field d (factory E c) f w x ov dn os b (ser_fs fs L ++ rest) IHd Hw); auto.
      + destruct (adv_ok b _ _ H Hr) as [W1 R1].
        replace (dn ++ (f, absorb ov x w) :: os) with ((dn ++ [(f, absorb ov x w)]) ++ os) by (rewrite <- app_assoc; reflexivity).
        rewrite (IH (seen ++ [(f, w)]) (fsd ++ [(f, x)]) fs (dn ++ [(f, absorb ov x w)]) os _ rest); auto.
        * cbn [absorb_fields]. unfold ser_fs. rewrite adv_adv, app_length, <- app_assoc. reflexivity.
        * rewrite <- app_assoc. exact Ea.
        * rewrite <- app_assoc. exact El.
        * rewrite !map_app, N1. reflexivity.
        * rewrite !map_app, N2. reflexivity.
        * apply tags_read_snoc; auto.
        * lia.
      + rewrite (existsb_names f dn seen N1). exact Hf.
      + lia.
      + destruct w; auto. destruct x as [| | | | |c' fs']; auto.
        specialize (T key). destruct (find key seen) as [wk|] eqn:Ek; [|contradiction].
        pose proof (find_in _ _ _ Ek) as He.
        rewrite get_app by (rewrite (existsb_names key dn seen N1); exact He).
        rewrite Ea, El, (tag_app key fsd seen) in Hpk by auto.
        assert (T' : key_of (get key dn) = tag key fsd seen) by (destruct wk; auto; contradiction).
        rewrite T'. destruct (tag key fsd seen) as [t|]; [|discriminate].
        destruct (factory E c t) as [c''|]; [|discriminate]. apply String.eqb_eq in Hpk. subst. reflexivity.
  Qed.

  Theorem dec_all d : dec_ok d.
  Proof.
    induction d as [|d IH]; intros c fs old b rest Hv Ho Hnn Hp Hn H Hr.
    - cbn [nesting] in Hn. lia.
    - destruct (typed_tobj C old c Ho) as [->|(os & ->)]; [congruence|].
      destruct (typed_obj_known C Y c fs _ HC Hv) as [L HL].
      pose proof (conforms_find C Y c HC) as F. rewrite HL in F. destruct F as (cd & E1 & _ & _ & _ & E2).
      cbn [decode]. unfold find_class. rewrite HE, E1, E2.
      assert (Es : ser (VObj c fs) (WObj c) = ser_fs fs L) by (cbn [Wire.ser]; rewrite HL; reflexivity).
      rewrite Es in *. rewrite (par_obj_eq c fs L c HL) in Hp.
      pose proof (dec_fields_ok d c fs L IH L [] [] fs [] os b rest eq_refl eq_refl (conforms_ok C Y c L HC HL) eq_refl eq_refl) as P.
      cbn [app] in P. rewrite P; auto.
      + rewrite (absorb_obj_eq _ _ _ _ L HL). reflexivity.
      + intros k. exact I.
      + eapply typed_obj; eauto.
      + eapply typed_obj; eauto.
      + cbn [nesting] in Hn. lia.
  Qed.
End Decode.
