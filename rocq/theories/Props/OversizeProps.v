(* C35 and the second half of C37: what decode can never give back. *)
From Coq Require Import ZArith List Bool String Lia.
From Verif.Model Require Import JavaPrim ByteBuf Utf8 Checksum Ast Interp Factory Library.
From Verif.Spec Require Import Bytes Buffers Wire Reading Layouts Sizes.
From Verif.Proofs Require Import BytesFacts BufFacts Conform TableFacts FillFacts EncodeFacts DecodeFacts Messages RegistryFacts FrameFacts FrameDecode DecodeRel DecodeInv PrefixDecode Oversize.
From Verif.Props Require Import Samples ArbitraryProps.
Import ListNotations.
Open Scope Z_scope.

(* ---- C35 ---- *)
(* size announced by the prefix: number of elements, number of UTF-8 bytes *)
Definition announced (v : val) : Z :=
  match v with VList l => Z.of_nat (List.length l) | VStr s => Z.of_nat (List.length (utf8 s)) | _ => 0 end.

Lemma forget_get Y fs1 fs2 L f w : map fst fs1 = map fst L -> map fst fs2 = map fst L -> forget_fields Y fs1 L = forget_fields Y fs2 L -> find f L = Some w ->
  forget_field Y (get f fs1) w = forget_field Y (get f fs2) w.
Proof.
  revert fs1 fs2; induction L as [|[g u] L IH]; intros [|[a x] fs1] [|[b y] fs2] N1 N2 Hf Hw; try discriminate.
  cbn [map fst] in N1, N2. injection N1 as -> N1. injection N2 as -> N2. cbn [forget_fields] in Hf. injection Hf as Hx Hf.
  cbn [find get] in *. destruct (String.eqb f g); [injection Hw as <-; exact Hx|]. eapply IH; eauto.
Qed.
Lemma announced_forget Y v w : (match w with WDyn _ _ | WList _ _ _ => True | _ => False end) -> announced (forget_field Y v w) = announced v.
Proof. destruct w; try contradiction; intros _; destruct v; try reflexivity; cbn [forget_field forget]; [destruct (find c Y); reflexivity|cbn [announced]; rewrite map_length; reflexivity|destruct (find c Y); reflexivity]. Qed.

Lemma fields_at Y seen pre f w post : ok_fields Y seen (pre ++ (f, w) :: post) = true ->
  ok_field Y w = true /\ existsb (fun fw => String.eqb f (fst fw)) (seen ++ pre) = false.
Proof.
  revert seen. induction pre as [|[g u] pre IH]; intros seen Hok; cbn [app] in Hok; apply ok_field_of in Hok as (H0 & H1 & H2 & _).
  - rewrite app_nil_r. auto.
  - specialize (IH _ H2). rewrite <- app_assoc in IH. exact IH.
Qed.
Lemma layout_at c pre f w post : find c Y = Some (pre ++ (f, w) :: post) ->
  ok_field Y w = true /\ existsb (fun fw => String.eqb f (fst fw)) pre = false.
Proof. intros HL. exact (fields_at Y [] pre f w post (conforms_ok lib_classes Y c _ library_conforms HL)). Qed.
Lemma find_at pre f (w : wire) post : existsb (fun fw => String.eqb f (fst fw)) pre = false -> find f (pre ++ (f, w) :: post) = Some w.
Proof.
  intros H. induction pre as [|[g u] pre IH]; cbn [app find]; [rewrite String.eqb_refl; reflexivity|].
  cbn [existsb fst] in H. apply orb_false_iff in H as [-> H]. auto.
Qed.

(* encode writes the size modulo 2^(8n), read back as a signed number, in front of all the elements (bytes) *)
Theorem C35_prefix_written : forall E d c fs b v1 b1 pre f w post n o, classes E = lib_classes ->
  object_of E c (VObj c fs) = true -> buf_wf b = true -> encode E d (VObj c fs) b = (None, v1, b1) ->
  find c Y = Some (pre ++ (f, w) :: post) -> (w = WDyn n o \/ exists x, w = WList n o x) ->
  exists hd pfx tl, appended b (hd ++ pfx ++ tl) b1 /\ List.length pfx = n
    /\ get_int o pfx = (announced (get f fs) + 2 ^ (8 * Z.of_nat n - 1)) mod 2 ^ (8 * Z.of_nat n) - 2 ^ (8 * Z.of_nat n - 1)
    /\ (w = WDyn n o -> announced (get f fs) <= Z.of_nat (List.length tl)).
Proof.
  intros E d c fs b v1 b1 pre f w post n o HE Ho Hb He HL Hw. destruct (layout_at c pre f w post HL) as [Hwo Hfn].
  destruct (encoded_facts lib_classes Y library_conforms E HE d c _ b v1 b1 Ho Hb He) as (Ho1 & Hfg & _ & _ & A & _ & _).
  destruct (object_shape lib_classes E HE c _ Ho) as (fs' & [= <-] & Hty). destruct (object_shape lib_classes E HE c _ Ho1) as (fs1 & -> & Hty1).
  pose proof (typed_obj lib_classes Y c fs _ _ library_conforms HL Hty) as Hf. pose proof (typed_obj lib_classes Y c fs1 _ _ library_conforms HL Hty1) as Hf1.
  rewrite !(forget_obj_eq Y c _ _ _ HL) in Hfg. injection Hfg as Hfg.
  pose proof (find_at pre f w post Hfn) as Ff.
  pose proof (forget_get Y fs1 fs _ f w (fields_ok_names _ _ _ Hf1) (fields_ok_names _ _ _ Hf) Hfg Ff) as Hg.
  assert (Ha : announced (get f fs) = announced (get f fs1)).
  { rewrite <- (announced_forget Y (get f fs) w), <- (announced_forget Y (get f fs1) w), Hg; [reflexivity|..]; destruct Hw as [->|[x ->]]; exact I. }
  destruct (fields_ok_split lib_classes _ _ _ Hf1) as (a & r & -> & Hf2 & Hf3).
  destruct r as [|[g x] r]; [discriminate|]. apply fields_ok_cons in Hf3 as (-> & Hx & Hf3).
  assert (Gx : get f (a ++ (f, x) :: r) = x).
  { apply get_mid. rewrite (existsb_names f a pre (fields_ok_names _ _ _ Hf2)). exact Hfn. }
  rewrite Gx in Ha. rewrite (ser_obj_eq Y c _ (WObj c) _ eq_refl HL) in A.
  assert (Sp : forall a A b B, List.length a = List.length A -> ser_fields Y (a ++ b) (A ++ B) = ser_fields Y a A ++ ser_fields Y b B).
  { clear. induction a as [|[g x] a IH]; intros [|[h u] A] b B Hl; try discriminate; auto. cbn [app ser_fields concat2]. unfold ser_fields in *. cbn [concat2]. rewrite IH by (simpl in Hl; lia). rewrite app_assoc. reflexivity. }
  rewrite Sp in A by (apply (fields_ok_length lib_classes); exact Hf2).
  assert (P : exists tl, ser Y x w = number o n (announced x) ++ tl /\ (w = WDyn n o -> announced x <= Z.of_nat (List.length tl))).
  { destruct Hw as [->|[y ->]]; cbn [wire_type] in Hx.
    - destruct (typed_str lib_classes x Hx) as [->|(s & -> & _)]; cbn [ser announced]; [exists []|exists (utf8 s)]; rewrite ?app_nil_r; split; auto; intros; simpl; lia.
    - destruct x; try discriminate Hx; cbn [ser announced]; [exists []; rewrite app_nil_r|eexists]; (split; [reflexivity|intros [=]]). }
  destruct P as (tl & P1 & P2).
  exists (ser_fields Y a pre), (number o n (announced x)), (tl ++ ser_fields Y r post). split; [|split; [|split]].
  - unfold ser_fields at 2 in A. cbn [concat2 snd] in A. rewrite P1 in A. rewrite <- app_assoc in A. exact A.
  - apply number_length.
  - rewrite Ha. apply get_int_number.
    destruct Hw as [->|[y ->]]; cbn [ok_field ok_elem] in Hwo; [|apply andb_true_iff in Hwo as [Hwo _]]; apply ok_count_pos; exact Hwo.
  - rewrite Ha, app_length. intros Ew. specialize (P2 Ew). lia.
Qed.

(* no bytes at all decode to an object with a list of more than 32767 elements, or a string of more than 32767 chars, behind a
   16-bit prefix *)
Theorem C35_never_decoded : forall E d c v b e v' b', classes E = lib_classes -> library_suppliers E -> object_of E c v = true ->
  buf_wf b = true -> countable Y v (WObj c) = false -> decode E d (new_obj E c) b = (e, v', b') -> v' <> v.
Proof.
  intros E d c v b e v' b' HE HF Hv Hb Hn D.
  destruct (object_shape lib_classes E HE c v Hv) as (vs & -> & Ht). destruct (typed_obj_known lib_classes Y c vs _ library_conforms Ht) as [L HL].
  assert (Ho : object_of E c (new_obj E c) = true).
  { destruct (new_known lib_classes Y library_conforms E HE c) as (L' & _ & -> & T); [unfold known; rewrite HL; reflexivity|]. apply (object_intro lib_classes E HE). exact T. }
  destruct (run E d c _ b HE HF Ho Hb) as (os & L' & e' & fs & n & En & HL' & _ & Bk & D' & R).
  rewrite D' in D. injection D as _ <- _. intros [= ->]. rewrite (new_blank lib_classes Y library_conforms E HE) in En. unfold blank_obj in En. rewrite HL in En. injection En as <-.
  cbn [countable] in Hn. rewrite HL in Hn.
  rewrite (proj2 (proj2 (proj2 (rel_countable lib_classes Y library_conforms (factory E)))) _ _ _ _ _ _ _ R Bk L HL (cnt_blank Y L)) in Hn. discriminate.
Qed.

(* a string of more bytes than its prefix can say (in a field, or an element of a list) is not what decode of its own encoding gives *)
Definition over_long (v : val) (w : wire) : bool :=
  match w, v with
  | WDyn n _, VStr s => max_prefix n <? Z.of_nat (List.length (utf8 s))
  | WList m _ (WDyn n _), VList l => short_enough m l && existsb (fun x => max_prefix n <? Z.of_nat (List.length (utf8 (text x)))) l
  | _, _ => false
  end.
Theorem C35_strings_not_read_back : forall E d c pre f w post vs fs b rest e v' b', classes E = lib_classes -> library_suppliers E ->
  find c Y = Some (pre ++ (f, w) :: post) -> has_body pre = false ->
  object_of E c (VObj c fs) = true -> object_of E c (VObj c vs) = true -> buf_wf b = true ->
  all2 (fun fv fw => parsable Y (factory E) (snd fv) (snd fw)) (firstn (List.length pre) vs) pre = true -> (nesting (VObj c vs) <= S d)%nat ->
  over_long (get f vs) w = true -> get f fs <> get f vs ->
  readable b = ser Y (VObj c vs) (WObj c) ++ rest -> decode E (S d) (VObj c fs) b = (e, v', b') -> field f v' <> get f vs.
Proof.
  intros E d c pre f w post vs fs b rest e v' b' HE HF HL Hnb Ho Hv Hb Hp Hn Hlong Hne Hr D. apply buf_wf_iff in Hb.
  destruct (layout_at c pre f w post HL) as [Hwo Hfn].
  destruct (object_shape lib_classes E HE c _ Ho) as (fs' & [= <-] & Hty). destruct (object_shape lib_classes E HE c _ Hv) as (vs' & [= <-] & Htv).
  pose proof (typed_obj lib_classes Y c fs _ _ library_conforms HL Hty) as Hf. pose proof (typed_obj lib_classes Y c vs _ _ library_conforms HL Htv) as Hfv.
  destruct (fields_ok_split lib_classes _ _ _ Hf) as (o1 & o2 & -> & Hf1 & Hf2). destruct (fields_ok_split lib_classes _ _ _ Hfv) as (v1 & v2 & -> & Hv1 & Hv2).
  assert (L2 : List.length v1 = List.length pre) by (apply (fields_ok_length lib_classes); auto).
  assert (L1 : List.length o1 = List.length pre) by (apply (fields_ok_length lib_classes); auto).
  rewrite <- L2, firstn_app, Nat.sub_diag, firstn_all, app_nil_r in Hp.
  destruct o2 as [|[g ov] o2]; [discriminate|]. apply fields_ok_cons in Hf2 as (-> & Hov & Hf2).
  destruct v2 as [|[g x] v2]; [discriminate|]. apply fields_ok_cons in Hv2 as (-> & Hx & Hv2).
  rewrite !get_mid in Hne by (erewrite existsb_names by (apply (fields_ok_names lib_classes); eassumption); exact Hfn).
  rewrite get_mid in Hlong |- * by (erewrite existsb_names by (apply (fields_ok_names lib_classes); eassumption); exact Hfn).
  pose proof (conforms_ok lib_classes Y c _ library_conforms HL) as Hok.
  assert (Hpar : par_fs Y E c v1 pre v1 pre = true).
  { unfold par_fs. revert Hp Hnb. generalize v1 at 1 3 as a. generalize pre at 1 2 4 as A. intros A a. revert a.
    induction A as [|[h u] A IH]; intros [|[h' y] a]; auto. cbn [all2 snd]. intros Q1 Q2. apply andb_true_iff in Q1 as [-> Q1].
    cbn [has_body existsb snd] in Q2. apply orb_false_iff in Q2 as [Q2 Q3]. fold (has_body A) in Q3. rewrite (IH a Q1 Q3). destruct u; auto. discriminate Q2. }
  rewrite (ser_obj_eq Y c _ (WObj c) _ eq_refl HL) in Hr.
  assert (Sp : ser_fields Y (v1 ++ (f, x) :: v2) (pre ++ (f, w) :: post) = ser_fs Y v1 pre ++ ser Y x w ++ ser_fields Y v2 post).
  { clear - L2. revert v1 L2. induction pre as [|[g u] pre IH]; intros [|[h y] v1] L2; try discriminate; auto.
    unfold ser_fields, ser_fs in *. cbn [app concat2]. rewrite IH by (simpl in L2; lia). rewrite app_assoc. reflexivity. }
  rewrite Sp, <- !app_assoc in Hr.
  rewrite (decode_obj lib_classes Y library_conforms E HE d c _ _ b HL), compile_dec_app, exec_dec_app in D.
  destruct (dec_prefix lib_classes Y library_conforms E HE d c v1 pre pre ((f, w) :: post) [] [] v1 [] o1 ((f, ov) :: o2) b (ser Y x w ++ ser_fields Y v2 post ++ rest)) as [X _]; auto.
  { intros k0. exact I. }
  { assert (Mx : forall a r, (max_of (fun fv : string * val => nesting (snd fv)) a <= max_of (fun fv => nesting (snd fv)) (a ++ r))%nat) by (clear; induction a; intros; simpl; [lia|specialize (IHa r); lia]).
    cbn [nesting] in Hn. specialize (Mx v1 ((f, x) :: v2)). lia. }
  cbn [app] in X. rewrite X in D.
  assert (Na : map fst (absorb_fields Y v1 pre o1) = map fst pre).
  { rewrite (absorb_fields_names Y v1 pre o1) by auto. apply (fields_ok_names lib_classes). exact Hv1. }
  assert (Hok2 : ok_fields Y pre ((f, w) :: post) = true).
  { clear - Hok. revert Hok. change pre with ([] ++ pre) at 2. generalize (@nil (string * wire)) as seen. induction pre as [|[g u] pre IH]; intros seen Hok; [rewrite app_nil_r; exact Hok|].
    cbn [app] in Hok. apply ok_field_of in Hok as (_ & _ & H2 & _). specialize (IH _ H2). rewrite <- app_assoc in IH. exact IH. }
  destruct (run_fields lib_classes Y library_conforms E HE (suppliers_known E HE HF) d c (run_all lib_classes Y library_conforms E HE (suppliers_known E HE HF) d)
              ((f, w) :: post) pre (absorb_fields Y v1 pre o1) ((f, ov) :: o2) (adv b (List.length (ser_fs Y v1 pre))) Hok2 Na) as (e2 & rs & n & X2 & R).
  { cbn [fields_ok forall2b fst snd]. rewrite String.eqb_refl, Hov. exact Hf2. }
  rewrite X2 in D. injection D as <- <- <-.
  destruct (adv_ok b _ _ Hb Hr) as [W1 R1]. set (b0 := adv b (List.length (ser_fs Y v1 pre))) in *.
  assert (G : forall y r, get f (absorb_fields Y v1 pre o1 ++ (f, y) :: r) = y) by (intros; apply get_mid; rewrite (existsb_names f _ pre Na); exact Hfn).
  assert (Q : exists y r e3 n3, rs = (f, y) :: r /\ rfield Y (factory E) d c (absorb_fields Y v1 pre o1) w ov b0 e3 y n3) by (inversion R; subst; eauto 8).
  destruct Q as (y & r & e3 & n3 & -> & Rf). cbn [field]. rewrite G. clear - Hne Hlong Hx Hwo W1 R1 Rf.
  destruct w; try discriminate Hlong.
  - destruct x as [| | |s| |]; try discriminate Hlong. cbn [wire_type typed] in Hx. cbn [ok_field ok_elem] in Hwo. apply ok_count_pos in Hwo.
    inversion Rf; subst. match goal with T : rleaf _ _ _ ?z _ |- _ => pose proof (not_read_back n o s b0 _ _ _ _ Hwo Hx Hlong W1 R1 T) as N; destruct z; cbn [assigned]; congruence end.
  - cbn [over_long] in Hlong. destruct w; try discriminate Hlong. destruct x as [| | | |l|]; try discriminate Hlong. apply andb_true_iff in Hlong as [Hs Hlong].
    cbn [ok_field ok_elem] in Hwo. apply andb_true_iff in Hwo as [Hc1 Hc2]. apply ok_count_pos in Hc1. apply ok_count_pos in Hc2.
    cbn [wire_type typed] in Hx. cbn [ser] in R1. rewrite <- app_assoc in R1.
    destruct (read_number o n _ b0 _ Hc1 W1 R1) as (P1 & P2 & P3). apply short_spec in Hs. pose proof (get_prefix o n _ Hc1 Hs) as Gp.
    inversion Rf as [? ? ? ? ? ? ? z ? Lf| | | | |? ? ? ? ? ? bs k ? ? ? xs m T Gk Kp Rs]; subst.
    + inversion Lf; subst; cbn [assigned]; congruence.
    + exact Hne.
    + apply (took_same _ _ _ _ P1) in T. subst bs. rewrite Gp in Gk. apply Nat2Z.inj in Gk. subst k.
      intros [= ->]. refine (elems_not_read_back Y (factory E) d n0 o0 Hc2 l _ _ _ _ _ _ Hlong P2 P3 Rs eq_refl).
      clear - Hx. induction l as [|z l IH]; auto. cbn [forallb] in *. apply andb_true_iff in Hx as [H1 H2]. rewrite (IH H2), andb_true_r.
      destruct z; try discriminate; auto.
Qed.
Example C35_meets :
  let s := repeat 97 (Z.to_nat 40000) in
  let v := build "sample.StringPacket" [("fieldDynamicString", str "ok"); ("fieldDynamicString1", VStr s)]%string in
  let w := build "sample.SubPacket" [("fieldI16List", VList (repeat (VInt 1) (Z.to_nat 32768)))]%string in
  object_of lib_env "sample.StringPacket" v = true /\ over_long (field "fieldDynamicString1" v) (WDyn 2 LE) = true
  /\ object_of lib_env "sample.SubPacket" w = true /\ countable Y w (WObj "sample.SubPacket") = false.
Proof. vm_compute. repeat split. Qed.

(* ---- C37, second half ---- *)
(* a successful decode leaves no null sub-object, body, or list element *)
Theorem C37_no_null_after_decode : forall E d c old b v b', classes E = lib_classes -> library_suppliers E ->
  object_of E c old = true -> buf_wf b = true -> lists_no_nulls Y old (WObj c) = true -> decode E d old b = (None, v, b') -> no_nulls Y v (WObj c) = true.
Proof.
  intros E d c old b v b' HE HF Ho Hb Hn D.
  destruct (run E d c _ b HE HF Ho Hb) as (os & L & e & fs & n & -> & HL & Hos & Bk & D' & R).
  rewrite D' in D. injection D as -> <- <-. cbn [lists_no_nulls no_nulls] in *. rewrite HL in *.
  exact (proj2 (proj2 (proj2 (rel_full lib_classes Y library_conforms (factory E)))) _ _ _ _ _ _ _ R eq_refl L HL Hos Hn).
Qed.
(* so a message with a null body is never read back, whatever bytes follow *)
Theorem C37_null_body_never_read_back : forall E d c fs f k pre post b e v b', classes E = lib_classes -> library_suppliers E ->
  object_of E c (VObj c fs) = true -> find c Y = Some (pre ++ (f, WBody k) :: post) -> get f fs = VNull -> buf_wf b = true ->
  decode E d (new_obj E c) b = (e, v, b') -> e <> None \/ v <> VObj c fs.
Proof.
  intros E d c fs f k pre post b e v b' HE HF Hv HL Hg Hb D. destruct e as [ex|]; [left; discriminate|right]. intros ->.
  destruct (object_shape lib_classes E HE c _ Hv) as (fs' & [= <-] & Ht).
  destruct (new_known lib_classes Y library_conforms E HE c) as (L' & HL' & En & T); [unfold known; rewrite HL; reflexivity|].
  rewrite HL in HL'. injection HL' as <-.
  assert (Ho : object_of E c (new_obj E c) = true) by (rewrite En; apply (object_intro lib_classes E HE); exact T).
  assert (Hl : lists_no_nulls Y (new_obj E c) (WObj c) = true) by (rewrite En; cbn [lists_no_nulls]; rewrite HL; apply list_fields_blank).
  pose proof (C37_no_null_after_decode E d c _ b _ b' HE HF Ho Hb Hl D) as N. cbn [no_nulls] in N. rewrite HL in N.
  destruct (layout_at c pre f (WBody k) post HL) as [_ Hfn].
  pose proof (typed_obj lib_classes Y c fs _ _ library_conforms HL Ht) as Hf. destruct (fields_ok_split lib_classes _ _ _ Hf) as (a & r & -> & Hf1 & Hf2).
  destruct r as [|[g x] r]; [discriminate|]. apply fields_ok_cons in Hf2 as (-> & _ & _).
  rewrite get_mid in Hg by (rewrite (existsb_names f a pre (fields_ok_names _ _ _ Hf1)); exact Hfn). subst x.
  pose proof (fields_ok_length lib_classes _ _ Hf1) as Hl1. clear - N Hl1. revert a Hl1 N. induction pre as [|[g u] pre IH]; intros [|[h y] a] Hl1 N; try discriminate.
  cbn [app all2 snd] in N. apply andb_true_iff in N as [_ N]. apply (IH a); auto.
Qed.
Example C37_null_body_meets :
  let v := build "sse.SseBinary" [("msgType", VInt 40); ("msgSeqNum", VInt 7)]%string in
  object_of lib_env "sse.SseBinary" v = true /\ field "body" v = VNull
  /\ (let '(e, v1, b1) := encode lib_env 9 v empty_buf in
      e = None /\ widx b1 = 20%nat
      (* alone, the bytes cannot be decoded; followed by others, the body is read from the checksum and what comes after it *)
      /\ fst (fst (decode lib_env 9 (new_obj lib_env "sse.SseBinary") b1)) = Some IOOBE
      /\ (let '(e2, v2, b2) := decode lib_env 9 (new_obj lib_env "sse.SseBinary") (wrap_bytes (firstn 20 (arr b1) ++ repeat 65 82)) in
          e2 = None /\ field "body" v2 <> VNull /\ field "tradeDate" (field "body" v2) = VInt 1094795585)).
Proof. vm_compute. repeat split; discriminate. Qed.

Print Assumptions C35_prefix_written.
Print Assumptions C35_never_decoded.
Print Assumptions C35_strings_not_read_back.
Print Assumptions C37_no_null_after_decode.
Print Assumptions C37_null_body_never_read_back.
