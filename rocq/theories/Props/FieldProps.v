(* C68, C69: fields, the bytes they occupy, and what arrives of a value that was set. *)
From Coq Require Import ZArith List Bool String Lia.
From Verif.Model Require Import JavaPrim ByteBuf Utf8 Codec Ast Interp Library Show.
From Verif.Spec Require Import Bytes Buffers Wire Reading Layouts Locality Flat Sizes Access.
From Verif.Proofs Require Import BytesFacts BufFacts ValInd Conform TableFacts EncodeFacts FillFacts DecodeFacts Messages SizeFacts LocalFacts PrefixDecode Lockstep Twin PieceFacts.
From Verif.Props Require Import Samples MessageProps ArbitraryProps EqualProps TextProps.
Import ListNotations.
Open Scope Z_scope.

Notation Y := lib_layouts.

Lemma cut_at {A : Type} (l : list A) : forall i x, nth_error l i = Some x -> l = firstn i l ++ x :: skipn (S i) l.
Proof. induction l as [|a l IH]; intros [|i] x H; try discriminate; cbn in H; [injection H as ->; reflexivity|]. cbn [firstn app skipn]. f_equal. exact (IH i x H). Qed.
(* ---- C68 ---- *)
(* the bytes of a message are one piece per field, in declaration order; after setF only the piece of f is different, except that the checksum
   (if a service computes it) and the length field in front of f may be, without a change of size *)
Theorem C68_set_changes_its_own_bytes : forall E d d' c fs gs f x b v1 b1 v2 b2, classes E = lib_classes -> object_of E c (VObj c fs) = true -> object_of E c (VObj c gs) = true ->
  call_set E (VObj c fs) (setter f) x = Some (VObj c gs) -> In f (map fst fs) -> buf_wf b = true -> encode E d (VObj c fs) b = (None, v1, b1) -> encode E d' (VObj c gs) b = (None, v2, b2) ->
  forallb (fun fv => unsummed Y (checksum E) (snd fv)) fs = true -> unsummed Y (checksum E) x = true ->
  exists L ps qs, find c Y = Some L /\ appended b (List.concat ps) b1 /\ appended b (List.concat qs) b2 /\ List.length ps = List.length L /\ List.length qs = List.length L
    /\ forall i g w, nth_error L i = Some (g, w) -> exists p q, nth_error ps i = Some p /\ nth_error qs i = Some q /\ p = ser Y (field g v1) w /\ q = ser Y (field g v2) w
       /\ (p = q \/ g = f \/ (exists n o alg, w = WSum n o alg /\ checksum E alg <> None /\ List.length p = n /\ List.length q = n)
           \/ (exists n o w', w = WLen n o /\ nth_error L (S i) = Some (f, w') /\ List.length p = n /\ List.length q = n)).
Proof.
  intros E d d' c fs gs f x b v1 b1 v2 b2 HE Hv Hg Hs Hf Hb E1 E2 U Ux.
  destruct (object_class E c _ HE Hv) as (fs' & cd & [= <-] & F & A & Nm & Nd). destruct (library_method_names c cd A) as (_ & _ & N).
  unfold call_set in Hs. rewrite F, (library_setters c cd A), (proj2 (assoc_method setter (c_fields cd) (setter f) f N)) in Hs by (split; [reflexivity|]; rewrite <- Nm; exact Hf). injection Hs as <-.
  destruct (encoded_facts lib_classes Y library_conforms E HE d c _ b v1 b1 Hv Hb E1) as (O1 & _ & _ & _ & A1 & _ & F1).
  destruct (encoded_facts lib_classes Y library_conforms E HE d' c _ b v2 b2 Hg Hb E2) as (O2 & _ & _ & _ & A2 & _ & F2).
  destruct (shape_codec E c _ HE Hv) as (fs' & L & [= <-] & _ & HL & Hok). pose proof (fields_ok_names _ _ _ Hok) as NL.
  rewrite (fill_obj_eq _ _ _ _ _ _ _ HL) in F1. rewrite (fill_obj_eq _ _ _ _ _ _ _ HL) in F2. set (F1s := fill_fields Y E (readable b) fs L) in *. set (F2s := fill_fields Y E (readable b) (set f x fs) L) in *. subst v1 v2.
  destruct (shape_codec E c _ HE O1) as (h1 & L1 & [= <-] & _ & HL1 & Hok1). rewrite HL in HL1. injection HL1 as <-. pose proof (fields_ok_names _ _ _ Hok1) as NL1.
  destruct (shape_codec E c _ HE O2) as (h2 & L2 & [= <-] & _ & HL2 & Hok2). rewrite HL in HL2. injection HL2 as <-. pose proof (fields_ok_names _ _ _ Hok2) as NL2.
  rewrite (ser_obj_eq Y c F1s (WObj c) L eq_refl HL), <- pieces_ser in A1. rewrite (ser_obj_eq Y c F2s (WObj c) L eq_refl HL), <- pieces_ser in A2.
  exists L, (pieces Y F1s L), (pieces Y F2s L). split; [exact HL|]. split; [exact A1|]. split; [exact A2|]. split; [apply pieces_length; exact NL1|]. split; [apply pieces_length; exact NL2|].
  intros i g w HI. destruct (pieces_at Y F1s L i g w NL1 HI) as (y1 & P1 & Q1). destruct (pieces_at Y F2s L i g w NL2 HI) as (y2 & P2 & Q2). exists (ser Y y1 w), (ser Y y2 w).
  split; [exact Q1|]. split; [exact Q2|]. rewrite <- NL in NL1, NL2. rewrite <- NL1 in Nd. pose proof Nd as Nd2. rewrite NL1, <- NL2 in Nd2.
  split; [cbn [field]; rewrite (get_at F1s i g y1 Nd P1); reflexivity|]. split; [cbn [field]; rewrite (get_at F2s i g y2 Nd2 P2); reflexivity|].
  assert (AP : Forall2 (apart_from f) fs (set f x fs)).
  { clear. induction fs as [|[h y] fs IH]; [constructor|]. cbn [set]. destruct (String.eqb_spec f h) as [->|]; constructor; try (split; auto; fail).
    clear. induction fs as [|[k z] fs IH]; constructor; auto. split; auto. exact IH. }
  assert (US : forallb (fun fv => unsummed Y (checksum E) (snd fv)) (set f x fs) = true).
  { clear - U Ux. induction fs as [|[h y] fs IH]; [reflexivity|]. cbn [forallb snd] in U. apply andb_true_iff in U as [U1 U2]. cbn [set]. destruct (String.eqb f h); cbn [forallb snd]; apply andb_true_iff; auto. }
  destruct (fill_pieces Y E f fs (set f x fs) L (readable b) (readable b) NL AP U US i g w g y1 y2 g HI P1 P2) as [->|[->|[(n & o & alg & z & z' & -> & S & -> & ->)|(n & o & w' & z & z' & -> & S & -> & ->)]]].
  - left. reflexivity.
  - right. left. reflexivity.
  - right. right. left. exists n, o, alg. cbn [ser]. rewrite !number_length. auto.
  - right. right. right. exists n, o, w'. cbn [ser]. rewrite !number_length. auto.
Qed.
(* a field behind fixed-width fields starts at the same place in every encoding *)
Theorem C68_field_offset : forall E d c fs b v1 b1 A f w B, classes E = lib_classes -> object_of E c (VObj c fs) = true -> buf_wf b = true -> encode E d (VObj c fs) b = (None, v1, b1) ->
  find c Y = Some (A ++ (f, w) :: B) -> flat A = true -> lefts_filled fs A = true ->
  exists pre post, appended b (pre ++ ser Y (field f v1) w ++ post) b1 /\ List.length pre = total_width A.
Proof.
  intros E d c fs b v1 b1 A f w B HE Hv Hb E1 HL Hfl Hl.
  destruct (encoded_facts lib_classes Y library_conforms E HE d c _ b v1 b1 Hv Hb E1) as (O1 & FG & _ & Cp & A1 & _ & _).
  destruct (shape_codec E c _ HE Hv) as (fs' & L & [= <-] & _ & HL' & Hok). rewrite HL in HL'. injection HL' as <-. pose proof (fields_ok_names _ _ _ Hok) as NL.
  destruct (shape_codec E c _ HE O1) as (gs & L1 & -> & _ & HL1 & Hok1). rewrite HL in HL1. injection HL1 as <-. pose proof (fields_ok_names _ _ _ Hok1) as NL1.
  rewrite (ser_obj_eq Y c gs (WObj c) _ eq_refl HL), <- pieces_ser in A1. rewrite !(forget_obj_eq _ _ _ _ _ HL) in FG. assert (FG' : forget_fields Y fs (A ++ (f, w) :: B) = forget_fields Y gs (A ++ (f, w) :: B)) by congruence. clear FG.
  cbn [complete] in Cp. rewrite HL in Cp. destruct (object_class E c _ HE O1) as (gs' & cd & [= <-] & _ & _ & _ & Nd).
  pose proof (prefix_width lib_classes Y library_conforms A _ [] fs gs Hok1 (conforms_ok lib_classes Y c _ library_conforms HL) Cp FG' NL Hfl Hl) as W.
  destruct (pieces_at Y gs _ (List.length A) f w NL1) as (x & P & Q); [rewrite nth_error_app2, PeanoNat.Nat.sub_diag by lia; reflexivity|].
  exists (List.concat (firstn (List.length A) (pieces Y gs (A ++ (f, w) :: B)))), (List.concat (skipn (S (List.length A)) (pieces Y gs (A ++ (f, w) :: B)))). split; [|exact W].
  cbn [field]. rewrite (get_at gs _ f x Nd P). rewrite (cut_at _ _ _ Q) in A1 at 1. rewrite concat_app in A1. exact A1.
Qed.
(* whatever bytes there are: decode of two buffers whose unread bytes differ only where the fixed-width field f is ends the same way, having read the same number of bytes,
   and the two objects differ in nothing but f - unless f selects the class of a body *)
Theorem C68_corruption_is_local : forall E d c A f w B fs b b' pre mid mid' rest, classes E = lib_classes -> object_of E c (VObj c fs) = true ->
  find c Y = Some (A ++ (f, w) :: B) -> flat A = true -> fixed_width w = true -> (forall g k, In (g, WBody k) B -> k <> f) ->
  buf_wf b = true -> buf_wf b' = true -> unpadded b -> unpadded b' -> readable b = pre ++ mid ++ rest -> readable b' = pre ++ mid' ++ rest ->
  List.length pre = total_width A -> List.length mid = width w -> List.length mid' = width w ->
  exists e v1 v2 n b1 b2, decode E (S d) (VObj c fs) b = (e, v1, b1) /\ decode E (S d) (VObj c fs) b' = (e, v2, b2) /\ advanced b n b1 /\ advanced b' n b2
    /\ call_get E v1 (getter f) = Some (scalar_of w mid) /\ call_get E v2 (getter f) = Some (scalar_of w mid')
    /\ forall m, m <> getter f -> call_get E v1 m = call_get E v2 m.
Proof.
  intros E d c A f w B fs b b' pre mid mid' rest HE Hv HL Hfl Hw Hk Hb Hb' U U' R R' Lp Lm Lm'.
  destruct (object_class E c _ HE Hv) as (fs' & cd & [= <-] & F & As & Nm & Nd). destruct (library_method_names c cd As) as (_ & Ng & _).
  destruct (shape_codec E c _ HE Hv) as (fs' & L & [= <-] & _ & HL' & Hok). rewrite HL in HL'. injection HL' as <-. pose proof (fields_ok_names _ _ _ Hok) as NL.
  pose proof (conforms_ok lib_classes Y c _ library_conforms HL) as Hokl.
  rewrite !(decode_obj lib_classes Y library_conforms E HE d c _ _ _ HL). change (A ++ (f, w) :: B) with (A ++ [(f, w)] ++ B) in *. rewrite app_assoc in HL, NL, Hok, Hokl |- *. set (P := A ++ [(f, w)]) in *.
  assert (HP : flat P = true) by (unfold flat, P; rewrite forallb_app; cbn [forallb snd]; fold (flat A); rewrite Hfl, Hw; reflexivity).
  assert (TP : total_width P = (total_width A + width w)%nat) by (unfold P; clear; induction A as [|[g u] A IH]; cbn [app total_width]; lia).
  destruct (split_names fs _ P B NL eq_refl) as (o1 & o2 & -> & N1 & N2 & _).
  pose proof (exec_flat Y E d (factory E c) P [] B [] o1 o2 b Hokl eq_refl HP N1 (proj1 (buf_wf_iff b) Hb)) as X.
  pose proof (exec_flat Y E d (factory E c) P [] B [] o1 o2 b' Hokl eq_refl HP N1 (proj1 (buf_wf_iff b') Hb')) as X'. cbn [app] in X, X'.
  rewrite !compile_dec_app, !exec_dec_app, X, X' by (rewrite ?R, ?R', !app_length, TP; lia). clear X X'.
  assert (NA : existsb (fun fw : string * val => String.eqb f (fst fw)) (parse A pre) = false).
  { rewrite map_app, N1 in Nd. unfold P in Nd. rewrite map_app in Nd. cbn [map fst] in Nd. rewrite <- app_assoc in Nd. apply NoDup_remove_2 in Nd.
    rewrite <- (parse_fst A pre) in Nd. destruct (existsb _ (parse A pre)) eqn:Q; [|reflexivity]. exfalso. apply Nd. apply in_or_app. left. apply existsb_exists in Q as ([g y] & I1 & I2). apply String.eqb_eq in I2. cbn [fst] in I2. subst g. apply (in_map fst) in I1. exact I1. }
  assert (M : forall m, List.length m = width w -> parse P (pre ++ m ++ rest) ++ o2 = parse A pre ++ (f, scalar_of w m) :: o2).
  { intros m Lw. unfold P. rewrite (parse_mid f w A pre (m ++ rest) Lp), <- Lw, firstn_app, PeanoNat.Nat.sub_diag, firstn_all, <- app_assoc. cbn [firstn app]. rewrite app_nil_r. reflexivity. }
  rewrite R, R', (M mid Lm), (M mid' Lm').
  assert (S' : parse A pre ++ (f, scalar_of w mid') :: o2 = set f (scalar_of w mid') (parse A pre ++ (f, scalar_of w mid) :: o2)) by (symmetry; apply set_mid; exact NA). rewrite S'.
  assert (T : forallb (fun s => negb (touches f s)) (compile_dec B) = true).
  { assert (NB : ~ In f (map fst B)) by (rewrite NL in Nd; unfold P in Nd; rewrite <- app_assoc, map_app in Nd; cbn [map fst app] in Nd; apply NoDup_remove_2 in Nd; intros I; apply Nd, in_or_app; right; exact I).
    clear - Hk NB. induction B as [|[g u] B IH]; [reflexivity|]. rewrite compile_dec_cons, forallb_app. apply andb_true_iff. split; [|apply IH; [intros h k I; apply (Hk h k); right; exact I|intros I; apply NB; right; exact I]].
    assert (Q : String.eqb f g = false) by (apply String.eqb_neq; intros ->; apply NB; left; reflexivity).
    destruct u; cbn [dec_stmts forallb touches]; rewrite ?Q; try reflexivity. assert (K : String.eqb f key = false) by (apply String.eqb_neq; intros <-; apply (Hk g f); [left|]; reflexivity). rewrite K. reflexivity. }
  set (F0 := parse A pre ++ (f, scalar_of w mid) :: o2) in *.
  assert (TW : twin (adv b (total_width P)) (adv b' (total_width P))).
  { apply same_twin; try (apply buf_wf_iff, wf_advance; [apply buf_wf_iff; assumption|rewrite ?R, ?R', !app_length, TP; lia]); [exact U|exact U'|].
    assert (SK : forall m, List.length m = width w -> skipn (total_width P) (pre ++ m ++ rest) = rest).
    { intros m Lw. rewrite app_assoc, skipn_app, skipn_all2, app_length, TP, Lp, Lw, PeanoNat.Nat.sub_diag by (rewrite app_length; lia). reflexivity. }
    unfold adv. rewrite !readable_advance, R, R', (SK mid Lm), (SK mid' Lm'). reflexivity. }
  destruct (alike_stmts (new_obj E) (factory E c) (decode E d) (twins E d) (compile_dec B) F0 _ _ TW) as (H1 & H2 & n & H3 & H4).
  destruct (stmts_but (new_obj E) (factory E c) (decode E d) f (scalar_of w mid') (compile_dec B) F0 (adv b' (total_width P)) T) as [(G1 & G2 & G3) [G4 G5]].
  destruct (exec_dec _ _ _ (compile_dec B) (F0, adv b (total_width P))) as [e [gs x]], (exec_dec _ _ _ (compile_dec B) (F0, adv b' (total_width P))) as [e' [gs' x']],
    (exec_dec _ _ _ (compile_dec B) (set f _ F0, adv b' (total_width P))) as [e'' [gs'' x'']]. cbn [fst snd] in *. subst e'' gs'' x''. subst e' gs' x x'.
  assert (IF : In f (map fst F0)) by (unfold F0; rewrite map_app; apply in_or_app; right; left; reflexivity).
  assert (NF : map fst F0 = map fst (c_fields cd)) by (rewrite <- Nm, map_app, N1; unfold F0, P; rewrite !map_app, parse_fst; cbn [map fst app]; rewrite <- app_assoc; reflexivity).
  exists e, (VObj c gs), (VObj c (set f (scalar_of w mid') gs)), (total_width P + n)%nat. eexists _, _. split; [reflexivity|]. split; [reflexivity|]. unfold advanced. rewrite !adv_adv. split; [reflexivity|]. split; [reflexivity|].
  assert (GA : forall hs m, call_get E (VObj c hs) m = match assoc m (c_get cd) with Some g => Some (get g hs) | None => None end) by (intros; unfold call_get; rewrite F; reflexivity).
  rewrite !GA, (library_getters c cd As), (proj2 (assoc_method getter (c_fields cd) (getter f) f Ng)) by (split; [reflexivity|rewrite <- NF; exact IF]).
  split; [rewrite G4; unfold F0; rewrite get_mid; [reflexivity|exact NA]|]. split; [rewrite get_same; [reflexivity|rewrite G5; exact IF]|].
  intros m Hm. rewrite !GA, (library_getters c cd As). destruct (assoc m _) as [g|] eqn:Ag; [|reflexivity]. apply (proj1 (assoc_method getter (c_fields cd) m g Ng)) in Ag as [-> _].
  rewrite get_other; [reflexivity|]. intros ->. apply Hm. reflexivity.
Qed.
(* the tag is the exception *)
Theorem C68_corrupted_tag_refuted : exists b b' pre mid mid' rest v1 b1 v2 b2, buf_wf b = true /\ buf_wf b' = true /\ unpadded b /\ unpadded b' /\ readable b = pre ++ mid ++ rest /\ readable b' = pre ++ mid' ++ rest
  /\ pre = [] /\ List.length mid = 2%nat /\ List.length mid' = 2%nat
  /\ decode lib_env 9 (new_obj lib_env "sample.RootPacket") b = (None, v1, b1) /\ decode lib_env 9 (new_obj lib_env "sample.RootPacket") b' = (Some IAE, v2, b2).
Proof.
  exists (wrap_bytes [4; 0; 0; 0; 0; 0; 1; 2; 3; 4]), (wrap_bytes [9; 0; 0; 0; 0; 0; 1; 2; 3; 4]), [], [4; 0], [9; 0], [0; 0; 0; 0; 1; 2; 3; 4]. eexists _, _, _, _.
  repeat (split; [try reflexivity; right; reflexivity|]). vm_compute. repeat split; try reflexivity; right; reflexivity.
Qed.

(* ---- C69 ---- *)
(* setF(x), encode, decode into a new object: getF returns x and every other getter what it returned before - numbers and non-empty strings exactly,
   otherwise up to null/"" and null/empty list and the length and checksum fields of nested objects *)
Theorem C69_what_is_set_arrives : forall E d d2 c fs gs f x b v1 b1, classes E = lib_classes -> object_of E c (VObj c fs) = true -> object_of E c (VObj c gs) = true -> In f (map fst fs) ->
  call_set E (VObj c fs) (setter f) x = Some (VObj c gs) -> buf_wf b = true -> encode E d (VObj c gs) b = (None, v1, b1) ->
  parsable Y (factory E) (VObj c gs) (WObj c) = true -> canonical Y (VObj c gs) (WObj c) = true -> (nesting (VObj c gs) <= d2)%nat ->
  exists bs, appended b bs b1 /\ forall b2 rest, buf_wf b2 = true -> readable b2 = bs ++ rest ->
    exists v2 b3, decode E d2 (new_obj E c) b2 = (None, v2, b3) /\ advanced b2 (List.length bs) b3
      /\ forall L g w z, find c Y = Some L -> find g L = Some w -> (forall n o, w <> WLen n o) -> (forall n o a, w <> WSum n o a) ->
           (g = f /\ z = x \/ g <> f /\ call_get E (VObj c fs) (getter g) = Some z) ->
           exists y, call_get E v2 (getter g) = Some y /\ normalize (forget Y y w) = normalize (forget Y z w)
             /\ ((exists k, z = VInt k) \/ (exists k, z = VFlt k) \/ (exists a s, z = VStr (a :: s)) -> y = z).
Proof.
  intros E d d2 c fs gs f x b v1 b1 HE Hv Hg Hf Hs Hb He Hp Hc Hn. destruct (C22_round_trip E E d d2 c _ b v1 b1 HE HE Hg Hb He Hp Hc Hn) as (bs & A & K).
  exists bs. split; [exact A|]. intros b2 rest W2 R2. destruct (K b2 rest W2 R2) as (v2 & b3 & D & Q & _ & FG & Adv). exists v2, b3. split; [exact D|]. split; [exact Adv|].
  destruct (encoded_facts lib_classes Y library_conforms E HE d c _ b v1 b1 Hg Hb He) as (O1 & _).
  destruct (object_class E c _ HE Hv) as (fs' & cd & [= <-] & F & As & Nm & Nd). destruct (library_method_names c cd As) as (_ & Ng & Ns).
  destruct (object_class E c _ HE O1) as (fs1 & cd' & -> & F' & _ & Nm1 & _). rewrite F in F'. injection F' as <-.
  unfold equivalent in Q. destruct v2 as [| | |[|]|[|]|c2 fs2]; cbn [normalize] in Q; try discriminate Q. assert (Qc : c2 = c) by congruence. subst c2.
  assert (N2 : map fst fs2 = map fst fs1).
  { injection Q as Q. apply (f_equal (map fst)) in Q. rewrite !map_map in Q. cbn [fst] in Q. exact Q. }
  intros L g w z HL HG NL NS Hz. destruct (shape_codec E c _ HE Hv) as (fs' & L' & [= <-] & _ & HL' & Hok). rewrite HL in HL'. injection HL' as <-. pose proof (fields_ok_names _ _ _ Hok) as NF.
  assert (IG : In g (map fst fs)) by (rewrite NF; clear - HG; induction L as [|[h u] L IH]; [discriminate|]; cbn [find map fst] in *; destruct (String.eqb_spec g h) as [->|]; [left; reflexivity|right; auto]).
  assert (GA : forall hs, call_get E (VObj c hs) (getter g) = Some (get g hs)).
  { intros hs. unfold call_get. rewrite F, (library_getters c cd As), (proj2 (assoc_method getter (c_fields cd) (getter g) g Ng)) by (split; [reflexivity|rewrite <- Nm; exact IG]). reflexivity. }
  exists (get g fs2). split; [apply GA|].
  assert (Z : get g gs = z).
  { unfold call_set in Hs. rewrite F, (library_setters c cd As), (proj2 (assoc_method setter (c_fields cd) (setter f) f Ns)) in Hs by (split; [reflexivity|rewrite <- Nm; exact Hf]). injection Hs as <-.
    destruct Hz as [[-> ->]|[NE Hz]]; [apply get_same; exact Hf|]. rewrite get_other by congruence. rewrite GA in Hz. congruence. }
  assert (X : normalize (forget Y (get g fs2) w) = normalize (forget Y z w)).
  { rewrite <- Z. assert (FW : forall y, forget_field Y y w = forget Y y w) by (intros y; destruct w; try reflexivity; [exfalso; eapply NL; reflexivity|exfalso; eapply NS; reflexivity]). rewrite <- !FW.
    assert (NG : map fst gs = map fst L) by (destruct (shape_codec E c _ HE Hg) as (fs' & L' & [= <-] & _ & HL' & Hok'); rewrite HL in HL'; injection HL' as <-; exact (fields_ok_names _ _ _ Hok')).
    rewrite <- (get_forget Y g w fs2 L), <- (get_forget Y g w gs L), <- !get_normal by (auto; congruence). f_equal.
    assert (FF : normalize (forget Y (VObj c fs2) (WObj c)) = normalize (forget Y (VObj c gs) (WObj c))) by (rewrite <- FG, <- !forget_normalize; cbn [normalize]; rewrite Q; reflexivity).
    rewrite !(forget_obj_eq _ _ _ _ _ HL) in FF. cbn [normalize] in FF. congruence. }
  split; [exact X|]. apply normal_scalar with (w := w) (Y := Y). exact X.
Qed.

Definition s_sse2 : val := match call_set lib_env s_sse (setter "msgSeqNum") (VInt 515) with Some v => v | None => VNull end.
Definition s_sse3 : val := match call_set lib_env s_sse (setter "body") (build "sse.Logon" [("senderCompId", str "longer"); ("heartBtInt", VInt 5)]%string) with Some v => v | None => VNull end.
Definition fields_of (v : val) : list (string * val) := match v with VObj _ fs => fs | _ => [] end.
(* the hypotheses of both theorems for two assignments, and what they come to: only msgSeqNum and the checksum differ *)
Example C68_meets : let A := [("msgType", WInt 4 BE); ("msgSeqNum", WInt 8 BE)]%string in
  object_of lib_env "sse.SseBinary" s_sse2 = true /\ object_of lib_env "sse.SseBinary" s_sse3 = true
  /\ forallb (fun fv => unsummed Y (checksum lib_env) (snd fv)) (fields_of s_sse) = true
  /\ find "sse.SseBinary" Y = Some (A ++ [("msgBodyLen"%string, WLen 4 BE); ("body"%string, WBody "msgType"); ("checksum"%string, WSum 4 BE "SSE_BIN")]) /\ flat A = true /\ lefts_filled (fields_of s_sse) A = true
  /\ (let '(e1, v1, b1) := encode lib_env 9 s_sse empty_buf in let '(e2, v2, b2) := encode lib_env 9 s_sse2 empty_buf in
      e1 = None /\ e2 = None /\ List.length (content b1) = List.length (content b2) /\ firstn 4 (content b1) = firstn 4 (content b2) /\ firstn 12 (content b1) <> firstn 12 (content b2)
      /\ firstn 88 (skipn 12 (content b1)) = firstn 88 (skipn 12 (content b2))
      /\ (let '(e3, v3, b3) := decode lib_env 9 (new_obj lib_env "sse.SseBinary") (wrap_bytes (content b1)) in
          let '(e4, v4, b4) := decode lib_env 9 (new_obj lib_env "sse.SseBinary") (wrap_bytes (firstn 4 (content b1) ++ [1; 2; 3; 4; 5; 6; 7; 8] ++ skipn 12 (content b1))) in
          e3 = None /\ e4 = None /\ call_get lib_env v4 "getMsgSeqNum" = Some (VInt 72623859790382856) /\ call_get lib_env v4 "getBody" = call_get lib_env v3 "getBody" /\ v3 <> v4)).
Proof. vm_compute. repeat split; discriminate. Qed.
Example C69_meets : object_of lib_env "sse.SseBinary" s_sse = true /\ object_of lib_env "sse.SseBinary" s_sse2 = true /\ parsable Y (factory lib_env) s_sse2 (WObj "sse.SseBinary") = true
  /\ canonical Y s_sse2 (WObj "sse.SseBinary") = true /\ Nat.leb (nesting s_sse2) 9 = true
  /\ (let '(e, v1, b1) := encode lib_env 9 s_sse2 empty_buf in e = None /\
      let '(e2, v2, b2) := decode lib_env 9 (new_obj lib_env "sse.SseBinary") (wrap_bytes (content b1)) in
      e2 = None /\ call_get lib_env v2 "getMsgSeqNum" = Some (VInt 515) /\ call_get lib_env v2 "getMsgType" = Some (VInt 40)).
Proof. vm_compute. repeat split. Qed.

Print Assumptions C68_set_changes_its_own_bytes.
Print Assumptions C68_field_offset.
Print Assumptions C68_corruption_is_local.
Print Assumptions C68_corrupted_tag_refuted.
Print Assumptions C69_what_is_set_arrives.
