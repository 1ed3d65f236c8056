(* C42: byte order. *)
From Coq Require Import ZArith List Bool String Lia.
From Verif.Model Require Import JavaPrim ByteBuf Ast Interp Library.
From Verif.Spec Require Import Bytes Buffers Wire Reading Layouts Order.
From Verif.Proofs Require Import ValInd BytesFacts BufFacts Conform TableFacts EncodeFacts DecodeFacts FillFacts Messages.
From Verif.Props Require Import Samples MessageProps ArbitraryProps.
Import ListNotations.
Open Scope Z_scope.

(* the numbers a statement writes or reads, as (width, byte order); the constant 0 looks the same in both orders *)
Definition eelem_numbers (x : eelem) : list (nat * endian) :=
  match x with XInt n o | XFlt n o | XDyn _ _ n o => [(n, o)] | _ => [] end.
Definition estmt_numbers (s : estmt) : list (nat * endian) :=
  match s with
  | EWrite n o _ | EWriteF n o _ | EDyn _ _ _ n o | EPatch n o _ _ => [(n, o)]
  | EList _ _ _ _ n o x => (n, o) :: eelem_numbers x
  | EFix _ _ _ _ | EObj _ | EObjOpt _ | EMark _ | EZero _ _ | EDiff _ _ _ | ESum _ _ => []
  end.
Definition delem_numbers (y : delem) : list (nat * endian) :=
  match y with YInt n o | YFlt n o | YDyn n o => [(n, o)] | _ => [] end.
Definition dstmt_numbers (s : dstmt) : list (nat * endian) :=
  match s with
  | DRead n o _ | DReadF n o _ | DDyn _ n o => [(n, o)]
  | DList _ n o y => (n, o) :: delem_numbers y
  | DFix _ _ _ _ | DNewIfNull _ _ | DObj _ | DCreate _ _ => []
  end.
Definition class_numbers (cd : class_def) : list (nat * endian) := flat_map estmt_numbers (c_enc cd) ++ flat_map dstmt_numbers (c_dec cd).

Definition same_order (o o' : endian) : bool := match o, o' with LE, LE | BE, BE => true | _, _ => false end.
Definition in_order (o : endian) (no : nat * endian) : bool := Nat.leb (fst no) 1 || same_order o (snd no).

Theorem C42_statements : forall p o c cd n o', In (p, o) protocols -> prefix p c = true -> assoc c lib_classes = Some cd ->
  In (n, o') (class_numbers cd) -> (1 < n)%nat -> o' = o.
Proof.
  intros p o c cd n o' Hp Hc Hcd Hi Hn.
  assert (A : forallb (fun po => forallb (fun ccd : string * class_def => negb (prefix (fst po) (fst ccd)) || forallb (in_order (snd po)) (class_numbers (snd ccd))) lib_classes) protocols = true) by (vm_compute; reflexivity).
  rewrite forallb_forall in A. specialize (A _ Hp). rewrite assoc_find in Hcd.
  pose proof (find_check (fun (c : string) cd => negb (prefix p c) || forallb (in_order o) (class_numbers cd)) lib_classes A c cd Hcd) as B. cbn beta in B. rewrite Hc in B. cbn [negb orb] in B.
  rewrite forallb_forall in B. specialize (B _ Hi). unfold in_order in B. cbn [fst snd] in B. apply orb_true_iff in B as [B|B]; [apply Nat.leb_le in B; lia|].
  destruct o, o'; try discriminate; reflexivity.
Qed.
Theorem C42_every_class_has_a_protocol : forall c cd, assoc c lib_classes = Some cd -> exists p o, In (p, o) protocols /\ prefix p c = true
  /\ forall p' o', In (p', o') protocols -> prefix p' c = true -> o' = o.
Proof.
  intros c cd Hcd. rewrite assoc_find in Hcd.
  assert (A : forallb (fun ccd : string * class_def => existsb (fun po => prefix (fst po) (fst ccd) && forallb (fun po' => negb (prefix (fst po') (fst ccd)) || same_order (snd po) (snd po')) protocols) protocols) lib_classes = true) by (vm_compute; reflexivity).
  pose proof (find_check (fun (c : string) (_ : class_def) => existsb (fun po => prefix (fst po) c && forallb (fun po' => negb (prefix (fst po') c) || same_order (snd po) (snd po')) protocols) protocols) lib_classes A c cd Hcd) as B.
  apply existsb_exists in B as ([p o] & Hi & B). apply andb_true_iff in B as [B1 B2]. exists p, o. split; auto. split; auto. intros p' o' Hi' Hp'. rewrite forallb_forall in B2.
  specialize (B2 _ Hi'). cbn [fst snd] in B2. rewrite Hp' in B2. cbn in B2. destruct o, o'; try discriminate; reflexivity.
Qed.

(* on the wire: the bytes are those with all numbers in the protocol's order *)
Definition uniform (o : endian) (w : wire) : bool :=
  let ok n o' := in_order o (n, o') in
  (fix go (w : wire) : bool :=
     match w with
     | WInt n o' | WFlt n o' | WDyn n o' | WLen n o' | WSum n o' _ => ok n o'
     | WList n o' w' => ok n o' && go w'
     | _ => true
     end) w.
Lemma number_in_order o n o' z : in_order o (n, o') = true -> number o' n z = number o n z.
Proof.
  unfold in_order. cbn [fst snd]. intros H. apply orb_true_iff in H as [H|H].
  - apply Nat.leb_le in H. destruct n as [|[|n]]; [destruct o, o'; reflexivity..|lia].
  - destruct o, o'; try discriminate; reflexivity.
Qed.
Lemma ser_in_order p o : In (p, o) protocols -> forall v w, uniform o w = true -> within p v = true -> ser Y v w = ser_in o Y v w.
Proof.
  intros Hp. induction v as [|z|z|s|l IH|c fs IH] using val_ind2; intros w Hu Hw;
    match goal with |- ser _ (VObj _ _) _ = _ => idtac | _ => destruct w; try reflexivity; cbn [ser ser_in]; cbn [uniform] in Hu; try (rewrite (number_in_order o _ _ _ Hu); reflexivity) end.
  - cbn [uniform] in Hu. apply andb_true_iff in Hu as [Hu _]. apply number_in_order. exact Hu.
  - cbn [uniform] in Hu. apply andb_true_iff in Hu as [Hu1 Hu]. rewrite (number_in_order o _ _ _ Hu1). f_equal.
    cbn [within] in Hw. clear Hu1. induction IH as [|x l Hx _ IHl]; auto. cbn [flat_map forallb] in *. apply andb_true_iff in Hw as [H1 H2]. rewrite (Hx _ Hu H1), (IHl H2). reflexivity.
  - assert (Q : forall L, find c Y = Some L -> concat2 (fun fv fw => ser Y (snd fv) (snd fw)) fs L = concat2 (fun fv fw => ser_in o Y (snd fv) (snd fw)) fs L).
    { intros L HL. cbn [within] in Hw. apply andb_true_iff in Hw as [Hc Hw].
      assert (A : forallb (fun po => forallb (fun cL : string * layout => negb (prefix (fst po) (fst cL)) || forallb (fun fw => uniform (snd po) (snd fw)) (snd cL)) Y) protocols = true) by (vm_compute; reflexivity).
      rewrite forallb_forall in A. specialize (A _ Hp). cbn [fst snd] in A.
      pose proof (find_check (fun (c : string) (L : layout) => negb (prefix p c) || forallb (fun fw => uniform o (snd fw)) L) Y A c L HL) as B. cbn beta in B. rewrite Hc in B. cbn [negb orb] in B.
      clear A HL Hc. revert L B. induction IH as [|[f x] fs Hx _ IHfs]; intros [|[g u] L] B; auto. cbn [concat2 forallb snd] in *. apply andb_true_iff in B as [B1 B2]. apply andb_true_iff in Hw as [H1 H2].
      rewrite (Hx u B1 H1), (IHfs H2 L B2). reflexivity. }
    destruct w; try reflexivity; cbn [ser ser_in]; destruct (find c Y) as [L|]; auto.
Qed.
Lemma fill_within p E v : forall pre w, within p v = true -> within p (fill_in Y (checksum E) pre v w) = true.
Proof.
  induction v as [|z|z|s|l IH|c fs IH] using val_ind2; intros pre w; try (intros; reflexivity).
  - destruct w; auto. rewrite fill_list_eq. cbn [within]. generalize (pre ++ number o n (Z.of_nat (List.length l))). clear pre.
    induction IH as [|x l Hx Hl IHl]; intros pre; auto. cbn [EncodeFacts.fill_list forallb]. intros H. apply andb_true_iff in H as [H1 H2]. apply andb_true_iff. auto.
  - destruct (find c Y) as [L|] eqn:HL; [|cbn [fill_in]; rewrite HL; auto].
    rewrite (fill_obj_eq _ _ _ _ _ _ _ HL). cbn [within]. intros H. apply andb_true_iff in H as [H1 H2]. apply andb_true_iff. split; auto. clear HL H1.
    revert pre L IH H2. induction fs as [fs IHfs] using length_ind2. intros pre L IH H2.
    destruct fs as [|[f x] fs]; auto. destruct L as [|[g w'] L]; auto.
    inversion IH as [|? ? Hx IH']; subst. cbn [snd forallb] in Hx, H2. apply andb_true_iff in H2 as [H1 H2].
    assert (R : forall pre L, forallb (fun fv => within p (snd fv)) (fill_fields Y E pre fs L) = true) by (intros; apply IHfs; auto; simpl; lia).
    destruct w'; cbn [EncodeFacts.fill_fields forallb snd]; try (rewrite R, Hx; auto; fail).
    + destruct fs as [|[h y] fs]; [cbn; rewrite H1; auto|]. destruct L as [|[k w2] L]; [cbn [forallb snd] in *; rewrite H1, H2; auto|].
      inversion IH' as [|? ? Hy IH'']; subst. cbn [forallb snd] in H2, Hy |- *. apply andb_true_iff in H2 as [H2 H3]. rewrite Hy by auto. cbn [within andb]. apply IHfs; auto. simpl; lia.
    + rewrite R. destruct (checksum E alg); cbn [within]; rewrite ?H1; auto.
Qed.
Theorem C42_written : forall E d p o c v b v1 b1, classes E = lib_classes -> In (p, o) protocols -> within p v = true ->
  object_of E c v = true -> buf_wf b = true -> encode E d v b = (None, v1, b1) -> appended b (ser_in o Y v1 (WObj c)) b1.
Proof.
  intros E d p o c v b v1 b1 HE Hp Hw Hv Hb He. destruct (C23_encode_appends_wire_form E d c v b v1 b1 HE Hv Hb He) as (A & _ & Q & _).
  rewrite <- (ser_in_order p o Hp v1 (WObj c) eq_refl); [exact A|]. rewrite Q. apply fill_within. exact Hw.
Qed.
Theorem C42_read : forall E d p o c v old b rest, classes E = lib_classes -> In (p, o) protocols -> within p v = true ->
  object_of E c v = true -> object_of E c old = true -> parsable Y (factory E) v (WObj c) = true -> (nesting v <= d)%nat ->
  buf_wf b = true -> readable b = ser_in o Y v (WObj c) ++ rest ->
  exists b1, decode E d old b = (None, absorb Y old v (WObj c), b1) /\ advanced b (List.length (ser_in o Y v (WObj c))) b1.
Proof.
  intros E d p o c v old b rest HE Hp Hw Hv Ho Hpa Hn Hb Hr. rewrite <- (ser_in_order p o Hp v (WObj c) eq_refl Hw) in *.
  eapply (decode_bytes lib_classes Y library_conforms E HE); eauto.
Qed.
Example C42_meets : In ("sse."%string, BE) protocols /\ within "sse." s_sse = true /\ within "bjse." s_bjse = true /\ within "sample." s_root_nested = true
  /\ (exists b1 v1, encode lib_env 3 s_sse empty_buf = (None, v1, b1))
  /\ List.length (flat_map (fun ccd => filter (fun no => Nat.ltb 1 (fst no)) (class_numbers (snd ccd))) lib_classes) = 836%nat
  /\ ser_in LE Y s_sse (WObj "sse.SseBinary") <> ser_in BE Y s_sse (WObj "sse.SseBinary").
Proof.
  split; [left; reflexivity|]. repeat (split; [vm_compute; reflexivity|]). split; [eexists _, _; vm_compute; reflexivity|].
  split; [vm_compute; reflexivity|vm_compute; discriminate].
Qed.

Print Assumptions C42_statements.
Print Assumptions C42_every_class_has_a_protocol.
Print Assumptions C42_written.
Print Assumptions C42_read.
