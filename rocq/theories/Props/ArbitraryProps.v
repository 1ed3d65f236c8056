(* C31-C33, C35, C37 (second half): decode of arbitrary bytes. *)
From Coq Require Import ZArith List Bool String Lia.
From Verif.Model Require Import JavaPrim ByteBuf Utf8 Checksum Ast Interp Factory Library.
From Verif.Spec Require Import Bytes Buffers Wire Reading Layouts Sizes Flat.
From Verif.Proofs Require Import BytesFacts BufFacts Conform TableFacts FillFacts DecodeFacts Messages RegistryFacts FrameFacts FrameDecode DecodeRel DecodeInv PrefixDecode.
From Verif.Props Require Import Samples.
Import ListNotations.
Open Scope Z_scope.

Notation Y := lib_layouts.

(* the registered suppliers construct classes of the library *)
Definition library_suppliers (E : env) : Prop := forall o t c, factory E o t = Some c -> object_of E c (new_obj E c) = true.
(* the reader index moves on by n, past the readable bytes at most as far as readCharSequence may go *)
Definition reads (b : bytebuf) (n : nat) (b' : bytebuf) : Prop := advanced b n b' /\ (n = O \/ Z.of_nat n <= char_bytes b).

Lemma suppliers_known E : classes E = lib_classes -> library_suppliers E -> forall o t c, factory E o t = Some c -> known Y c = true.
Proof.
  intros HE H o t c Hf. specialize (H o t c Hf). rewrite (new_blank lib_classes Y library_conforms E HE) in H. unfold known, blank_obj in *.
  destruct (find c Y); [reflexivity|discriminate].
Qed.
(* everything the relation gives, at once *)
Lemma run E d c old b : classes E = lib_classes -> library_suppliers E -> object_of E c old = true -> buf_wf b = true ->
  exists os L e fs n, old = VObj c os /\ find c Y = Some L /\ fields_ok lib_classes os L = true /\ bk b
    /\ decode E d old b = (e, VObj c fs, adv b n) /\ robj Y (factory E) d c os b e fs n.
Proof.
  intros HE HF Ho Hb. destruct (object_shape lib_classes E HE c old Ho) as (os & -> & Ht).
  destruct (typed_obj_known lib_classes Y c os _ library_conforms Ht) as [L HL].
  destruct (run_all lib_classes Y library_conforms E HE (suppliers_known E HE HF) d c os b Ht) as (e & fs & n & D & R).
  exists os, L, e, fs, n. split; [reflexivity|]. split; [exact HL|]. split; [eapply typed_obj; eauto using library_conforms|].
  split; [apply bk_wf, buf_wf_iff; exact Hb|]. auto.
Qed.
Lemma reads_within b n : bk b -> within b n -> reads b n (adv b n).
Proof.
  intros Hb H. split; [reflexivity|]. destruct H as [->|H]; [auto|right]. unfold char_bytes, cs_limit, capacity in *. destruct (cs_slack b); lia.
Qed.

(* ---- C31 ---- *)
Theorem C31_decode_is_total : forall E d c old b, classes E = lib_classes -> library_suppliers E ->
  object_of E c old = true -> buf_wf b = true ->
  exists e v n b', decode E d old b = (e, v, b') /\ object_of E c v = true /\ reads b n b'
    /\ (e = None \/ e = Some IOOBE \/ e = Some IAE \/ e = Some SOE).
Proof.
  intros E d c old b HE HF Ho Hb. destruct (run E d c old b HE HF Ho Hb) as (os & L & e & fs & n & -> & HL & Hos & Bk & D & R).
  exists e, (VObj c fs), n, (adv b n). split; [exact D|]. split; [|split; [|]].
  - apply (object_intro lib_classes E HE). apply (typed_intro' lib_classes Y library_conforms c c fs L HL).
    eapply (proj2 (proj2 (proj2 (rel_typed lib_classes Y library_conforms (factory E))))); eauto.
  - apply reads_within; auto. eapply (proj2 (proj2 (proj2 (rel_within Y (factory E))))); eauto.
  - eapply (proj2 (proj2 (proj2 (rel_exn Y (factory E))))); eauto.
Qed.

(* bounds on the nesting below a class: 1 for a message of scalars; sub-objects and list elements only, and with the bodies of the
   initial factories (the tables are checked below, nothing else depends on how they were found) *)
Definition static_level (c : string) : nat :=
  if existsb (String.eqb c) (map fst (filter (fun cL => match parts (snd cL) with [] => false | _ => true end) Y)) then 2 else 1.
Definition deep : list (string * nat) := Eval vm_compute in
  let up (lv : string -> nat) := map (fun cL => (fst cL, S (fold_right Nat.max O (map lv (parts (snd cL)
      ++ match assoc (fst cL) lib_factories with Some m => map snd m | None => [] end))))) Y in
  let look (t : list (string * nat)) c := match find c t with Some n => n | None => 1%nat end in
  filter (fun cn => Nat.ltb 1 (snd cn)) (up (look (up (look (up (look [])))))).
Definition lib_level (c : string) : nat := match find c deep with Some n => n | None => 1%nat end.
Lemma find_check {A} (p : string -> A -> bool) l : forallb (fun kv => p (fst kv) (snd kv)) l = true -> forall k a, find k l = Some a -> p k a = true.
Proof.
  induction l as [|[k' a'] l IH]; cbn [forallb find fst snd]; [discriminate|]. intros H k a Hf. apply andb_true_iff in H as [H1 H2].
  destruct (String.eqb_spec k k') as [->|N]; [injection Hf as <-; exact H1|auto].
Qed.
Lemma static_parts c L c' : find c Y = Some L -> In c' (parts L) -> (static_level c' < static_level c)%nat.
Proof.
  intros HL Hi. assert (H : forallb (fun c' => Nat.ltb (static_level c') (static_level c)) (parts L) = true).
  { refine (find_check (fun c L => forallb (fun c' => Nat.ltb (static_level c') (static_level c)) (parts L)) Y _ c L HL). vm_compute. reflexivity. }
  rewrite forallb_forall in H. apply Nat.ltb_lt. auto.
Qed.
Lemma static_range c : (1 <= static_level c <= 2)%nat.
Proof. unfold static_level. destruct (existsb _ _); lia. Qed.
Lemma lib_level_parts c L c' : find c Y = Some L -> In c' (parts L) -> (lib_level c' < lib_level c)%nat.
Proof.
  intros HL Hi. assert (H : forallb (fun c' => Nat.ltb (lib_level c') (lib_level c)) (parts L) = true).
  { refine (find_check (fun c L => forallb (fun c' => Nat.ltb (lib_level c') (lib_level c)) (parts L)) Y _ c L HL). vm_compute. reflexivity. }
  rewrite forallb_forall in H. apply Nat.ltb_lt. auto.
Qed.
Lemma lib_level_body c t c' : factory lib_env c t = Some c' -> (lib_level c' < lib_level c)%nat.
Proof.
  cbn [factory lib_env env_of]. unfold lookup_factory. destruct (assoc c lib_factories) as [m|] eqn:Hm; [|discriminate]. intros Hg.
  apply f_get_in in Hg.
  assert (H : forallb (fun kc => Nat.ltb (lib_level (snd kc)) (lib_level c)) m = true).
  { rewrite assoc_find in Hm. refine (find_check (fun c m => forallb (fun kc : key * string => Nat.ltb (lib_level (snd kc)) (lib_level c)) m) lib_factories _ c m Hm). vm_compute. reflexivity. }
  rewrite forallb_forall in H. apply Nat.ltb_lt. apply (H (t, c') Hg).
Qed.
Lemma lib_level_le c : known Y c = true -> (lib_level c <= 4)%nat.
Proof.
  unfold known. destruct (find c Y) as [L|] eqn:HL; [intros _|discriminate].
  assert (H : Nat.leb (lib_level c) 4 = true).
  { refine (find_check (fun c (_ : layout) => Nat.leb (lib_level c) 4) Y _ c L HL). vm_compute. reflexivity. }
  apply Nat.leb_le. exact H.
Qed.
Lemma initial_suppliers E : classes E = lib_classes -> (forall o t, factory E o t = factory lib_env o t) -> library_suppliers E.
Proof.
  intros HE HF o t c Hf. rewrite HF in Hf. cbn [factory lib_env env_of] in Hf. unfold lookup_factory in Hf.
  destruct (assoc o lib_factories) as [m|] eqn:Hm; [|discriminate]. apply f_get_in in Hf.
  assert (H : forallb (fun kc => known Y (snd kc)) m = true).
  { rewrite assoc_find in Hm. refine (find_check (fun (_ : string) m => forallb (fun kc : key * string => known Y (snd kc)) m) lib_factories _ o m Hm). vm_compute. reflexivity. }
  rewrite forallb_forall in H. specialize (H (t, c) Hf). cbn in H.
  destruct (new_known lib_classes Y library_conforms E HE c H) as (L & _ & -> & Ht). apply (object_intro lib_classes E HE). exact Ht.
Qed.
(* four nested decode calls are enough with the initial factories *)
Theorem C31_nesting_at_most_4 : forall E d c old b e v b', classes E = lib_classes -> (forall o t, factory E o t = factory lib_env o t) ->
  object_of E c old = true -> buf_wf b = true -> (4 <= d)%nat -> decode E d old b = (e, v, b') -> e <> Some SOE.
Proof.
  intros E d c old b e v b' HE HF Ho Hb Hd D.
  destruct (run E d c old b HE (initial_suppliers E HE HF) Ho Hb) as (os & L & e' & fs & n & -> & HL & _ & _ & D' & R).
  rewrite D' in D. injection D as <- _ _.
  refine (proj2 (proj2 (proj2 (rel_depth Y (factory E) lib_level _ lib_level_parts _))) d c os b e' fs n R _).
  - intros c0. unfold lib_level. destruct (find c0 deep) eqn:Ed; [|lia].
    assert (H : Nat.leb 1 n0 = true) by (refine (find_check (fun _ n => Nat.leb 1 n) deep _ c0 n0 Ed); reflexivity). apply Nat.leb_le. exact H.
  - intros c0 L0 t c' _ _ Hf. rewrite HF in Hf. exact (lib_level_body c0 t c' Hf).
  - assert (K : known Y c = true) by (unfold known; rewrite HL; reflexivity). pose proof (lib_level_le c K). lia.
Qed.
(* with any factories, even ones that nest a class in itself, each body costs input *)
Theorem C31_nesting_bounded_by_input : forall E d c old b e v b', classes E = lib_classes -> library_suppliers E ->
  object_of E c old = true -> buf_wf b = true -> 2 + 2 * char_bytes b <= Z.of_nat d -> decode E d old b = (e, v, b') -> e <> Some SOE.
Proof.
  intros E d c old b e v b' HE HF Ho Hb Hd D.
  destruct (run E d c old b HE HF Ho Hb) as (os & L & e' & fs & n & -> & HL & _ & Bk & D' & R).
  rewrite D' in D. injection D as <- _ _.
  refine (proj2 (proj2 (proj2 (rel_budget lib_classes Y library_conforms (factory E) static_level 2 static_range static_parts))) d c os b e' fs n R Bk _).
  pose proof (static_range c). apply buf_wf_iff in Hb. pose proof (wf_ridx _ Hb). pose proof (bk_widx _ Bk).
  unfold left_in, char_bytes, capacity, cs_limit in *. destruct (cs_slack b); lia.
Qed.
Example C31_meets : library_suppliers lib_env /\
  fst (fst (decode lib_env 4 (new_obj lib_env "sample.RootPacket") (wrap_bytes [9; 0; 1]))) = Some IOOBE
  /\ fst (fst (decode lib_env 4 (new_obj lib_env "sample.RootPacket") (wrap_bytes [255; 255; 1; 2; 3; 4; 5]))) = Some IAE
  /\ fst (fst (decode lib_env 4 (new_obj lib_env "sample.RootPacket") (wrap_bytes [4; 0; 1; 2; 3; 4; 5; 6; 7; 8]))) = None.
Proof. split; [apply initial_suppliers; reflexivity|]. vm_compute. repeat split. Qed.

(* ---- C32 ---- *)
Lemma library_sized : sized_lists Y = true. Proof. vm_compute. reflexivity. Qed.
Theorem C32_collections_bounded_by_input : forall E d c old b e v b', classes E = lib_classes -> library_suppliers E ->
  object_of E c old = true -> buf_wf b = true -> decode E d old b = (e, v, b') ->
  exists n, reads b n b' /\ (elems v <= elems old + n)%nat /\ (chars v <= chars old + n)%nat.
Proof.
  intros E d c old b e v b' HE HF Ho Hb D. destruct (run E d c old b HE HF Ho Hb) as (os & L & e' & fs & n & -> & HL & Hos & Bk & D' & R).
  rewrite D' in D. injection D as <- <- <-. exists n. split; [|split].
  - apply reads_within; auto. eapply (proj2 (proj2 (proj2 (rel_within Y (factory E))))); eauto.
  - pose proof (proj2 (proj2 (proj2 (rel_elems lib_classes Y library_conforms library_sized (factory E)))) d c os b e' fs n R Bk L HL). cbn [elems]. lia.
  - pose proof (proj2 (proj2 (proj2 (rel_chars Y (factory E)))) d c os b e' fs n R Bk). cbn [Sizes.chars]. lia.
Qed.
(* a new object holds nothing to begin with *)
Theorem C32_new_objects : forall E c v, classes E = lib_classes -> object_of E c v = true -> elems (new_obj E c) = O /\ chars (new_obj E c) = O.
Proof.
  intros E c v HE Hv. rewrite (new_blank lib_classes Y library_conforms E HE). unfold blank_obj. destruct (find c Y) as [L|]; [|auto].
  cbn [elems Sizes.chars]. rewrite (sum_blank elems L elems_blank), (sum_blank Sizes.chars L chars_blank). auto.
Qed.
Example C32_meets :
  (* a prefix announcing 32767 elements in front of 6 bytes *)
  let '(e, v, b') := decode lib_env 4 (new_obj lib_env "sample.SubPacket") (wrap_bytes ([0; 0; 0; 0] ++ [255; 127] ++ [1; 0; 2; 0; 3; 0])) in
  e = Some IOOBE /\ elems v = 3%nat /\ ridx b' = 12%nat.
Proof. vm_compute. repeat split. Qed.

(* ---- C33 ---- *)
(* any bytes: the fixed-width fields before the body are read and assigned, then the exception *)
Theorem C33_unknown_tag : forall E d c pre f k post fs b, classes E = lib_classes ->
  find c Y = Some (pre ++ (f, WBody k) :: post) -> flat pre = true -> object_of E c (VObj c fs) = true -> buf_wf b = true ->
  (total_width pre <= List.length (readable b))%nat ->
  (forall t, key_of (get k (parse pre (readable b))) = Some t -> factory E c t = None) ->
  exists b', decode E (S d) (VObj c fs) b = (Some IAE, VObj c (parse pre (readable b) ++ skipn (List.length pre) fs), b')
    /\ advanced b (total_width pre) b'.
Proof.
  intros E d c pre f k post fs b HE HL Hfl Ho Hb Hw Ht. apply buf_wf_iff in Hb.
  destruct (object_shape lib_classes E HE c _ Ho) as (fs' & [= <-] & Hty).
  pose proof (typed_obj lib_classes Y c fs _ _ library_conforms HL Hty) as Hf. pose proof (fields_ok_names lib_classes _ _ Hf) as N.
  destruct (split_names fs _ pre ((f, WBody k) :: post) N eq_refl) as (o1 & o2 & -> & N1 & N2 & E2).
  destruct o2 as [|[g ov] o2]; [discriminate|]. cbn [map fst] in N2. injection N2 as -> N2.
  pose proof (conforms_ok lib_classes Y c _ library_conforms HL) as Hok.
  rewrite (decode_obj lib_classes Y library_conforms E HE d c _ _ b HL), compile_dec_app, exec_dec_app.
  pose proof (exec_flat Y E d (factory E c) pre [] ((f, WBody k) :: post) [] o1 ((f, ov) :: o2) b Hok eq_refl Hfl N1 Hb Hw) as X.
  cbn [app] in X. rewrite X. rewrite unknown_body; auto.
  - eexists. split; [rewrite <- E2; reflexivity|reflexivity].
  - rewrite (existsb_names k _ pre (parse_names pre _)).
    assert (Hk : forall seen P, ok_fields Y seen (P ++ (f, WBody k) :: post) = true -> existsb (fun fw => String.eqb k (fst fw)) (seen ++ P) = true).
    { intros seen P. revert seen. induction P as [|[h w] P IHP]; intros seen Hk; cbn [app] in Hk; apply ok_field_of in Hk as (_ & _ & Hk & Hkey).
      - rewrite app_nil_r. destruct (find k seen) eqn:Ek; [|contradiction]. eapply find_in; eauto.
      - specialize (IHP _ Hk). rewrite <- app_assoc in IHP. exact IHP. }
    exact (Hk [] pre Hok).
Qed.
(* every class with a body but one is covered *)
Fixpoint body_split (L : layout) : layout * layout :=
  match L with
  | [] => ([], [])
  | (f, WBody k) :: L' => ([], L)
  | fw :: L' => let '(p, q) := body_split L' in (fw :: p, q)
  end.
Theorem C33_covers : forall c L, find c Y = Some L -> has_body L = true -> c <> "bjse.QuoteResponse"%string ->
  exists pre f k post, L = pre ++ (f, WBody k) :: post /\ flat pre = true.
Proof.
  intros c L HL Hb Hc.
  assert (S : L = fst (body_split L) ++ snd (body_split L) /\ match snd (body_split L) with (_, WBody _) :: _ => True | _ => has_body L = false end).
  { clear. induction L as [|[f w] L [IH1 IH2]]; [split; reflexivity|].
    destruct w; cbn [body_split]; try (destruct (body_split L) as [p q]; cbn [fst snd] in *; split; [rewrite IH1 at 1; reflexivity|]; destruct q as [|[g [] ] q]; auto).
    cbn. auto. }
  destruct S as [S1 S2]. destruct (snd (body_split L)) as [|[f [] ] post] eqn:Eq; try (rewrite S2 in Hb; discriminate).
  exists (fst (body_split L)), f, key, post. split; [exact S1|].
  assert (H : negb (has_body L) || String.eqb c "bjse.QuoteResponse" || flat (fst (body_split L)) = true).
  { refine (find_check (fun c L => negb (has_body L) || String.eqb c "bjse.QuoteResponse" || flat (fst (body_split L))) Y _ c L HL). vm_compute. reflexivity. }
  rewrite Hb in H. destruct (String.eqb_spec c "bjse.QuoteResponse"); [contradiction|]. exact H.
Qed.

(* all classes: the bytes are those of some values vs of the fields before the body *)
Theorem C33_unknown_tag_after_values : forall E d c pre f k post vs fs b rest t, classes E = lib_classes ->
  find c Y = Some (pre ++ (f, WBody k) :: post) -> has_body pre = false ->
  object_of E c (VObj c fs) = true -> object_of E c (VObj c vs) = true -> buf_wf b = true ->
  let vpre := firstn (List.length pre) vs in
  let bytes := concat2 (fun fv fw => ser Y (snd fv) (snd fw)) vpre pre in
  all2 (fun fv fw => parsable Y (factory E) (snd fv) (snd fw)) vpre pre = true -> (nesting (VObj c vpre) <= S d)%nat ->
  tag k vpre pre = Some t -> factory E c t = None -> readable b = bytes ++ rest ->
  exists ws b', decode E (S d) (VObj c fs) b = (Some IAE, VObj c (ws ++ skipn (List.length pre) fs), b')
    /\ advanced b (List.length bytes) b' /\ map fst ws = map fst pre
    /\ forall g w, find g pre = Some w -> get g ws = absorb Y (get g fs) (get g vs) w.
Proof.
  intros E d c pre f k post vs fs b rest t HE HL Hnb Ho Hv Hb vpre bytes Hp Hn Ht Hft Hr. apply buf_wf_iff in Hb.
  destruct (object_shape lib_classes E HE c _ Ho) as (fs' & [= <-] & Hty). destruct (object_shape lib_classes E HE c _ Hv) as (vs' & [= <-] & Htv).
  pose proof (typed_obj lib_classes Y c fs _ _ library_conforms HL Hty) as Hf. pose proof (typed_obj lib_classes Y c vs _ _ library_conforms HL Htv) as Hfv.
  destruct (fields_ok_split lib_classes _ _ _ Hf) as (o1 & o2 & -> & Hf1 & Hf2). destruct (fields_ok_split lib_classes _ _ _ Hfv) as (v1 & v2 & -> & Hv1 & Hv2).
  assert (L1 : List.length o1 = List.length pre) by (apply (fields_ok_length lib_classes); auto).
  assert (L2 : List.length v1 = List.length pre) by (apply (fields_ok_length lib_classes); auto).
  assert (Ev : vpre = v1) by (unfold vpre; rewrite <- L2, firstn_app, Nat.sub_diag, firstn_all, app_nil_r; reflexivity).
  subst bytes. rewrite Ev in *. clear vpre Ev.
  destruct o2 as [|[g ov] o2]; [discriminate|]. apply fields_ok_cons in Hf2 as (-> & _ & _).
  pose proof (conforms_ok lib_classes Y c _ library_conforms HL) as Hok.
  assert (Hpar : par_fs Y E c v1 pre v1 pre = true).
  { unfold par_fs. revert Hp Hnb. generalize v1 at 1 3 as a. generalize pre at 1 2 4 as A. intros A a. revert a.
    induction A as [|[h w] A IH]; intros [|[h' x] a]; auto. cbn [all2 snd]. intros Q1 Q2. apply andb_true_iff in Q1 as [-> Q1].
    cbn [has_body existsb snd] in Q2. apply orb_false_iff in Q2 as [Q2 Q3]. fold (has_body A) in Q3. rewrite (IH a Q1 Q3). destruct w; auto. discriminate Q2. }
  rewrite (decode_obj lib_classes Y library_conforms E HE d c _ _ b HL), compile_dec_app, exec_dec_app.
  destruct (dec_prefix lib_classes Y library_conforms E HE d c v1 pre pre ((f, WBody k) :: post) [] [] v1 [] o1 ((f, ov) :: o2) b rest) as [X T]; auto.
  { intros k0. exact I. }
  { cbn [nesting] in Hn. lia. }
  cbn [app] in X, T. rewrite X.
  assert (Na : map fst (absorb_fields Y v1 pre o1) = map fst pre).
  { rewrite (absorb_fields_names Y v1 pre o1) by auto. apply (fields_ok_names lib_classes). exact Hv1. }
  assert (Hkey : existsb (fun fw => String.eqb k (fst fw)) pre = true).
  { assert (Hk : forall seen P, ok_fields Y seen (P ++ (f, WBody k) :: post) = true -> existsb (fun fw => String.eqb k (fst fw)) (seen ++ P) = true).
    { intros seen P. revert seen. induction P as [|[h w] P IHP]; intros seen Hk; cbn [app] in Hk; apply ok_field_of in Hk as (_ & _ & Hk & Hkey).
      - rewrite app_nil_r. destruct (find k seen) eqn:Ek; [|contradiction]. eapply find_in; eauto.
      - specialize (IHP _ Hk). rewrite <- app_assoc in IHP. exact IHP. }
    exact (Hk [] pre Hok). }
  rewrite unknown_body; auto.
  - exists (absorb_fields Y v1 pre o1). eexists. split; [|split; [|split]].
    + rewrite <- L1, skipn_app, Nat.sub_diag, skipn_all. reflexivity.
    + reflexivity.
    + exact Na.
    + intros g w Hg.
      assert (G : forall o1 v1 P, map fst o1 = map fst P -> map fst v1 = map fst P -> find g P = Some w ->
        get g (absorb_fields Y v1 P o1) = absorb Y (get g o1) (get g v1) w).
      { clear. induction o1 as [|[a x] o1 IH]; intros [|[a' y] v1] [|[a'' u] P] N1 N2 Hg; try discriminate. cbn [map fst] in N1, N2. injection N1 as -> N1. injection N2 as -> N2.
        cbn [absorb_fields get find] in *. destruct (String.eqb g a''); [injection Hg as ->; auto|]. apply IH; auto. }
      pose proof (find_in _ _ _ Hg) as Hin.
      rewrite !get_app.
      * apply (G o1 v1 pre); auto; apply (fields_ok_names lib_classes); auto.
      * rewrite (existsb_names g v1 pre (fields_ok_names lib_classes _ _ Hv1)). exact Hin.
      * rewrite (existsb_names g o1 pre (fields_ok_names lib_classes _ _ Hf1)). exact Hin.
  - rewrite (existsb_names k _ pre Na). exact Hkey.
  - intros t' Hk'. specialize (T k).
    assert (Hfmt : match find k pre with Some (WInt _ _) | Some (WFix _ _ _) => True | _ => False end).
    { assert (Hk : forall seen P, ok_fields Y seen (P ++ (f, WBody k) :: post) = true -> match find k (seen ++ P) with Some (WInt _ _) | Some (WFix _ _ _) => True | _ => False end).
      { intros seen P. revert seen. induction P as [|[h w] P IHP]; intros seen Hk; cbn [app] in Hk; apply ok_field_of in Hk as (_ & _ & Hk & Hk2).
        - rewrite app_nil_r. exact Hk2.
        - specialize (IHP _ Hk). rewrite <- app_assoc in IHP. exact IHP. }
      exact (Hk [] pre Hok). }
    destruct (find k pre) as [[]|]; try contradiction; congruence.
Qed.
Theorem C33_values_cover_all : forall c L, find c Y = Some L -> has_body L = true ->
  exists pre f k post, L = pre ++ (f, WBody k) :: post /\ has_body pre = false.
Proof.
  intros c L _. induction L as [|[f w] L IH]; [discriminate|]. intros H. destruct w; try (destruct (IH H) as (pre & g & k & post & -> & Q);
    match goal with |- context [(f, ?u) :: _] => exists ((f, u) :: pre), g, k, post; split; [reflexivity|exact Q] end).
  exists [], f, key, L. split; reflexivity.
Qed.
Example C33_meets :
  let old := build "sse.SseBinary" [("msgSeqNum", VInt 1); ("body", s_logon); ("checksum", VInt 77)]%string in
  object_of lib_env "sse.SseBinary" old = true
  /\ (let '(e, v, b') := decode lib_env 2 old (wrap_bytes [0; 0; 0; 200; 0; 0; 0; 0; 0; 0; 0; 9; 0; 0; 0; 5; 1; 2; 3]) in
      e = Some IAE /\ field "msgType" v = VInt 200 /\ field "msgSeqNum" v = VInt 9 /\ field "msgBodyLen" v = VInt 5
      /\ field "body" v = s_logon /\ field "checksum" v = VInt 77 /\ ridx b' = 16%nat).
Proof. vm_compute. repeat split. Qed.

Print Assumptions C31_decode_is_total.
Print Assumptions C31_nesting_at_most_4.
Print Assumptions C31_nesting_bounded_by_input.
Print Assumptions C32_collections_bounded_by_input.
Print Assumptions C32_new_objects.
Print Assumptions C33_unknown_tag.
Print Assumptions C33_covers.
Print Assumptions C33_unknown_tag_after_values.
Print Assumptions C33_values_cover_all.
