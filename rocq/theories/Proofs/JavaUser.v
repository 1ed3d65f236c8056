(* Running encode of the library's text on messages with objects of users' classes, inside a larger program. *)
From Coq Require Import ZArith List Bool String Ascii Lia.
From Verif.Model Require Import JavaPrim ByteBuf Checksum Utf8 Codec Ast Interp Factory Show Heap HeapOpen Library.
From Verif.Proofs Require Import HeapEq DecodeInv JavaDecode.
From Verif.Spec Require Import Bytes Wire Sharing JavaState JavaRun JavaWorld JavaUser.
From Verif.Props Require Import HeapProps HeapMoreProps.
From Verif.Proofs Require Import BytesFacts HeapFacts HeapOwn HeapFrame HeapTypes HeapEncTypes HeapCycle JavaSem JavaEncode JavaClasses JavaLibrary JavaServices JavaRegistry JavaNames JavaEmbed HeapOpenFacts.
From Verif.Java Require Import Lex Syntax Source Sources Sem CodecTrees Init Program.
Import ListNotations.
Open Scope Z_scope.
Open Scope list_scope.

Definition find_user (us : list body_class) (c : string) : option body_class := List.find (fun u => String.eqb (bc_name u) c) us.
Definition encode_of (us : list body_class) (c : string) : option user_encode := option_map bc_encode (find_user us c).

Lemma assoc_mid {A} x (l1 l2 : list (string * A)) : assoc x (l1 ++ l2) = match assoc x l1 with Some v => Some v | None => assoc x l2 end.
Proof. induction l1 as [|[k v] l1 IH]; cbn; [reflexivity|]. destruct (String.eqb x k); auto. Qed.
Lemma lib_names_known c cd : assoc c lib_classes = Some cd -> library_name c = true.
Proof.
  intros A. assert (K : forallb (fun x => library_name (fst x)) lib_classes = true) by (vm_compute; reflexivity). rewrite forallb_forall in K.
  assert (I : In (c, cd) lib_classes) by (revert A; generalize lib_classes; clear; induction l as [|[k v] l IH]; cbn; [discriminate|]; destruct (String.eqb_spec c k) as [->|]; [intros [= ->]; auto|auto]). exact (K _ I).
Qed.
Lemma find_as_class us c : assoc c (map as_class us) = option_map (fun u => snd (as_class u)) (find_user us c).
Proof. unfold find_user. induction us as [|u us IH]; cbn; [reflexivity|]. rewrite String.eqb_sym. destruct (String.eqb (bc_name u) c); [reflexivity|exact IH]. Qed.
Lemma find_user_in us c u : find_user us c = Some u -> In u us /\ bc_name u = c.
Proof. intros H. apply find_some in H. destruct H as [I Q]. split; [exact I|]. now apply String.eqb_eq. Qed.

Section Users.
  Variable P : program.
  Variable ext : list (string * jval).
  Hypothesis EX : extends P.
  Hypothesis FO : foreign ext.
  Variable stat : list (string * jval).
  Variable R : cache.
  Variable W : factories.
  Variable V : list (string * Z).
  Hypothesis AG : agrees stat R W V.
  Let E := env_of lib_classes W R.
  Variable us : list body_class.
  Let E2 : env := {| classes := with_users us; factory := factory E; checksum := checksum E |}.
  Let stat' := stat ++ ext.
  Hypothesis WD : world E stat.

  Lemma lib_cls c d : assoc c lib_program = Some d -> library_name c = true /\ plain_class d = true.
  Proof. apply library_class. Qed.
  Lemma name_is_known c : library_name c = true -> known c = true. Proof. intros H. unfold known. now rewrite H. Qed.
  Lemma stat_off x : assoc x stat = None -> assoc x ext = None -> assoc x stat' = None.
  Proof. intros A B. unfold stat'. rewrite assoc_mid, A. exact B. Qed.
  Lemma stat_on x v : assoc x stat = Some v -> assoc x stat' = Some v.
  Proof. intros A. unfold stat'. now rewrite assoc_mid, A. Qed.
  Lemma is_class_in c x q : library_name c = true -> dotless x = true -> is_class lib_program stat c x q -> is_class P stat' c x q.
  Proof.
    intros LN DL (F & A & (d & D & Cn) & Rs). pose proof (name_is_known c LN) as KN. split; [|split; [|split]].
    - rewrite (field_ty_same P lib_program EX) by exact KN. exact F.
    - apply stat_off; [exact A|]. apply (proj1 FO). exact LN.
    - exists d. split; [|exact Cn]. rewrite (EX c KN). exact D.
    - rewrite (proj1 (resolve_same P lib_program EX c x DL LN)). exact Rs.
  Qed.
  Lemma codec_in c d : In (c, d) codec_classes -> assoc c P = Some d.
  Proof. intros I. rewrite EX; [apply codec_class, I|]. apply name_is_known. apply (proj1 (lib_cls c d (codec_class c d I))). Qed.
  Lemma base_in : base_env E2 P stat'.
  Proof.
    split.
    - rewrite EX by reflexivity. apply absent. cbn. tauto.
    - rewrite EX by reflexivity. apply absent. cbn. tauto.
    - apply codec_in. cbn. tauto.
    - apply stat_off; [apply (stat_none E stat WD), registry_instance|]. apply (proj2 FO "ChecksumServiceFactory"%string "INSTANCE"%string); reflexivity.
    - destruct (ag_cache _ _ _ _ AG) as (m & Q & H). exists m. split; [apply stat_on, Q|]. intros a. specialize (H a). cbn [E2 checksum E env_of]. unfold get_service. destruct (cache_get R a) as [sv|]; cbn [option_map]; [|exact H].
      destruct H as (v & Hv & IS). exists v. split; [exact Hv|]. apply computes_in; [exact codec_in|apply stat_on, AG|apply stat_on, AG|exact IS].
  Qed.
  Lemma class_in c cd : assoc c lib_classes = Some cd -> class_env P stat' c cd.
  Proof.
    intros Hc. pose proof (lib_names_known c cd Hc) as LN. pose proof (name_is_known c LN) as KN. pose proof (lib_class_env E stat WD c cd Hc) as [F T U M C S].
    split; try (apply is_class_in; [exact LN|reflexivity|assumption]).
    - intros f. rewrite (field_ty_same P lib_program EX) by exact KN. apply F.
    - intros m n Hn. rewrite (find_method_same P lib_program EX lib_cls) by exact KN. apply T, Hn.
  Qed.
  Lemma encode_in c cd : assoc c lib_classes = Some cd ->
    fine_enc (c_fields cd) [] (c_enc cd) = true /\ forallb jfine_estmt (c_enc cd) = true
    /\ exists flip, find_method P c "encode" 1 = Some ([(T0 "ByteBuf", "byteBuf"%string)], flat_map (j_estmt flip) (c_enc cd)).
  Proof.
    intros Hc. assert (HE : classes E = lib_classes) by reflexivity. split; [exact (lib_fine_enc E HE c cd Hc)|]. split; [exact (checked E stat WD c cd Hc _ library_estmts)|].
    destruct (JavaLibrary.file E stat WD c cd Hc) as (sc & nested & FC & IF). exists (sc_flip sc). rewrite (find_method_same P lib_program EX lib_cls) by (apply name_is_known, (lib_names_known c cd Hc)). exact (m_encode c cd Hc sc nested IF).
  Qed.

  Variable pr : printers.
  Variable k : nat.
  Hypothesis Hk : 2 ^ 31 <= Z.of_nat k.
  Hypothesis WF : written_for P pr (S (S (S (S k)))) stat' us.
  Let U := encode_of us.
  Lemma user_base c cd : find_class E c = Some cd -> find_class E2 c = Some cd.
  Proof. unfold find_class. cbn [E E2 env_of classes]. unfold with_users. rewrite assoc_mid. now intros ->. Qed.
  Lemma user_rest c cd : find_class E2 c = Some cd -> find_class E c = None -> c_enc cd = [].
  Proof. unfold find_class. cbn [E E2 env_of classes]. unfold with_users. rewrite assoc_mid. intros A B. rewrite B, find_as_class in A. destruct (find_user us c); [|discriminate]. injection A as <-. reflexivity. Qed.
  Lemma fine_lib c cd : find_class E c = Some cd -> fine_enc (c_fields cd) [] (c_enc cd) = true. Proof. intros H. apply (encode_in c cd H). Qed.
  Lemma user_sane c u fs b : U c = Some u -> okb b -> okb (snd (u fs b)).
  Proof. unfold U, encode_of. destruct (find_user us c) as [x|] eqn:F; [|discriminate]. intros [= <-] OB. exact (wf_sane _ _ _ _ _ WF x fs b (proj1 (find_user_in us c x F)) OB). Qed.
  Lemma flat_fields h fs fts : Forall2 (fun fv ft => fst fv = fst ft /\ fits h (snd fv) (snd ft)) fs fts -> forallb (fun ft : string * ftype => simple_type (snd ft)) fts = true -> forallb (fun fv => is_flat (snd fv)) fs = true.
  Proof.
    induction 1 as [|[f v] [f' t] fs fts [_ F] _ IH]; cbn; [reflexivity|]. intros H. apply andb_true_iff in H. destruct H as [H1 H2]. rewrite (IH H2), andb_true_r. cbn in F. destruct t; try discriminate H1; destruct v; try reflexivity; destruct F.
  Qed.
  Theorem java_encode_open d : forall h l b L, heap_ok (with_users us) h -> small h -> okb b -> (exists c fs, nth_error h l = Some (CObj c fs)) ->
    vcalls P pr (S (S (S (S k)))) d "encode" l [JBuf] (mk stat' h b L) = (let '(e, h', b') := hencode_open U E d h (HRef l) b in ends e JVoid (mk stat' h' b' L)).
  Proof.
    induction d as [|d IH]; intros h l b L OK SM OB (c & fs & Hl); [reflexivity|]. cbn [hencode_open]. rewrite Hl. destruct (OK l c fs Hl) as (cd & Hc & FT).
    unfold find_class at 1. cbn [E env_of classes]. unfold with_users in Hc. rewrite assoc_mid in Hc. destruct (assoc c lib_classes) as [cd'|] eqn:A.
    - injection Hc as ->. cbn [vcalls]. cbn [mk s_h]. rewrite Hl. destruct (encode_in c cd A) as (F & J & flip & FM). erewrite run_eq by exact FM. cbn [bind_params conv bind].
      assert (LO : locs_ok [] [("byteBuf"%string, (T0 "ByteBuf", JBuf))]).
      { split; [split; [reflexivity|]|intros x i H; discriminate H]. cbn. intuition subst; reflexivity. }
      assert (Hc2 : assoc c (classes E2) = Some cd) by (apply (user_base c cd A)).
      pose proof (okb_open E U d user_sane) as Q1. pose proof (calm_open E E2 U user_base fine_lib d) as Q2. pose proof (still_open E E2 U user_base fine_lib d) as Q3.
      pose proof (class_in c cd A) as Q4. pose proof base_in as Q5. assert (Q6 : forall h b, hencode_open U E d h HNull b = (Some NPE, h, b)) by (intros; destruct d; reflexivity).
      pose proof (ex_stmts E2 P pr (vcalls P pr (S (S (S (S k)))) d) k stat' (hencode_open U E d) Hk Q5 Q1 IH Q6 c cd l Q4 Q2 Q3 Hc2 flip (c_enc cd) h [] b _ fs OK SM OB Hl F J LO) as WW.
      cbn [E2 checksum] in WW. destruct (hexec_enc (hencode_open U E d) (checksum E) l (c_enc cd) (h, [], b)) as [e [[h' loc'] b']]. unfold set_loc. cbn [s_h s_b s_loc s_stat mk]. cbn [map List.rev List.app].
      change {| s_h := h; s_b := b; s_loc := _; s_stat := stat' |} with (mk stat' h b [("byteBuf"%string, (T0 "ByteBuf", JBuf))]).
      destruct e as [e|]; cbn [lands] in WW; [destruct WW as (L' & ->)|destruct WW as (L' & -> & _)]; reflexivity.
    - rewrite find_as_class in Hc. unfold U, encode_of. destruct (find_user us c) as [u|] eqn:FU; [|discriminate]. injection Hc as <-. cbn [option_map]. destruct (find_user_in us c u FU) as [I <-].
      rewrite (flat_fields h fs _ FT (wf_simple _ _ _ _ _ WF u I)). pose proof (wf_java _ _ _ _ _ WF u d h l fs b L I OK OB Hl) as J. unfold mk. rewrite J. destruct (bc_encode u (own_fields fs) b) as [[x|] b']; reflexivity.
  Qed.
End Users.

(* ---------- decode ---------- *)
Definition find_codec (us : list user_codec) (c : string) : option user_codec := List.find (fun u => String.eqb (bc_name (cc_body u)) c) us.
Definition decode_of (us : list user_codec) (c : string) : option user_decode := option_map cc_decode (find_codec us c).
Lemma find_codec_in us c u : find_codec us c = Some u -> In u us /\ bc_name (cc_body u) = c.
Proof. intros H. apply find_some in H. destruct H as [I Q]. split; [exact I|]. now apply String.eqb_eq. Qed.
Lemma find_bodies us c : find_user (bodies us) c = option_map cc_body (find_codec us c).
Proof. unfold find_user, find_codec, bodies. induction us as [|u us IH]; cbn; [reflexivity|]. destruct (String.eqb (bc_name (cc_body u)) c); [reflexivity|exact IH]. Qed.
Lemma intact_bk b : intact b <-> bk b.
Proof. split; [intros (A & B & C); split; auto|intros [A B C]; split; auto]. Qed.
Definition dot_stmt (s : dstmt) : bool :=
  match s with
  | DList _ _ _ (YObj c) | DNewIfNull _ c => dotless (simple c)
  | DCreate f _ => dotless (factory_name f)
  | _ => true
  end.
Lemma library_dots : lib_all (fun cd => forallb dot_stmt (c_dec cd)) = true.
Proof. vm_compute. reflexivity. Qed.

Section Decoders.
  Variable P : program.
  Variable ext : list (string * jval).
  Hypothesis EX : extends P.
  Hypothesis FO : foreign ext.
  Variable stat : list (string * jval).
  Variable R : cache.
  Variable W : factories.
  Variable V : list (string * Z).
  Hypothesis AG : agrees stat R W V.
  Let E := env_of lib_classes W R.
  Variable us : list user_codec.
  Let E2 : env := {| classes := with_users (bodies us); factory := factory E; checksum := checksum E |}.
  Let stat' := stat ++ ext.
  Hypothesis WD : world E stat.
  Variable pr : printers.
  Variable k : nat.
  Hypothesis Hk : 2 ^ 31 <= Z.of_nat k.
  Hypothesis RF : read_for P pr (S (S (S (S k)))) stat' us.
  Hypothesis SU : supplied us W.
  Let U := decode_of us.

  Lemma in_E2 c cd : find_class E2 c = Some cd -> assoc c lib_classes = Some cd \/ (assoc c lib_classes = None /\ exists u, find_codec us c = Some u /\ cd = snd (as_class (cc_body u))).
  Proof.
    unfold find_class. cbn [E2 classes]. unfold with_users. rewrite assoc_mid. destruct (assoc c lib_classes) as [cd'|] eqn:A; [intros [= ->]; auto|]. rewrite find_as_class, find_bodies.
    destruct (find_codec us c) as [u|]; [|discriminate]. intros [= <-]. right. eauto.
  Qed.
  Lemma flat_open c cd : find_class E2 c = Some cd -> forallb (fun ft => flat_type (snd ft)) (c_fields cd) = true.
  Proof.
    intros H. destruct (in_E2 c cd H) as [A|(_ & u & F & ->)]; [exact (lib_flat E eq_refl c cd A)|]. pose proof (wf_simple _ _ _ _ _ (rf_written _ _ _ _ _ RF) (cc_body u)) as S.
    destruct (find_codec_in us c u F) as [I _]. specialize (S (List.in_map cc_body us u I)). cbn [as_class snd c_fields]. rewrite forallb_forall in *. intros ft Hf. specialize (S ft Hf). destruct (snd ft); try reflexivity; discriminate S.
  Qed.
  Lemma nodup_open c cd : find_class E2 c = Some cd -> NoDup (map fst (c_fields cd)).
  Proof. intros H. destruct (in_E2 c cd H) as [A|(_ & u & F & ->)]; [exact (lib_nodup E eq_refl c cd A)|]. exact (rf_fields _ _ _ _ _ RF u (proj1 (find_codec_in us c u F))). Qed.
  Lemma fine_open c cd : find_class E2 c = Some cd -> forallb (fine_dstmt (c_fields cd)) (c_dec cd) = true.
  Proof. intros H. destruct (in_E2 c cd H) as [A|(_ & u & F & ->)]; [exact (lib_fine E eq_refl c cd A)|reflexivity]. Qed.
  Lemma makes_open : makes E2 P.
  Proof.
    intros c cd H. destruct (in_E2 c cd H) as [A|(_ & u & F & ->)].
    - destruct (lib_makes E stat WD c cd A) as (d & D & Sd & M). exists d. split; [|auto]. rewrite EX by (apply name_is_known, (lib_names_known c cd A)). exact D.
    - destruct (find_codec_in us c u F) as [I <-]. exact (rf_class _ _ _ _ _ RF u I).
  Qed.
  Lemma made_open : made E2.
  Proof. intros c kk c' Q. exact (SU c kk c' Q). Qed.
  Lemma jfine_open c cd : assoc c lib_classes = Some cd -> forallb (jfine_dstmt P E2 (classes_named cd) c (c_fields cd)) (c_dec cd) = true /\ mem "byteBuf" (classes_named cd) = false /\ mem "i" (classes_named cd) = false.
  Proof.
    intros A. destruct (lib_jfine E stat WD c cd A) as (J & M). split; [|exact M]. pose proof (lib_all_ok _ library_dots c cd A) as D. cbn beta in D. rewrite forallb_forall in *. intros s I. specialize (J s I). specialize (D s I).
    assert (KN : forall c', dotless (simple c') = true -> JavaDecode.known lib_program E c c' = true -> JavaDecode.known P E2 c c' = true).
    { intros c' DL K. unfold JavaDecode.known in *. rewrite (proj1 (resolve_same P lib_program EX c (simple c') DL (lib_names_known c cd A))). apply andb_true_iff in K. destruct K as [-> K]. destruct (find_class E c') as [cd'|] eqn:F; [|discriminate]. assert (Q : find_class E2 c' = Some cd') by exact (user_base R W (bodies us) c' cd' F). rewrite Q. reflexivity. }
    destruct s; cbn [jfine_dstmt dot_stmt] in *; auto. apply andb_true_iff in J. destruct J as [J1 J2]. rewrite J1. match goal with |- context[jfine_delem _ _ _ _ _ ?y] => destruct y end; cbn [jfine_delem] in *; auto.
    apply andb_true_iff in J2. destruct J2 as [J2 J3]. rewrite J2, (KN _ D J3). reflexivity.
  Qed.
  Lemma creates_in c own f kf : library_name c = true -> dotless (factory_name f) = true -> creates E2 lib_program stat c own f kf -> creates E2 P stat' c own f kf.
  Proof.
    intros LN DL (N & M & H). pose proof (name_is_known c LN) as KN. split; [exact N|]. split; [exact M|].
    assert (HO : forall q mp, JavaDecode.holds E2 lib_program stat c q mp -> JavaDecode.holds E2 P stat' c q mp).
    { intros q mp (m & Q & H'). exists m. split; [exact (stat_on ext stat _ _ Q)|exact H']. }
    destruct own.
    - destruct H as (A & B & kt & PR & FM). split; [rewrite (field_ty_same P lib_program EX) by exact KN; exact A|]. split; [apply HO, B|]. exists kt. split; [exact PR|]. rewrite (find_method_same P lib_program EX lib_cls) by exact KN. exact FM.
    - destruct H as (q & d & kt & IC & D & G & S & CS & HM & PR & FM). destruct (lib_cls q d D) as [LQ _]. pose proof (name_is_known q LQ) as KQ. exists q, d, kt.
      split; [exact (is_class_in P ext EX FO stat c (factory_name f) q LN DL IC)|]. split; [rewrite (EX q KQ); exact D|]. split; [rewrite (find_method_same P lib_program EX lib_cls) by exact KQ; exact G|].
      split; [apply stat_off; [exact S|apply (proj1 FO), LQ]|]. split; [exact CS|]. split; [apply HO, HM|]. split; [exact PR|]. rewrite (find_method_same P lib_program EX lib_cls) by exact KQ. exact FM.
  Qed.
  Lemma decode_in c cd : assoc c lib_classes = Some cd -> exists own, (forall f kf, In (DCreate f kf) (c_dec cd) -> creates E2 P stat' c own f kf)
    /\ find_method P c "decode" 1 = Some ([(T0 "ByteBuf", "byteBuf"%string)], flat_map (j_dstmt own) (c_dec cd)).
  Proof.
    intros A. destruct (JavaLibrary.file E stat WD c cd A) as (sc & nested & FC & IF). pose proof (lib_names_known c cd A) as LN. exists (is_own (sc_form sc)). split.
    - intros f kf I. pose proof (lib_all_ok _ library_dots c cd A) as D. cbn beta in D. rewrite forallb_forall in D. specialize (D _ I). cbn [dot_stmt] in D.
      apply creates_in; [exact LN|exact D|]. exact (lib_creates E stat WD c cd A sc nested E2 eq_refl made_open FC IF f kf I).
    - rewrite (find_method_same P lib_program EX lib_cls) by (apply name_is_known, LN). exact (m_decode c cd A sc nested IF).
  Qed.
  Lemma typed_in h fs fts : forallb (fun ft : string * ftype => simple_type (snd ft)) fts = true -> Forall2 (fun fv ft => fst fv = fst ft /\ fits h (snd fv) (snd ft)) fs fts -> typed_values fts (own_fields fs).
  Proof.
    intros S. induction 1 as [|[f v] [f' t] fs fts [N F] _ IH]; cbn in *; [constructor|]. apply andb_true_iff in S. destruct S as [S1 S2]. constructor; [|apply IH, S2]. cbn. split; [exact N|].
    destruct t; try discriminate S1; destruct v; try contradiction; auto.
  Qed.
  Lemma typed_flat fts hs : typed_values fts hs -> forallb (fun gv => is_flat_val (snd gv)) hs = true /\ map fst hs = map fst fts.
  Proof. unfold typed_values. induction 1 as [|[f v] [f' t] hs fts' (N & Fl & _) _ [I1 I2]]; cbn in *; [auto|]. rewrite Fl, I1, N, I2. auto. Qed.
  Lemma typed_same fts fs gs : typed_values fts fs -> typed_values fts gs -> same_fields fs gs = true.
  Proof.
    intros A B. destruct (typed_flat fts fs A) as [_ N1], (typed_flat fts gs B) as [N2 N3]. unfold same_fields. rewrite N2, N1, N3. destruct (list_eq_dec string_dec (map fst fts) (map fst fts)) as [_|NE]; [reflexivity|destruct (NE eq_refl)].
  Qed.
  Lemma users_typed : typed_users E E2 U.
  Proof.
    intros c u fs b cd N H HU Hb F. destruct (in_E2 c cd H) as [A|(_ & x & FC & ->)]; [unfold find_class in N; cbn [E env_of classes] in N; congruence|].
    unfold U, decode_of in HU. rewrite FC in HU. injection HU as <-. destruct (find_codec_in us c x FC) as [I _].
    pose proof (rf_typed _ _ _ _ _ RF x fs b I (proj2 (intact_bk b) Hb) F) as Q. destruct (cc_decode x fs b) as [[e gs] b']. destruct Q as [Q1 Q2]. split; [exact Q1|apply intact_bk, Q2].
  Qed.
  Theorem java_decode_open d : forall h l b L, heap_ok (with_users (bodies us)) h -> bk b -> (exists c fs, nth_error h l = Some (CObj c fs)) ->
    vcalls P pr (S (S (S (S k)))) d "decode" l [JBuf] (mk stat' h b L) = (let '(e, h', b') := hdecode_open U E E2 d h (HRef l) b in ends e JVoid (mk stat' h' b' L)).
  Proof.
    induction d as [|d IH]; intros h l b L OK HB (c & fs & Hl); [reflexivity|]. cbn [hdecode_open]. rewrite Hl. destruct (OK l c fs Hl) as (cd & Hc & FT).
    destruct (in_E2 c cd Hc) as [A|(N & u & FC & ->)].
    - unfold find_class at 1. cbn [E env_of classes]. rewrite A. cbn [vcalls]. cbn [mk s_h]. rewrite Hl. destruct (jfine_open c cd A) as (J & M1 & M2). destruct (decode_in c cd A) as (own & CR & FM). erewrite run_eq by exact FM. cbn [bind_params conv bind].
      assert (LO : dlocs cd [("byteBuf"%string, (T0 "ByteBuf", JBuf))]).
      { split; [split; [reflexivity|cbn; intuition subst; reflexivity]|]. intros x Hx. cbn [assoc]. destruct (String.eqb_spec x "byteBuf") as [->|Nx]; [|reflexivity]. exfalso. apply (mem_in_false _ _ M1 Hx). }
      pose proof (class_in P ext EX FO stat R W WD c cd A) as CE. pose proof (typing_open E E2 U (user_base R W (bodies us)) users_typed flat_open nodup_open fine_open d) as TY. pose proof (frame_open E E2 U d) as FR.
      assert (NU : forall h b, hdecode_open U E E2 d h HNull b = (Some NPE, h, b)) by (intros; destruct d; reflexivity).
      pose proof (ex_dstmts E2 P pr (vcalls P pr (S (S (S (S k)))) d) k stat' (hdecode_open U E E2 d) Hk makes_open IH NU TY FR flat_open nodup_open fine_open
        c cd l own CE Hc (mem_in_false _ _ M2) (c_dec cd) h b _ fs OK HB Hl (fine_open c cd Hc) J LO CR) as WW.
      cbn [E2 factory] in WW. destruct (hexec_dec (hdecode_open U E E2 d) (hnew E2) (factory E c) l (c_dec cd) (h, b)) as [e [h' b']]. unfold set_loc. cbn [s_h s_b s_loc s_stat mk]. cbn [map List.rev List.app].
      change {| s_h := h; s_b := b; s_loc := _; s_stat := stat' |} with (mk stat' h b [("byteBuf"%string, (T0 "ByteBuf", JBuf))]).
      destruct e as [e|]; cbn [lands_d] in WW; [destruct WW as (L' & ->)|destruct WW as (L' & -> & _)]; reflexivity.
    - unfold find_class at 1. cbn [E env_of classes]. rewrite N. unfold U, decode_of. rewrite FC. cbn [option_map]. destruct (find_codec_in us c u FC) as [I <-].
      pose proof (wf_simple _ _ _ _ _ (rf_written _ _ _ _ _ RF) (cc_body u) (List.in_map cc_body us u I)) as S. cbn [as_class snd c_fields] in FT. rewrite (flat_fields h fs _ FT S).
      pose proof (rf_typed _ _ _ _ _ RF u (own_fields fs) b I (proj2 (intact_bk b) HB) (typed_in h fs _ S FT)) as Q. pose proof (rf_java _ _ _ _ _ RF u d h l fs b L I OK (proj2 (intact_bk b) HB) Hl) as J. unfold mk. rewrite J.
      destruct (cc_decode u (own_fields fs) b) as [[e gs] b']. destruct Q as [Q _]. rewrite (typed_same _ _ _ (typed_in h fs _ S FT) Q). destruct e; reflexivity.
  Qed.
End Decoders.

(* ---------- static state ---------- *)
Lemma assoc_named {f stat own} : Forall2 (named_in (jval_in f)) stat own ->
  forall x, match assoc x stat with Some v => exists w, assoc x own = Some w /\ jval_in f v w | None => assoc x own = None end.
Proof.
  induction 1 as [|[a v] [a' w] stat own [N J] _ IH]; intros x; cbn [assoc fst snd] in *; [reflexivity|]. subst a'. destruct (String.eqb x a); [eauto|apply IH].
Qed.
Lemma service_named f v w s : is_service v s -> jval_in f v w -> is_service w s.
Proof.
  intros [->|[[-> ->]|[[-> ->]|[[-> ->]|[-> ->]]]]] J; inversion J; subst; unfold is_service; try discriminate; tauto.
Qed.
Lemma agrees_named f stat own R W V : Forall2 (named_in (jval_in f)) stat own -> agrees stat R W V -> agrees own R W V.
Proof.
  intros F [K O T16 T32 N TY CA MA RE]. pose proof (assoc_named F) as A. split.
  - rewrite <- K. clear - F. induction F as [|[a v] [a' w] stat own [Q _] _ IH]; cbn in *; congruence.
  - exact O.
  - specialize (A "Crc16ChecksumService.CRC_TABLE"%string). rewrite T16 in A. destruct A as (w & -> & J). inversion J; subst. reflexivity.
  - specialize (A "Crc32ChecksumService.CRC_TABLE"%string). rewrite T32 in A. destruct A as (w & -> & J). inversion J; subst. reflexivity.
  - intros a I. specialize (A ("ChecksumAlgorithms." ++ a)%string). rewrite (N a I) in A. destruct A as (w & -> & J). inversion J; subst; [reflexivity|]. match goal with H : hval_in _ _ ?b |- _ => destruct b; cbn in H; try contradiction; try discriminate; injection H as <- end. reflexivity.
  - intros n z I. specialize (A (type_place ++ "." ++ n ++ ".value")%string). rewrite (TY n z I) in A. destruct A as (w & -> & J). inversion J; subst; [reflexivity|]. match goal with H : hval_in _ _ ?b |- _ => destruct b; cbn in H; try contradiction; try discriminate; injection H as <- end. reflexivity.
  - destruct CA as (m & Q & H). specialize (A "ChecksumServiceFactory.CACHE"%string). rewrite Q in A. destruct A as (w & -> & J). inversion J as [v Pv| | | | | | |m' n B C]; subst; [discriminate Pv|]. exists n. split; [reflexivity|]. intros a. specialize (H a). specialize (B (MKey (KStr (chars a)))). specialize (C (MKey (KStr (chars a)))).
    destruct (cache_get R a) as [s|]; [|now apply B]. destruct H as (v & Hv & IS). destruct (n (MKey (KStr (chars a)))) as [w|]; [|rewrite (proj2 B eq_refl) in Hv; discriminate Hv]. exists w. split; [reflexivity|]. eapply service_named; [exact IS|]. apply C; auto.
  - intros sc FC CR. destruct (MA sc FC CR) as (m & Q & MN & H). specialize (A (map_key sc)). rewrite Q in A. destruct A as (w & -> & J). inversion J as [v Pv| | | | | | |m' n B C]; subst; [discriminate Pv|]. exists n. split; [reflexivity|]. split; [now apply B|].
    intros k. specialize (H k). specialize (B (MKey k)). specialize (C (MKey k)). destruct (lookup_factory W (c_name (sc_def sc)) k) as [c|]; cbn [option_map] in *; [|now apply B].
    destruct (n (MKey k)) as [w|]; [|rewrite (proj2 B eq_refl) in H; discriminate H]. specialize (C _ _ H eq_refl). inversion C; subst; try discriminate. reflexivity.
  - destruct RE as (m & Q & H). specialize (A "sse.SseBinary.BodyMessageFactory.reverseMap"%string). rewrite Q in A. destruct A as (w & -> & J). inversion J as [v Pv| | | | | | |m' n B C]; subst; [discriminate Pv|]. exists n. split; [reflexivity|].
    intros c. specialize (H c). specialize (B (MCls c)). specialize (C (MCls c)). destruct (assoc c V) as [z|]; cbn [option_map] in *; [|now apply B].
    destruct (n (MCls c)) as [w|]; [|rewrite (proj2 B eq_refl) in H; discriminate H]. specialize (C _ _ H eq_refl). inversion C; subst; try discriminate. match goal with H : hval_in _ _ ?b |- _ => destruct b; cbn in H; try contradiction; try discriminate; injection H as <- end. reflexivity.
Qed.
