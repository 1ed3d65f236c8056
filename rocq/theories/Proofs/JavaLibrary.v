(* The theorems about encode, decode, equals, ... for the program of the library's files. *)
From Coq Require Import ZArith List Bool String Ascii Lia.
From Verif.Model Require Import JavaPrim ByteBuf Utf8 Codec Ast Interp Show Heap Library.
From Verif.Spec Require Import Bytes Wire Sharing JavaState.
From Verif.Props Require Import HeapProps HeapMoreProps.
From Verif.Proofs Require Import BytesFacts HeapFacts HeapOwn HeapFrame HeapTypes HeapEncTypes HeapCycle DecodeInv JavaSem JavaEncode JavaDecode JavaValues JavaClasses.
From Verif.Java Require Import Lex Syntax Source Sources Sem CodecTrees Init Program.
Import ListNotations.
Open Scope Z_scope.
Open Scope list_scope.

(* the static state stat means what the environment E says *)
Record world (E : env) (stat : list (string * jval)) : Prop := {
  w_classes : classes E = lib_classes;
  w_keys : map fst stat = stat_keys lib_program;
  w_sums : exists m, assoc "ChecksumServiceFactory.CACHE"%string stat = Some (JMap m)
                     /\ forall a, match checksum E a with
                                  | Some g => exists v, m (MKey (KStr (chars a))) = Some v /\ computes lib_program stat v g
                                  | None => m (MKey (KStr (chars a))) = None
                                  end;
  w_maps : forall sc, file_class sc -> creating (sc_def sc) = true -> holds E lib_program stat (c_name (sc_def sc)) (map_place sc) (fst (create_of (sc_def sc)) ++ "Map") }.
(* the factories hold constructors of classes of E *)
Definition made (E : env) : Prop := forall c kk c', factory E c kk = Some c' -> find_class E c' <> None.

(* ---------- checks of the classes ---------- *)
Definition library_names : list string := ["StringUtil"; "Math"; "StandardCharsets"; "ChecksumServiceFactory"; "Objects"]%string.
Lemma library_names_unused : forallb (fun x => unused lib_keys x && unused (stat_keys lib_program) x) library_names = true.
Proof. vm_compute. reflexivity. Qed.
Lemma library_fields : lib_all (fun cd => forallb (fun x => match assoc x (c_fields cd) with None => true | Some _ => false end) library_names) = true.
Proof. vm_compute. reflexivity. Qed.
Definition known_k (c c' : string) : bool := String.eqb (resolve_k 3 lib_keys c (simple c')) c' && match assoc c' lib_classes with Some _ => true | None => false end.
Definition known_stmt (c : string) (s : dstmt) : bool :=
  match s with DList _ _ _ (YObj c') => known_k c c' | DNewIfNull _ c' => known_k c c' | _ => true end.
Lemma library_known : lib_all (fun cd => forallb (known_stmt (c_name cd)) (c_dec cd)) = true.
Proof. vm_compute. reflexivity. Qed.
Definition delem_rest (R : list string) (f : string) (y : delem) : bool :=
  match y with
  | YInt n _ => widthb n | YFlt n _ => fwidthb n | YFix len _ _ => lenb len
  | YDyn n _ => widthb n && fresh_local R (f ++ "Len")
  | YObj _ => fresh_local R (f ++ "_")
  end.
Definition dstmt_rest (R : list string) (F : list (string * ftype)) (s : dstmt) : bool :=
  match s with
  | DRead n _ _ => widthb n
  | DReadF n _ _ => fwidthb n
  | DFix _ len _ _ => lenb len
  | DDyn f n _ => widthb n && fresh_local R (f ++ "Len")
  | DList f n _ y => length_width n && fresh_local R (f ++ "Size") && delem_rest R f y
  | DNewIfNull f c' => true
  | DObj f => match assoc f F with Some t => is_obj t | None => false end
  | DCreate f k => mem (factory_name f) R && match assoc k F with Some (TByte | TShort | TInt | TLong | TStr) => true | _ => false end
  end.
Lemma library_dstmts : lib_all (fun cd => forallb (dstmt_rest (classes_named cd) (c_fields cd)) (c_dec cd) && negb (mem "byteBuf" (classes_named cd)) && negb (mem "i" (classes_named cd))) = true.
Proof. vm_compute. reflexivity. Qed.
Lemma library_estmts : lib_all (fun cd => forallb jfine_estmt (c_enc cd)) = true.
Proof. vm_compute. reflexivity. Qed.
Lemma library_defaults : lib_all (fun cd => forallb (fun ft => match default_of (type_name (snd ft)), hdefault (snd ft) with HInt a, HInt b => Z.eqb a b | HFlt a, HFlt b => Z.eqb a b | HNull, HNull => true | _, _ => false end) (c_fields cd)) = true.
Proof. vm_compute. reflexivity. Qed.
Definition value_check (cd : class_def) : bool :=
  String.eqb (resolve_k 3 lib_keys (c_name cd) (simple (c_name cd))) (c_name cd) && negb (is_prim (T0 (simple (c_name cd)))) &&
  negb (mem (c_name cd) ["java.util.ArrayList"; "java.lang.String"; "java.lang.Number"; ""]%string) &&
  forallb (value_field (c_fields cd)) (c_eq cd) && match c_hash cd with HashSelf => true | HashFields fs => forallb (value_field (c_fields cd)) fs end &&
  forallb (fun l => value_field (c_fields cd) (snd l)) (c_str cd).
Lemma library_values : lib_all value_check = true.
Proof. vm_compute. reflexivity. Qed.
Definition create_check (ks : list string) (sc : source_class) : bool :=
  let cd := sc_def sc in let c := c_name cd in let f := fst (create_of cd) in let k := snd (create_of cd) in let mp := (f ++ "Map")%string in let q := (c ++ "." ++ factory_name f)%string in
  forallb (fun s => match s with DCreate f' k' => String.eqb f' f && String.eqb k' k | _ => true end) (c_dec cd) &&
  (negb (creating cd) ||
   negb (String.eqb mp k) && negb (String.eqb mp "supplier") && negb (String.eqb k "supplier") && negb (is_prim (key_type (ftype_of (c_fields cd) k))) &&
   match sc_form sc with
   | FNone => false
   | FOwn _ => match assoc mp (c_fields cd) with None => true | Some _ => false end
   | _ => match assoc (factory_name f) (c_fields cd) with None => true | Some _ => false end && negb (mem q ks) && negb (mem (q ++ ".INSTANCE") ks)
   end).
Lemma library_creates : let ks := stat_keys lib_program in forallb (create_check ks) (flat_map (fun s => s_main s :: s_nested s) message_files) = true.
Proof. vm_compute. reflexivity. Qed.
Lemma library_absent : forallb (fun x => negb (mem x lib_keys)) ["StringUtil"; "Math"; "Objects"]%string = true.
Proof. vm_compute. reflexivity. Qed.
Lemma absent x : In x ["StringUtil"; "Math"; "Objects"]%string -> assoc x lib_program = None.
Proof. intros H. pose proof library_absent as K. rewrite forallb_forall in K. specialize (K x H). apply (not_mem_assoc lib_program). exact K. Qed.
Lemma registry_instance : mem "ChecksumServiceFactory.INSTANCE" (stat_keys lib_program) = false.
Proof. vm_compute. reflexivity. Qed.

Section World.
  Variable E : env.
  Variable stat : list (string * jval).
  Hypothesis W : world E stat.
  Let HE := w_classes _ _ W.
  Lemma stat_none x : mem x (stat_keys lib_program) = false -> assoc x stat = None.
  Proof. rewrite <- (w_keys _ _ W), mem_keys. destruct (assoc x stat); [discriminate|reflexivity]. Qed.
  Lemma lib_base : base_env E lib_program stat.
  Proof.
    split; try (apply absent; cbn; tauto).
    - apply codec_class. cbn. tauto.
    - apply stat_none, registry_instance.
    - apply (w_sums _ _ W).
  Qed.
  Section One.
    Variable c : string.
    Variable cd : class_def.
    Hypothesis Hf : find_class E c = Some cd.
    Lemma Hc : assoc c lib_classes = Some cd. Proof. rewrite <- HE. exact Hf. Qed.
    Lemma file : exists sc nested, file_class sc /\ in_file c cd sc nested.
    Proof. exact (in_some_file c cd Hc). Qed.
    Lemma checked p : lib_all p = true -> p cd = true. Proof. intros H. exact (lib_all_ok p H c cd Hc). Qed.
    Lemma a_class sc nested x : in_file c cd sc nested -> In x library_names -> is_class lib_program stat c x x.
    Proof.
      intros IF I. pose proof library_names_unused as U. rewrite forallb_forall in U. specialize (U x I). apply andb_true_iff in U. destruct U as [U1 U2].
      pose proof (checked _ library_fields) as F. rewrite forallb_forall in F. specialize (F x I). split; [|split; [|split]].
      - rewrite (fields_lib c cd sc nested IF). destruct (assoc x (c_fields cd)); [discriminate|reflexivity].
      - apply assoc_not_in. rewrite (w_keys _ _ W). apply unused_not_in, U2.
      - rewrite (lib_tree _ _ _ _ IF). destruct (tree_class nested sc) as (mods & ms & ->). eexists. split; reflexivity.
      - apply resolve_unused, U1.
    Qed.
    Lemma lib_class_env : class_env lib_program stat c cd.
    Proof.
      destruct file as (sc & nested & _ & IF). split; try (apply (a_class sc nested _ IF); cbn; tauto).
      - apply (fields_lib c cd sc nested IF).
      - apply (m_two c cd sc nested IF).
    Qed.
    Lemma lib_value_env : value_env lib_program stat c cd.
    Proof.
      destruct file as (sc & nested & _ & IF). assert (N : c = c_name cd) by apply IF. pose proof (checked _ library_values) as V. unfold value_check in V. rewrite !andb_true_iff, !negb_true_iff in V. rewrite <- N in V.
      destruct V as [[[[[V1 V2] V3] V4] V5] V6]. split; try assumption.
      - apply (fields_lib c cd sc nested IF).
      - apply (a_class sc nested _ IF). cbn. tauto.
      - apply absent. cbn. tauto.
      - unfold resolve. rewrite resolve_keys. now apply String.eqb_eq.
      - destruct (c_hash cd); auto.
      - exact (m_hash c cd Hc sc nested IF).
      - exact (m_equals c cd Hc sc nested IF).
      - exact (m_string c cd Hc sc nested IF).
    Qed.
    Lemma known_lib c' : known_k c c' = true -> known lib_program E c c' = true.
    Proof. unfold known, known_k, resolve, find_class. rewrite resolve_keys, HE. auto. Qed.
    Lemma lib_jfine : forallb (jfine_dstmt lib_program E (classes_named cd) c (c_fields cd)) (c_dec cd) = true /\ mem "byteBuf" (classes_named cd) = false /\ mem "i" (classes_named cd) = false.
    Proof.
      destruct file as (sc & nested & _ & IF). assert (N : c = c_name cd) by apply IF. pose proof (checked _ library_dstmts) as V. cbn beta in V. rewrite !andb_true_iff, !negb_true_iff in V. destruct V as [[V V2] V3]. split; [|split; assumption].
      pose proof (checked _ library_known) as K. cbn beta in K. rewrite <- N in K. rewrite forallb_forall in *. intros s I. specialize (V s I). specialize (K s I).
      destruct s; cbn [jfine_dstmt dstmt_rest known_stmt] in *; auto; [|apply known_lib, K].
      match goal with |- context[jfine_delem _ _ _ _ _ ?y] => destruct y end; cbn [jfine_delem delem_rest] in *; auto. rewrite (known_lib _ K), andb_true_r. exact V.
    Qed.
    Lemma lib_creates sc nested E3 : factory E3 = factory E -> made E3 -> file_class sc -> in_file c cd sc nested -> forall f kf, In (DCreate f kf) (c_dec cd) -> creates E3 lib_program stat c (is_own (sc_form sc)) f kf.
    Proof.
      intros FE MD FC IF f kf I. pose proof library_creates as V. cbv zeta in V. rewrite forallb_forall in V. specialize (V sc FC). unfold create_check in V. assert (D : sc_def sc = cd) by apply IF. assert (N : c = c_name cd) by apply IF. cbv zeta in V. rewrite D, <- N in V.
      apply andb_true_iff in V. destruct V as [V1 V2]. rewrite forallb_forall in V1. specialize (V1 _ I). cbn beta iota in V1. apply andb_true_iff in V1. destruct V1 as [F K]. apply String.eqb_eq in F, K.
      assert (CR : creating cd = true) by (apply existsb_exists; eexists; split; [exact I|reflexivity]). rewrite CR in V2. cbn [negb orb] in V2.
      pose proof (w_maps _ _ W sc FC) as HM. rewrite D in HM. specialize (HM CR). unfold map_place in HM. rewrite D, <- N in HM. rewrite <- F, <- K in *. unfold holds in HM. rewrite <- FE in HM. fold (holds E3 lib_program stat c (if is_own (sc_form sc) then c else (c ++ "." ++ factory_name f)%string) (f ++ "Map")%string) in HM.
      rewrite !andb_true_iff, !negb_true_iff in V2. destruct V2 as [[[[A1 A2] A3] A4] V2]. apply String.eqb_neq in A1, A2, A3.
      split; [auto|]. split; [intros kk c' Q; exact (MD c kk c' Q)|].
      pose proof (lib_tree _ _ _ _ IF) as LT.
      assert (EN : forall d, In (MClass d) (members (tree_of nested sc)) -> is_own (sc_form sc) = false -> class_name d = factory_name f -> consts d = [("INSTANCE"%string, [])] -> supers d = [] ->
                   match assoc (factory_name f) (c_fields cd) with None => true | Some _ => false end && negb (mem (c ++ "." ++ factory_name f) (stat_keys lib_program)) && negb (mem ((c ++ "." ++ factory_name f) ++ ".INSTANCE") (stat_keys lib_program)) = true ->
                   method_in (members d) "getInstance" 0 = Some ([], [SReturn (Some (EName "INSTANCE"))]) -> (exists kt, is_prim kt = false /\ method_in (members d) "create" 1 = Some ([(kt, kf)], create_body (f ++ "Map") kf)) ->
                   creates E3 lib_program stat c false f kf).
      { intros d Id O Nd Cd Sd Ch M1 (kt & P1 & M2). rewrite O in HM. split; [auto|]. split; [intros kk c' Q; exact (MD c kk c' Q)|]. cbn beta iota.
        destruct IF as (_ & _ & _ & IN & _). specialize (IN d Id). rewrite Nd in IN. apply lib_assoc in IN. rewrite !andb_true_iff, !negb_true_iff in Ch. destruct Ch as [[C1 C2] C3].
        exists (c ++ "." ++ factory_name f)%string, d, kt. split; [|split; [exact IN|split; [|split; [|split; [|split; [exact HM|split; [exact P1|]]]]]]].
        - split; [|split; [|split]].
          + destruct file as (sc' & nested' & _ & IF'). rewrite (fields_lib c cd sc' nested' IF'). destruct (assoc (factory_name f) (c_fields cd)); [discriminate|reflexivity].
          + apply stat_none, C2.
          + rewrite LT. destruct (tree_class nested sc) as (mods & ms & ->). eexists. split; reflexivity.
          + unfold resolve. cbn [resolve_in]. rewrite IN. reflexivity.
        - unfold find_method. rewrite IN, M1. reflexivity.
        - apply stat_none, C3.
        - rewrite Cd. reflexivity.
        - unfold find_method. rewrite IN, M2. reflexivity. }
      assert (MT : forall d, match sc_form sc with FEnum es => [MClass (j_factory f (ftype_of (c_fields cd) kf) kf es)] | FEnumRev es vs => [MClass (j_factory_rev f kf es vs)] | _ => [] end = [MClass d] -> In (MClass d) (members (tree_of nested sc))).
      { intros d Q. rewrite members_tree. cbv zeta. rewrite D, <- F, <- K. rewrite !in_app_iff. do 6 right. rewrite Q. now left. }
      destruct (sc_form sc) as [|es|es vs|es] eqn:FF; [discriminate| | |]; cbn [is_own] in *.
      - apply (EN (j_factory f (ftype_of (c_fields cd) kf) kf es)); auto. exists (key_type (ftype_of (c_fields cd) kf)). split; [exact A4|]. reflexivity.
      - apply (EN (j_factory_rev f kf es vs)); auto. exists (T0 "Integer"). split; reflexivity.
      - cbn beta iota. split; [|split; [exact HM|]].
        + rewrite (fields_lib c cd sc nested IF). destruct (assoc (f ++ "Map")%string (c_fields cd)); [discriminate|reflexivity].
        + exists (key_type (ftype_of (c_fields cd) kf)). split; [exact A4|]. pose proof (m_create c cd Hc sc nested IF) as M. rewrite FF, <- F, <- K in M. exact (M eq_refl).
    Qed.
  End One.
  Lemma lib_makes : makes E lib_program.
  Proof.
    intros c cd Hf. destruct (file c cd Hf) as (sc & nested & _ & IF). exists (tree_of nested sc). split; [exact (lib_tree _ _ _ _ IF)|]. split; [destruct (tree_class nested sc) as (mods & ms & ->); reflexivity|].
    rewrite (instance_lib c cd sc nested IF), map_map. pose proof (checked c cd Hf _ library_defaults) as V. cbn beta in V. rewrite forallb_forall in V. apply map_ext_in. intros [f t] I. specialize (V _ I). cbn [fst snd] in *. f_equal.
    destruct (default_of (type_name t)), (hdefault t); try discriminate; try reflexivity; apply Z.eqb_eq in V; now rewrite V.
  Qed.

  Section Run.
    Variable pr : printers.
    Variable k : nat.
    Theorem lib_encode : 2 ^ 31 <= Z.of_nat k -> forall d h l b L, heap_ok (classes E) h -> small h -> okb b -> (exists c fs, nth_error h l = Some (CObj c fs)) ->
      vcalls lib_program pr (S (S (S (S k)))) d "encode" l [JBuf] (mk stat h b L) = (let '(e, h', b') := hencode E d h (HRef l) b in ends e JVoid (mk stat h' b' L)).
    Proof.
      intros Hk d. apply (java_encode E lib_program pr k stat Hk lib_base). intros c cd Hf. destruct (file c cd Hf) as (sc & nested & _ & IF).
      split; [exact (lib_fine_enc E HE c cd Hf)|]. split; [exact (checked c cd Hf _ library_estmts)|]. split; [exact (lib_class_env c cd Hf)|]. exists (sc_flip sc). exact (m_encode c cd (Hc c cd Hf) sc nested IF).
    Qed.
    Theorem lib_decode : made E -> 2 ^ 31 <= Z.of_nat k -> forall d h l b L, heap_ok (classes E) h -> bk b -> (exists c fs, nth_error h l = Some (CObj c fs)) ->
      vcalls lib_program pr (S (S (S (S k)))) d "decode" l [JBuf] (mk stat h b L) = (let '(e, h', b') := hdecode E d h (HRef l) b in ends e JVoid (mk stat h' b' L)).
    Proof.
      intros MD Hk d. apply (java_decode E lib_program pr k stat Hk lib_makes (lib_flat E HE) (lib_nodup E HE) (lib_fine E HE)). intros c cd Hf. destruct (file c cd Hf) as (sc & nested & FC & IF).
      destruct (lib_jfine c cd Hf) as (J1 & J2 & J3). repeat (split; [assumption|]). split; [exact (lib_class_env c cd Hf)|]. exists (is_own (sc_form sc)). split; [exact (lib_creates c cd Hf sc nested E eq_refl MD FC IF)|].
      exact (m_decode c cd (Hc c cd Hf) sc nested IF).
    Qed.
    Theorem lib_hash d : forall h l b L, heap_ok (classes E) h -> item h (HRef l) -> vcalls lib_program pr (S k) d "hashCode" l [] (mk stat h b L) = says jint (hhash E d h (HRef l)) (mk stat h b L).
    Proof. apply java_hash. exact lib_value_env. Qed.
    Theorem lib_string d : forall h l b L, heap_ok (classes E) h -> item h (HRef l) -> vcalls lib_program pr (S k) d "toString" l [] (mk stat h b L) = says jstr (hstring E pr d h (HRef l)) (mk stat h b L).
    Proof. apply java_string. exact lib_value_env. Qed.
    Theorem lib_equals d : forall h l w b L, heap_ok (classes E) h -> item h (HRef l) -> (forall m, w = HRef m -> nth_error h m <> None) ->
      vcalls lib_program pr (S k) d "equals" l [JT (T1 "Object") w] (mk stat h b L) = says JB (hequals E d h (HRef l) w) (mk stat h b L).
    Proof. apply java_equals. exact lib_value_env. Qed.
    Theorem lib_get d h l c cd fs b L m f : nth_error h l = Some (CObj c fs) -> find_class E c = Some cd -> assoc m (c_get cd) = Some f ->
      vcalls lib_program pr (S k) (S d) m l [] (mk stat h b L) = Ret (JT (type_name (type_of f (c_fields cd))) (field h l f)) (mk stat h b L).
    Proof. intros Hl Hf A. destruct (file c cd Hf) as (sc & nested & _ & IF). eapply (java_get E lib_program pr k stat lib_value_env); eauto. exact (m_getters c cd (Hc c cd Hf) sc nested IF). Qed.
    Theorem lib_set d h l c cd fs b L m f t v : nth_error h l = Some (CObj c fs) -> find_class E c = Some cd -> assoc m (c_set cd) = Some f ->
      (v = HNull -> is_prim (type_name (type_of f (c_fields cd))) = false) ->
      vcalls lib_program pr (S k) (S d) m l [JT t v] (mk stat h b L) = Ret JVoid (mk stat (put_field h l f v) b L).
    Proof. intros Hl Hf A. destruct (file c cd Hf) as (sc & nested & _ & IF). eapply (java_set E lib_program pr k stat lib_value_env); eauto. exact (m_setters c cd (Hc c cd Hf) sc nested IF). Qed.
  End Run.
End World.
