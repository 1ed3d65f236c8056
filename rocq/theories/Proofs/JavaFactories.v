(* The methods of the message factories, run as Java, against the model. *)
From Coq Require Import ZArith NArith List Bool String Ascii Lia.
From Verif.Model Require Import JavaPrim ByteBuf Checksum Utf8 Codec Ast Interp Factory Show Heap GenSse Library.
From Verif.Spec Require Import JavaState.
From Verif.Proofs Require Import BytesFacts HeapFacts JavaSem JavaEncode JavaDecode JavaClasses JavaLibrary JavaServices JavaStart JavaState JavaRegistry.
From Verif.Java Require Import Lex Syntax Source Sources FilesSse Sem CodecTrees Init Program.
Import ListNotations.
Open Scope Z_scope.
Open Scope list_scope.

Lemma makers_out sc : In sc makers -> file_class sc /\ creating (sc_def sc) = true.
Proof. apply filter_In. Qed.
Lemma owners_there : forallb (fun sc => mem (c_name (sc_def sc)) (map fst lib_factories)) makers = true.
Proof. vm_compute. reflexivity. Qed.
Lemma owner_there stat R W V sc : agrees stat R W V -> In sc makers -> exists m, assoc (c_name (sc_def sc)) W = Some m.
Proof.
  intros AG I. pose proof owners_there as H. rewrite forallb_forall in H. specialize (H sc I). rewrite <- (ag_owners _ _ _ _ AG), mem_keys in H. destruct (assoc (c_name (sc_def sc)) W); [eauto|discriminate].
Qed.
Lemma agrees_map stat R W V sc m' f : agrees stat R W V -> In sc makers -> m' MNull = None ->
  (forall k, m' (MKey k) = option_map JSup (lookup_factory (on_factory W (c_name (sc_def sc)) f) (c_name (sc_def sc)) k)) ->
  agrees (put_assoc (map_key sc) (JMap m') stat) R (on_factory W (c_name (sc_def sc)) f) V.
Proof.
  intros [A1 A2 A3 A4 A5 A6 A7 A8 A9] I N H. assert (DF : forall x, In x other_keys -> x <> map_key sc) by (intros x O Q; exact (maker_not sc x I O (eq_sym Q))). rewrite others in DF.
  split.
  - now rewrite keys_put.
  - now rewrite on_owners.
  - rewrite put_other; [exact A3|]. apply DF. right. now left.
  - rewrite put_other; [exact A4|]. apply DF. do 2 right. now left.
  - intros a J. rewrite put_other; [apply A5, J|]. apply DF. do 4 right. apply in_or_app. left. apply name_key, J.
  - intros n z J. rewrite put_other; [apply A6, J|]. apply DF. do 4 right. apply in_or_app. right. eapply type_key, J.
  - rewrite put_other; [exact A7|]. apply DF. now left.
  - intros sc' F C. destruct (string_dec (map_key sc') (map_key sc)) as [E|E].
    + assert (sc' = sc) by (apply maker_key_eq; [now apply makers_in|exact I|exact E]). subst sc'. destruct (A8 sc F C) as (m & Q & _). exists m'. split; [exact (put_same _ _ _ _ Q)|]. split; [exact N|exact H].
    + destruct (A8 sc' F C) as (m & Q & N' & H'). exists m. rewrite put_other by exact E. split; [exact Q|]. split; [exact N'|]. intros k. rewrite H', lookup_on.
      destruct (String.eqb_spec (c_name (sc_def sc')) (c_name (sc_def sc))) as [E'|]; [|reflexivity]. exfalso. apply E. f_equal. apply maker_name_eq; [now apply makers_in|exact I|exact E'].
  - rewrite put_other; [exact A9|]. apply DF. do 3 right. now left.
Qed.
Lemma agrees_reverse stat R W V V' m' : agrees stat R W V ->
  (forall c, m' (MCls c) = option_map (fun z => JT (T1 "Integer") (HInt z)) (assoc c V')) -> agrees (put_assoc reverse_key (JMap m') stat) R W V'.
Proof.
  intros [A1 A2 A3 A4 A5 A6 A7 A8 A9] H. assert (RK : In reverse_key other_keys) by (rewrite others; do 3 right; now left).
  assert (DF : forall x, In x (CACHE_key :: "Crc16ChecksumService.CRC_TABLE"%string :: "Crc32ChecksumService.CRC_TABLE"%string :: name_keys ++ type_keys) -> x <> reverse_key).
  { intros x J ->. revert J. assert (Q : mem reverse_key (CACHE_key :: "Crc16ChecksumService.CRC_TABLE"%string :: "Crc32ChecksumService.CRC_TABLE"%string :: name_keys ++ type_keys) = false) by (vm_compute; reflexivity).
    intros J. assert (mem reverse_key (CACHE_key :: "Crc16ChecksumService.CRC_TABLE"%string :: "Crc32ChecksumService.CRC_TABLE"%string :: name_keys ++ type_keys) = true) by (apply existsb_exists; exists reverse_key; split; [exact J|apply String.eqb_refl]). congruence. }
  split.
  - now rewrite keys_put.
  - exact A2.
  - rewrite put_other; [exact A3|]. apply DF. right. now left.
  - rewrite put_other; [exact A4|]. apply DF. do 2 right. now left.
  - intros a J. rewrite put_other; [apply A5, J|]. apply DF. do 3 right. apply in_or_app. left. apply name_key, J.
  - intros n z J. rewrite put_other; [apply A6, J|]. apply DF. do 3 right. apply in_or_app. right. eapply type_key, J.
  - rewrite put_other; [exact A7|]. apply DF. now left.
  - intros sc F C. rewrite put_other; [apply A8; assumption|]. apply maker_not; [now apply makers_in|exact RK].
  - destruct A9 as (m & Q & _). exists m'. split; [exact (put_same _ _ _ _ Q)|exact H].
Qed.

(* the factory class *)
Definition factory_class (sc : source_class) : jclass :=
  let f := fst (create_of (sc_def sc)) in let k := snd (create_of (sc_def sc)) in
  match sc_form sc with
  | FEnum es => j_factory f (ftype_of (c_fields (sc_def sc)) k) k es
  | FEnumRev es vs => j_factory_rev f k es vs
  | _ => tree_of [] sc
  end.
Lemma factory_there sc : In sc makers -> is_own (sc_form sc) = false -> assoc (map_place sc) lib_program = Some (factory_class sc).
Proof.
  intros I O. destruct (makers_out sc I) as [F C]. destruct (file_tree sc F) as (nested & IF). pose proof library_creates as V. cbv zeta in V. rewrite forallb_forall in V. specialize (V sc F). unfold create_check in V. cbv zeta in V. rewrite C in V.
  apply andb_true_iff in V. destruct V as [_ V]. cbn [negb orb] in V. unfold map_place. rewrite O.
  assert (MT : match sc_form sc with FNone => False | _ => True end -> In (MClass (factory_class sc)) (members (tree_of nested sc))).
  { intros NF. rewrite members_tree. cbv zeta. rewrite !in_app_iff. do 6 right. unfold factory_class. destruct (sc_form sc); try contradiction; try discriminate O; now left. }
  assert (NF : match sc_form sc with FNone => False | _ => True end) by (destruct (sc_form sc); try exact Logic.I; rewrite andb_false_r in V; discriminate V).
  specialize (MT NF). destruct IF as (_ & _ & _ & IN & _). specialize (IN _ MT). apply lib_assoc in IN. rewrite <- IN. f_equal. unfold factory_class. destruct (sc_form sc); try contradiction; try discriminate O; reflexivity.
Qed.

Section Factory.
  Variable pr : printers.
  Variable vcall : string -> nat -> list jval -> st -> res jval.
  Variable stat : list (string * jval).
  Variable R : cache.
  Variable W : factories.
  Variable V : list (string * Z).
  Hypothesis AG : agrees stat R W V.
  Variable sc : source_class.
  Hypothesis Isc : In sc makers.
  Hypothesis Own : is_own (sc_form sc) = false.
  Let c := c_name (sc_def sc).
  Let f := fst (create_of (sc_def sc)).
  Let kf := snd (create_of (sc_def sc)).
  Let mp := (f ++ "Map")%string.
  Let q := map_place sc.
  Let kt := match sc_form sc with FEnumRev _ _ => T0 "Integer" | _ => key_type (ftype_of (c_fields (sc_def sc)) kf) end.
  Variable h : heap.
  Variable b : bytebuf.
  Variable L : list (string * (ty * jval)).
  Notation mk L0 := {| s_h := h; s_b := b; s_loc := L0; s_stat := stat |}.

  Lemma names_apart : (mp <> kf /\ mp <> "supplier"%string /\ kf <> "supplier"%string) /\ is_prim kt = false /\ mem (q ++ ".INSTANCE") (stat_keys lib_program) = false
    /\ match sc_form sc with FEnum _ | FEnumRev _ _ => True | _ => False end.
  Proof.
    destruct (makers_out sc Isc) as [F C]. pose proof library_creates as U. cbv zeta in U. rewrite forallb_forall in U. specialize (U sc F). unfold create_check in U. cbv zeta in U. rewrite C in U.
    apply andb_true_iff in U. destruct U as [_ U]. cbn [negb orb] in U. rewrite !andb_true_iff, !negb_true_iff in U. destruct U as [[[[A1 A2] A3] A4] U]. apply String.eqb_neq in A1, A2, A3. split; [split; [exact A1|split; [exact A2|exact A3]]|].
    unfold q, map_place. fold c f. unfold kt. destruct (sc_form sc) as [|es|es vs|es]; try discriminate; cbn [is_own] in *; rewrite !andb_true_iff, !negb_true_iff in U; destruct U as [_ U]; (split; [first [exact A4|reflexivity]|split; [exact U|exact Logic.I]]).
  Qed.
  Lemma method_there m n x : method_in (members (factory_class sc)) m n = Some x -> find_method lib_program q m n = Some x.
  Proof. intros H. unfold find_method, q. rewrite (factory_there sc Isc Own), H. reflexivity. Qed.
  Lemma m_get_instance : find_method lib_program q "getInstance" 0 = Some ([], [SReturn (Some (EName "INSTANCE"))]).
  Proof. apply method_there. unfold factory_class. destruct names_apart as (_ & _ & _ & T). destruct (sc_form sc); try contradiction; reflexivity. Qed.
  Lemma m_make : find_method lib_program q "create" 1 = Some ([(kt, kf)], create_body mp kf).
  Proof. apply method_there. unfold factory_class, kt. destruct names_apart as (_ & _ & _ & T). destruct (sc_form sc); try contradiction; reflexivity. Qed.
  Lemma m_remove : find_method lib_program q "remove" 1 = Some ([(kt, kf)], [SReturn (Some (EBin ONe ENull (ECall (EName mp) "remove" [EName kf])))]).
  Proof. apply method_there. unfold factory_class, kt. destruct names_apart as (_ & _ & _ & T). destruct (sc_form sc); try contradiction; reflexivity. Qed.
  Lemma m_register es : sc_form sc = FEnum es -> find_method lib_program q "register" 2 = Some ([(kt, kf); (supplier_t, "supplier"%string)], [put_s mp (EName kf) (EName "supplier")]).
  Proof. intros Q. apply method_there. unfold factory_class, kt. rewrite Q. reflexivity. Qed.

  Theorem java_instance k : run lib_program pr vcall (S k) None q "getInstance" [] (mk L) = Ret (JOne q) (mk L).
  Proof.
    destruct names_apart as (_ & _ & NI & T). erewrite run_eq by exact m_get_instance. cbn [bind_params bind]. rewrite all_cons, ex_return. cbn [eval]. unfold name_val. cbn [set_loc s_loc assoc x_this x_class s_stat].
    change ("." ++ "INSTANCE")%string with ".INSTANCE"%string. rewrite (no_field stat R W V AG _ NI). unfold q. rewrite (factory_there sc Isc Own). unfold factory_class. destruct (sc_form sc); try contradiction; reflexivity.
  Qed.
  Lemma name_map m s : s_stat s = stat -> assoc mp (s_loc s) = None -> assoc (map_key sc) stat = Some (JMap m) -> name_val lib_program {| x_this := None; x_class := q |} mp s = Ret (JMap m) s.
  Proof. intros Hs N Q. unfold name_val. rewrite N. cbn [x_this x_class]. change (q ++ "." ++ mp)%string with (map_key sc). rewrite Hs, Q. reflexivity. Qed.
  Lemma the_map : exists m M, assoc (map_key sc) stat = Some (JMap m) /\ m MNull = None /\ assoc c W = Some M /\ forall x, m (MKey x) = option_map JSup (f_get M x).
  Proof.
    destruct (makers_out sc Isc) as [F C]. destruct (ag_maps _ _ _ _ AG sc F C) as (m & Q & N & H). destruct (owner_there _ _ _ _ _ AG Isc) as (M & HM). exists m, M. fold c in H, HM. repeat (split; [assumption|]). intros x. rewrite H. unfold lookup_factory. now rewrite HM.
  Qed.

  (* create: an object of the class registered for the key, or IllegalArgumentException *)
  Theorem java_create k t v : (forall o x c', lookup_factory W o x = Some c' -> assoc c' lib_classes <> None) -> v = HNull \/ (exists x, hkey_of v = Some x) ->
    exists M, assoc c W = Some M /\
    run lib_program pr vcall (S (S (S k))) None q "create" [JT t v] (mk L) =
      match hkey_of v with
      | Some x => match create M x with
                  | inr c' => let '(h', o) := hnew (env_of lib_classes W R) h c' in Ret (JT (T1 c') o) {| s_h := h'; s_b := b; s_loc := L; s_stat := stat |}
                  | inl e => Exc e (mk L)
                  end
      | None => Exc IAE (mk L)
      end.
  Proof.
    intros K Hv. destruct the_map as (m & M & Q & N & HM & H). exists M. split; [exact HM|]. destruct names_apart as ((N1 & N2 & N3) & KP & _ & _).
    pose proof (run_create lib_program pr vcall k stat None q "create" kt mp kf t v m h b L m_make KP N1 N3) as RC. unfold JavaEncode.mk in RC. rewrite RC; clear RC; auto.
    - destruct Hv as [->|(x & Hx)]; [reflexivity|]. rewrite Hx. rewrite H. unfold create. destruct (f_get M x) as [c'|] eqn:G; cbn [option_map].
      + assert (F : assoc c' lib_classes <> None) by (apply (K c x); unfold lookup_factory; rewrite HM; exact G). destruct (assoc c' lib_classes) as [cd'|] eqn:FC; [|contradiction].
        assert (MK := lib_makes (env_of lib_classes W R) stat (agrees_world stat R W V AG) c' cd' FC). destruct MK as (d & D & Sd & ML). unfold new_object, hnew, find_class. cbn [classes env_of]. rewrite D, Sd, ML, FC.
        destruct v; try discriminate; reflexivity.
      + destruct v; try discriminate; reflexivity.
    - intros L' A. apply name_map; auto.
    - intros x. rewrite H. destruct (f_get M x); cbn [option_map]; eauto.
  Qed.
  (* register, remove *)
  Theorem java_register k es t v x c' : sc_form sc = FEnum es -> hkey_of v = Some x -> exists stat',
    run lib_program pr vcall (S k) None q "register" [JT t v; JSup c'] (mk L) = Ret JVoid {| s_h := h; s_b := b; s_loc := L; s_stat := stat' |}
    /\ agrees stat' R (on_factory W c (fun M => register M x c')) V.
  Proof.
    intros Q Hx. destruct the_map as (m & M & Qm & N & HM & H). destruct names_apart as ((N1 & N2 & N3) & KP & _ & _). exists (put_assoc (map_key sc) (JMap (m_set m (MKey x) (Some (JSup c')))) stat). split.
    - erewrite run_eq by exact (m_register es Q). assert (BP : bind_params [(kt, kf); (supplier_t, "supplier"%string)] [JT t v; JSup c'] (mk L) [] = Ret [("supplier"%string, (supplier_t, JSup c')); (kf, (kt, JT kt v))] (mk L)) by (destruct v; try discriminate; reflexivity).
      rewrite BP. cbn [bind]. set (s1 := set_loc (mk L) _).
      assert (B1 : name_val lib_program {| x_this := None; x_class := q |} kf s1 = Ret (JT kt v) s1).
      { eapply name_loc. unfold s1, set_loc. cbn [s_loc assoc]. apply String.eqb_neq in N3. rewrite N3, String.eqb_refl. reflexivity. }
      assert (B2 : name_val lib_program {| x_this := None; x_class := q |} "supplier" s1 = Ret (JSup c') s1) by (eapply name_loc; reflexivity).
      assert (B3 : name_val lib_program {| x_this := None; x_class := q |} mp s1 = Ret (JMap m) s1).
      { apply name_map; [reflexivity| |exact Qm]. unfold s1, set_loc. cbn [s_loc assoc]. apply String.eqb_neq in N1, N2. rewrite N1, N2. reflexivity. }
      rewrite all_cons. unfold put_s, call_s. rewrite ex_expr. cbn [eval]. rewrite B3. cbn [bind]. rewrite B1. cbn [bind]. rewrite B2. cbn [bind dispatch var_of x_class]. unfold map_call.
      assert (MK : mkey_of (JT kt v) = Some (MKey x)) by (destruct v; try discriminate; injection Hx as <-; reflexivity). rewrite MK. cbn [String.eqb Ascii.eqb Bool.eqb bind seq_st]. rewrite all_nil. cbn [result]. unfold s1, set_loc, put_stat, set_stat. reflexivity.
    - apply (agrees_map stat R W V sc _ _ AG Isc); [exact N|]. intros y. fold c. rewrite lookup_on, String.eqb_refl, HM, m_set_key. unfold register. rewrite f_get_put, H. now destruct (key_eqb y x).
  Qed.
  Theorem java_unregister k t v x : hkey_of v = Some x -> exists M stat', assoc c W = Some M /\
    run lib_program pr vcall (S k) None q "remove" [JT t v] (mk L) = Ret (JB (fst (unregister M x))) {| s_h := h; s_b := b; s_loc := L; s_stat := stat' |}
    /\ agrees stat' R (on_factory W c (fun M => snd (unregister M x))) V.
  Proof.
    intros Hx. destruct the_map as (m & M & Qm & N & HM & H). destruct names_apart as ((N1 & N2 & N3) & KP & _ & _). exists M, (put_assoc (map_key sc) (JMap (m_set m (MKey x) None)) stat). split; [exact HM|]. split.
    - erewrite run_eq by exact m_remove. assert (BP : bind_params [(kt, kf)] [JT t v] (mk L) [] = Ret [(kf, (kt, JT kt v))] (mk L)) by (destruct v; try discriminate; reflexivity).
      rewrite BP. cbn [bind]. set (s1 := set_loc (mk L) _).
      assert (B1 : name_val lib_program {| x_this := None; x_class := q |} kf s1 = Ret (JT kt v) s1).
      { eapply name_loc. unfold s1, set_loc. cbn [s_loc assoc]. rewrite String.eqb_refl. reflexivity. }
      assert (B3 : name_val lib_program {| x_this := None; x_class := q |} mp s1 = Ret (JMap m) s1).
      { apply name_map; [reflexivity| |exact Qm]. unfold s1, set_loc. cbn [s_loc assoc]. apply String.eqb_neq in N1. rewrite N1. reflexivity. }
      rewrite all_cons, ex_return. cbn [eval bind]. rewrite B3. cbn [bind]. rewrite B1. cbn [bind dispatch var_of x_class]. unfold map_call.
      assert (MK : mkey_of (JT kt v) = Some (MKey x)) by (destruct v; try discriminate; injection Hx as <-; reflexivity). rewrite MK. cbn [String.eqb Ascii.eqb Bool.eqb bind]. rewrite H. unfold unregister. cbn [fst].
      destruct (f_get M x); cbn [option_map or_null]; unfold s1, set_loc, put_stat, set_stat; reflexivity.
    - apply (agrees_map stat R W V sc _ _ AG Isc); [exact N|]. intros y. fold c. rewrite lookup_on, String.eqb_refl, HM, m_set_key. unfold unregister. cbn [snd]. rewrite f_get_remove, H. now destruct (key_eqb y x).
  Qed.
End Factory.

(* ---------- SseBinary.BodyMessageFactory ---------- *)
Definition sse_place : string := "sse.SseBinary.BodyMessageFactory".
Lemma sse_maker : In main_sse_SseBinary makers.
Proof.
  apply filter_In. split; [|reflexivity]. apply in_flat_map. exists file_sse_SseBinary. split; [|now left]. unfold message_files. rewrite !in_app_iff. unfold sse_files. cbn [In]. tauto.
Qed.
Lemma sse_map_key : map_key main_sse_SseBinary = (sse_place ++ ".bodyMap")%string. Proof. reflexivity. Qed.
Section Sse.
  Variable pr : printers.
  Variable vcall : string -> nat -> list jval -> st -> res jval.
  Variable stat : list (string * jval).
  Variable R : cache.
  Variable W : factories.
  Variable V : list (string * Z).
  Hypothesis AG : agrees stat R W V.
  Variable h : heap.
  Variable b : bytebuf.
  Variable L : list (string * (ty * jval)).
  Notation mk L0 := {| s_h := h; s_b := b; s_loc := L0; s_stat := stat |}.
  Lemma sse_method m n x : method_in (members (factory_class main_sse_SseBinary)) m n = Some x -> find_method lib_program sse_place m n = Some x.
  Proof. exact (method_there main_sse_SseBinary sse_maker eq_refl m n x). Qed.
  Theorem java_sse_register k clazz t z c' : exists M stat', assoc sse_owner W = Some M /\
    run lib_program pr vcall (S k) None sse_place "register" [JCls clazz; JT t (HInt z); JSup c'] (mk L) = Ret JVoid {| s_h := h; s_b := b; s_loc := L; s_stat := stat' |}
    /\ let F := sse_register {| body_map := M; reverse_map := V |} clazz z c' in
       agrees stat' R (on_factory W sse_owner (fun _ => body_map F)) (reverse_map F).
  Proof.
    destruct (the_map stat R W V AG main_sse_SseBinary sse_maker) as (m & M & Qm & N & HM & H). destruct (ag_reverse _ _ _ _ AG) as (mr & Qr & Hr).
    exists M, (put_assoc reverse_key (JMap (m_set mr (MCls clazz) (Some (JT (T1 "Integer") (HInt z))))) (put_assoc (map_key main_sse_SseBinary) (JMap (m_set m (MKey (KInt z)) (Some (JSup c')))) stat)). split; [exact HM|]. split.
    - erewrite run_eq by (apply sse_method; reflexivity). cbn [bind_params conv bind]. set (s1 := set_loc (mk L) _).
      assert (B1 : name_val lib_program {| x_this := None; x_class := sse_place |} "bodyMap" s1 = Ret (JMap m) s1) by exact (name_map stat main_sse_SseBinary m s1 eq_refl eq_refl Qm).
      rewrite all_cons. unfold put_s at 1, call_s. rewrite ex_expr. cbn [eval]. change (fst (create_of (sc_def main_sse_SseBinary)) ++ "Map")%string with "bodyMap"%string. rewrite B1. cbn [bind].
      erewrite (name_loc _ _ (snd (create_of (sc_def main_sse_SseBinary)))) by reflexivity. cbn [bind]. erewrite (name_loc _ _ "supplier") by reflexivity. cbn [bind dispatch var_of x_class]. unfold map_call. cbn [mkey_of String.eqb Ascii.eqb Bool.eqb bind seq_st].
      change (sse_place ++ "." ++ "bodyMap")%string with (map_key main_sse_SseBinary). set (s2 := put_stat s1 _ _).
      assert (B2 : name_val lib_program {| x_this := None; x_class := sse_place |} "reverseMap" s2 = Ret (JMap mr) s2).
      { unfold name_val. cbn [s2 put_stat set_stat s1 set_loc s_loc assoc String.eqb Ascii.eqb Bool.eqb x_this x_class s_stat]. change (sse_place ++ "." ++ "reverseMap")%string with reverse_key.
        rewrite put_other; [|intros Q; apply (maker_not main_sse_SseBinary reverse_key sse_maker); [rewrite others; do 3 right; now left|now symmetry]]. change reverse_key with "sse.SseBinary.BodyMessageFactory.reverseMap"%string. rewrite Qr. reflexivity. }
      rewrite all_cons. unfold put_s, call_s. rewrite ex_expr. cbn [eval]. rewrite B2. cbn [bind]. erewrite (name_loc _ _ "clazz") by reflexivity. cbn [bind]. erewrite (name_loc _ _ (snd (create_of (sc_def main_sse_SseBinary)))) by reflexivity.
      cbn [bind dispatch var_of x_class]. unfold map_call. cbn [mkey_of String.eqb Ascii.eqb Bool.eqb bind seq_st]. rewrite all_nil. reflexivity.
    - cbv zeta. unfold sse_register. cbn [body_map reverse_map]. apply (agrees_reverse _ R _ V).
      + apply (agrees_map stat R W V main_sse_SseBinary _ _ AG sse_maker); [exact N|]. intros y. change (c_name (sc_def main_sse_SseBinary)) with sse_owner in *. rewrite lookup_on, String.eqb_refl, HM, m_set_key. rewrite f_get_put, H. now destruct (key_eqb y (KInt z)).
      + intros x. rewrite assoc_r_put. unfold m_set. cbn [mkey_eqb]. rewrite Hr. now destruct (String.eqb x clazz).
  Qed.
  Theorem java_sse_type k clazz : exists v, run lib_program pr vcall (S k) None sse_place "getMsgType" [JCls clazz] (mk L) = Ret v (mk L) /\
    match assoc clazz V with Some z => exists t, v = JT t (HInt z) | None => exists t, v = JT t HNull end.
  Proof.
    destruct (ag_reverse _ _ _ _ AG) as (mr & Qr & Hr). erewrite run_eq by (apply sse_method; reflexivity). cbn [bind_params conv bind]. set (s1 := set_loc (mk L) _).
    assert (B2 : name_val lib_program {| x_this := None; x_class := sse_place |} "reverseMap" s1 = Ret (JMap mr) s1).
    { unfold name_val. cbn [s1 set_loc s_loc assoc String.eqb Ascii.eqb Bool.eqb x_this x_class s_stat]. change (sse_place ++ "." ++ "reverseMap")%string with "sse.SseBinary.BodyMessageFactory.reverseMap"%string. rewrite Qr. reflexivity. }
    rewrite all_cons, ex_return. cbn [eval]. rewrite B2. cbn [bind]. erewrite (name_loc _ _ "clazz") by reflexivity. cbn [bind dispatch var_of x_class]. unfold map_call. cbn [mkey_of String.eqb Ascii.eqb Bool.eqb bind seq_st]. rewrite Hr.
    eexists. split; [reflexivity|]. destruct (assoc clazz V); cbn [option_map or_null jnull result]; eexists; reflexivity.
  Qed.
  Lemma types_there : assoc type_place lib_program = Some (j_msgtypes sse_SseBinary_msgtypes).
  Proof.
    apply lib_assoc. unfold lib_program, message_program. apply in_or_app. right. apply in_flat_map. exists file_sse_SseBinary. split; [unfold message_files; rewrite !in_app_iff; unfold sse_files; cbn [In]; tauto|].
    apply (flatten_in _ _ (j_factory_rev "body" "msgType" sse_SseBinary_factory sse_SseBinary_msgtypes)).
    - change (f_class (tree file_sse_SseBinary)) with (tree_of (map (tree_of []) (s_nested file_sse_SseBinary)) main_sse_SseBinary). rewrite members_tree. cbv zeta. rewrite !in_app_iff. do 6 right. now left.
    - apply (flatten_in _ _ (j_msgtypes sse_SseBinary_msgtypes)); [do 2 right; now left|]. apply flatten_self.
  Qed.
  Theorem java_get_value x0 x n z call args : In (n, z) sse_SseBinary_msgtypes -> args = [] -> dispatch lib_program vcall call x0 x (JConst type_place n) "getValue" args (mk L) = Ret (jint z) (mk L).
  Proof.
    intros I ->. cbn [dispatch]. unfold const_call, find_method. rewrite types_there. change (method_in (members (j_msgtypes sse_SseBinary_msgtypes)) "getValue" 0) with (Some (@nil (ty * string), [SReturn (Some (EName "value"))])). cbn beta iota.
    change (type_place ++ "." ++ n ++ "." ++ "value")%string with (type_place ++ "." ++ n ++ ".value")%string. cbn [s_stat]. rewrite (ag_types _ _ _ _ AG n z I). reflexivity.
  Qed.
  Lemma leave_self s : leave (List.length (s_loc s)) s = s.
  Proof. destruct s. apply leave_same. reflexivity. Qed.
  Lemma each_type k t z : forall ts, incl ts sse_SseBinary_msgtypes -> forall L0, assoc "value"%string L0 = Some (T0 "int", JT t (HInt z)) -> is_prim t = true ->
    each (fun w s => scoped s (do u s1 <- declare (T0 "MessageType") "type" w s;
       exec lib_program pr vcall (run lib_program pr vcall k) k {| x_this := None; x_class := type_place |} (SBlock [SIf (EBin OEq (EField (EName "type") "value") (EName "value")) (SBlock [SReturn (Some (EName "type"))]) None]) s1))
      (map (fun e => JConst type_place (fst e)) ts) (mk L0)
    = match from_value ts z with inr n => Ret (Some (JConst type_place n)) (mk L0) | inl _ => Ret None (mk L0) end.
  Proof.
    induction ts as [|[n y] ts IH]; intros I L0 B P; [reflexivity|]. cbn [map each from_value fst]. cbn [declare conv bind]. unfold declare, conv. cbn [bind]. set (s1 := set_loc (mk L0) _).
    assert (N1 : name_val lib_program {| x_this := None; x_class := type_place |} "type" s1 = Ret (JConst type_place n) s1) by (eapply name_loc; reflexivity).
    assert (N2 : name_val lib_program {| x_this := None; x_class := type_place |} "value" s1 = Ret (JT t (HInt z)) s1) by (eapply name_loc; exact B).
    rewrite ex_block, all_cons, ex_if. cbn [eval]. rewrite N1. cbn [bind field_val].
    change (type_place ++ "." ++ n ++ "." ++ "value")%string with (type_place ++ "." ++ n ++ ".value")%string. change (s_stat s1) with stat. rewrite (ag_types _ _ _ _ AG n y (I _ (or_introl eq_refl))). cbn [bind]. rewrite N2. cbn [bind jint binary is_numeric T1 is_prim existsb String.eqb Ascii.eqb Bool.eqb orb num arith].
    destruct (y =? z).
    - rewrite ex_block, all_cons, ex_return. cbn [eval]. rewrite N1. cbn [bind seq_st scoped]. rewrite !(leave_self s1). unfold s1, set_loc. cbn [s_h s_b s_loc s_stat]. rewrite leave_b by reflexivity. reflexivity.
    - cbn [seq_st bind]. rewrite all_nil. cbn [scoped bind]. rewrite !(leave_self s1). unfold s1, set_loc. cbn [s_h s_b s_loc s_stat]. rewrite leave_b by reflexivity. apply IH; auto. intros e J. apply I. now right.
  Qed.
  Theorem java_from_value k t z : run lib_program pr vcall (S k) None type_place "fromValue" [JT t (HInt z)] (mk L) = match from_value sse_SseBinary_msgtypes z with inr n => Ret (JConst type_place n) (mk L) | inl e => Exc e (mk L) end.
  Proof.
    assert (FM : find_method lib_program type_place "fromValue" 1 = method_in (members (j_msgtypes sse_SseBinary_msgtypes)) "fromValue" 1).
    { unfold find_method. rewrite types_there. reflexivity. }
    erewrite run_eq by exact FM. cbn [bind_params conv bind]. set (s1 := set_loc (mk L) _). rewrite all_cons. set (ST := SEach _ _ _ _). set (TH := SThrow _).
    assert (E1 : exec lib_program pr vcall (run lib_program pr vcall k) k {| x_this := None; x_class := type_place |} ST s1 = match from_value sse_SseBinary_msgtypes z with inr n => Ret (Some (JConst type_place n)) s1 | inl _ => Ret None s1 end).
    { unfold ST. etransitivity; [|exact (each_type k (T0 "int") z sse_SseBinary_msgtypes (incl_refl _) (s_loc s1) eq_refl eq_refl)]. cbn [exec eval bind]. cbn [String.eqb Ascii.eqb Bool.eqb x_class]. rewrite types_there. cbn [bind]. cbn [j_msgtypes consts]. rewrite map_map. reflexivity. }
    rewrite E1. clear E1 ST. assert (FV : match from_value sse_SseBinary_msgtypes z with inl e => e = IAE | inr _ => True end) by (clear FM; induction sse_SseBinary_msgtypes as [|[n y] l IH]; cbn [from_value]; [reflexivity|]; destruct (y =? z); [exact Logic.I|exact IH]).
    destruct (from_value sse_SseBinary_msgtypes z) as [e|n]; cbn [seq_st bind].
    - subst e. rewrite all_cons. unfold TH. cbn [exec]. cbn [String.eqb Ascii.eqb Bool.eqb T0]. cbn [eval bind]. erewrite (name_loc _ _ "value") by reflexivity. cbn [bind binary is_stringy jstr T1 is_name String.eqb Ascii.eqb Bool.eqb orb jshow elements jshow_item is_char seq_st]. reflexivity.
    - reflexivity.
  Qed.
End Sse.
