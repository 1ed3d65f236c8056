(* The methods of ChecksumServiceFactory and of the services, run as Java, against the model. *)
From Coq Require Import ZArith NArith List Bool String Ascii Lia.
From Verif.Model Require Import JavaPrim ByteBuf Checksum Utf8 Codec Ast Interp Factory Show Heap GenSse Library.
From Verif.Spec Require Import JavaState.
From Verif.Proofs Require Import BytesFacts HeapFacts JavaSem JavaEncode JavaDecode JavaClasses JavaLibrary JavaServices JavaStart JavaState.
From Verif.Java Require Import Lex Syntax Source Sources Sem CodecTrees Init Program.
Import ListNotations.
Open Scope Z_scope.
Open Scope list_scope.

(* ---------- changing one field ---------- *)
Lemma put_other {A} x y (v : A) l : x <> y -> assoc x (put_assoc y v l) = assoc x l.
Proof. intros N. rewrite assoc_put. now destruct (String.eqb_spec x y). Qed.
Lemma put_same {A} y (v w : A) l : assoc y l = Some w -> assoc y (put_assoc y v l) = Some v.
Proof. intros H. rewrite assoc_put, String.eqb_refl, H. reflexivity. Qed.
Definition CACHE_key : string := "ChecksumServiceFactory.CACHE".
Definition reverse_key : string := "sse.SseBinary.BodyMessageFactory.reverseMap".
Definition name_keys : list string := map (fun a => ("ChecksumAlgorithms." ++ a)%string) [CRC16; CRC32; SSE_BIN; SZSE_BIN].
Definition type_keys : list string := map (fun nz => (type_place ++ "." ++ fst nz ++ ".value")%string) sse_SseBinary_msgtypes.
Lemma others : other_keys = CACHE_key :: "Crc16ChecksumService.CRC_TABLE"%string :: "Crc32ChecksumService.CRC_TABLE"%string :: reverse_key :: name_keys ++ type_keys.
Proof. reflexivity. Qed.
Lemma maker_not sc x : In sc makers -> In x other_keys -> map_key sc <> x.
Proof. intros I O Q. subst x. eapply NoDup_app_in; [exact (distinct_NoDup _ keys_distinct)|apply in_map, I|exact O]. Qed.
Lemma others_differ : NoDup other_keys.
Proof. apply distinct_NoDup. vm_compute. reflexivity. Qed.
Lemma NoDup_map_eq {A B} (f : A -> B) l x y : NoDup (map f l) -> In x l -> In y l -> f x = f y -> x = y.
Proof.
  induction l as [|z l IH]; intros N I J Q; [destruct I|]. cbn [map] in N. inversion N as [|? ? Nz N']; subst. destruct I as [->|I], J as [->|J]; auto.
  - exfalso. apply Nz. rewrite Q. now apply in_map.
  - exfalso. apply Nz. rewrite <- Q. now apply in_map.
Qed.
Lemma maker_key_eq sc sc' : In sc makers -> In sc' makers -> map_key sc = map_key sc' -> sc = sc'.
Proof. apply NoDup_map_eq. eapply NoDup_app_1. exact (distinct_NoDup _ keys_distinct). Qed.
Lemma maker_name_eq sc sc' : In sc makers -> In sc' makers -> c_name (sc_def sc) = c_name (sc_def sc') -> sc = sc'.
Proof. apply (NoDup_map_eq (fun sc => c_name (sc_def sc))). exact (distinct_NoDup _ owners_distinct). Qed.
Lemma name_key a : In a [CRC16; CRC32; SSE_BIN; SZSE_BIN] -> In ("ChecksumAlgorithms." ++ a)%string name_keys.
Proof. exact (in_map (fun a => ("ChecksumAlgorithms." ++ a)%string) _ a). Qed.
Lemma type_key n z : In (n, z) sse_SseBinary_msgtypes -> In (type_place ++ "." ++ n ++ ".value")%string type_keys.
Proof. intros I. exact (in_map (fun nz => (type_place ++ "." ++ fst nz ++ ".value")%string) _ _ I). Qed.
Lemma differ {A} (x : A) y : NoDup (x :: y) -> forall z, In z y -> z <> x.
Proof. intros N z I ->. inversion N; auto. Qed.
Lemma agrees_cache stat R W V R' m' : agrees stat R W V ->
  (forall a, match cache_get R' a with Some s => exists v, m' (MKey (KStr (chars a))) = Some v /\ is_service v s | None => m' (MKey (KStr (chars a))) = None end) ->
  agrees (put_assoc CACHE_key (JMap m') stat) R' W V.
Proof.
  intros [A1 A2 A3 A4 A5 A6 A7 A8 A9] H. pose proof others_differ as ND. rewrite others in ND. pose proof (differ _ _ ND) as DF.
  split.
  - now rewrite keys_put.
  - exact A2.
  - rewrite put_other; [exact A3|]. apply DF. now left.
  - rewrite put_other; [exact A4|]. apply DF. right. now left.
  - intros a I. rewrite put_other; [apply A5, I|]. apply DF. do 3 right. apply in_or_app. left. apply name_key, I.
  - intros n z I. rewrite put_other; [apply A6, I|]. apply DF. do 3 right. apply in_or_app. right. eapply type_key, I.
  - destruct A7 as (m & Q & _). exists m'. split; [exact (put_same _ _ _ _ Q)|exact H].
  - intros sc F C. rewrite put_other; [apply A8; assumption|]. apply maker_not; [now apply makers_in|]. rewrite others. now left.
  - rewrite put_other; [exact A9|]. apply DF. do 2 right. now left.
Qed.

(* ---------- algorithm() ---------- *)
Lemma service_names : forall c a, In (c, a) [("Crc16ChecksumService", CRC16); ("Crc32ChecksumService", CRC32); ("SseBinChecksumService", SSE_BIN); ("SzseBinChecksumService", SZSE_BIN)]%string ->
  find_method lib_program c "algorithm" 0 = Some ([], [SReturn (Some (EField (EName "ChecksumAlgorithms") a))]).
Proof.
  intros c a I. cbn [In] in I. destruct I as [Q|[Q|[Q|[Q|[]]]]]; injection Q as <- <-; unfold find_method; erewrite codec_class by (cbn; tauto); reflexivity.
Qed.
Lemma names_unused : (let ks := stat_keys lib_program in forallb (fun c => negb (mem (c ++ ".ChecksumAlgorithms") ks) && negb (mem (c ++ ".Objects") ks)) ["Crc16ChecksumService"; "Crc32ChecksumService"; "SseBinChecksumService"; "SzseBinChecksumService"]%string) = true.
Proof. vm_compute. reflexivity. Qed.
Section Registry.
  Variable pr : printers.
  Variable vcall : string -> nat -> list jval -> st -> res jval.
  Variable stat : list (string * jval).
  Variable R : cache.
  Variable W : factories.
  Variable V : list (string * Z).
  Hypothesis AG : agrees stat R W V.
  Lemma no_field x : mem x (stat_keys lib_program) = false -> assoc x stat = None.
  Proof. rewrite <- (ag_keys _ _ _ _ AG), mem_keys. destruct (assoc x stat); [discriminate|reflexivity]. Qed.
  Lemma name_static c d x s : s_stat s = stat -> assoc x (s_loc s) = None -> mem (c ++ "." ++ x) (stat_keys lib_program) = false -> assoc c lib_program = Some d -> existsb (fun e => String.eqb x (fst e)) (consts d) = false ->
    name_val lib_program {| x_this := None; x_class := c |} x s = Ret (JCls (resolve lib_program c x)) s.
  Proof. intros Hs N M D C. unfold name_val. cbn [x_this x_class]. rewrite N, Hs, (no_field _ M), D, C. reflexivity. Qed.
  Lemma algorithm_lib c a k s : s_stat s = stat -> In (c, a) [("Crc16ChecksumService", CRC16); ("Crc32ChecksumService", CRC32); ("SseBinChecksumService", SSE_BIN); ("SzseBinChecksumService", SZSE_BIN)]%string ->
    run lib_program pr vcall (S k) None c "algorithm" [] s = Ret (jstr (chars a)) s.
  Proof.
    intros Hs I. erewrite run_eq by exact (service_names c a I). cbn [bind_params bind]. rewrite all_cons, ex_return, ev_field. cbn [eval].
    set (s1 := set_loc s []). assert (H1 : s_stat s1 = stat) by exact Hs. assert (U : mem (c ++ "." ++ "ChecksumAlgorithms") (stat_keys lib_program) = false).
    { pose proof names_unused as U. cbv zeta in U. rewrite forallb_forall in U. assert (Ic : In c ["Crc16ChecksumService"; "Crc32ChecksumService"; "SseBinChecksumService"; "SzseBinChecksumService"]%string) by (apply (in_map fst) in I; exact I). specialize (U c Ic). apply andb_true_iff in U. destruct U as [U _]. apply negb_true_iff in U. change ("." ++ "ChecksumAlgorithms")%string with ".ChecksumAlgorithms"%string. exact U. }
    assert (D : exists d, assoc c lib_program = Some d /\ consts d = []) by (cbn [In] in I; destruct I as [Q|[Q|[Q|[Q|[]]]]]; injection Q as <- <-; (eexists; split; [apply codec_class; cbn; tauto|reflexivity])). destruct D as (d & D & CD).
    rewrite (name_static c d "ChecksumAlgorithms" s1 H1 eq_refl U D) by now rewrite CD. cbn [bind].
    replace (resolve lib_program c "ChecksumAlgorithms") with "ChecksumAlgorithms"%string by (unfold resolve; rewrite resolve_keys; cbn [In] in I; destruct I as [Q|[Q|[Q|[Q|[]]]]]; injection Q as <- <-; vm_compute; reflexivity).
    unfold field_val. cbn [String.eqb Ascii.eqb Bool.eqb andb]. rewrite H1. change ("ChecksumAlgorithms" ++ "." ++ a)%string with ("ChecksumAlgorithms." ++ a)%string.
    rewrite (ag_names _ _ _ _ AG a) by (apply (in_map snd) in I; exact I). cbn [bind seq_st result]. unfold s1, set_loc. destruct s; reflexivity.
  Qed.
  Lemma java_algorithm v sv k x0 x s : s_stat s = stat -> is_service v sv -> dispatch lib_program vcall (run lib_program pr vcall (S k)) x0 x v "algorithm" [] s = Ret (jstr (chars (algorithm sv))) s.
  Proof.
    intros Hs [->|[[-> ->]|[[-> ->]|[[-> ->]|[-> ->]]]]]; [reflexivity| | | |]; cbn [dispatch]; apply algorithm_lib; try exact Hs; cbn; tauto.
  Qed.

  Variable h : heap.
  Variable b : bytebuf.
  Variable L : list (string * (ty * jval)).
  Notation mk L0 := {| s_h := h; s_b := b; s_loc := L0; s_stat := stat |}.
  Lemma name_cache m s : s_stat s = stat -> assoc "CACHE"%string (s_loc s) = None -> assoc CACHE_key stat = Some (JMap m) ->
    name_val lib_program {| x_this := None; x_class := "ChecksumServiceFactory" |} "CACHE" s = Ret (JMap m) s.
  Proof. intros Hs N Q. unfold name_val. rewrite N. cbn [x_this x_class]. change ("ChecksumServiceFactory" ++ "." ++ "CACHE")%string with CACHE_key. rewrite Hs, Q. reflexivity. Qed.
  Lemma registry_method m n x : method_in (members class_ChecksumServiceFactory) m n = Some x -> find_method lib_program "ChecksumServiceFactory" m n = Some x.
  Proof. intros H. unfold find_method. erewrite codec_class by (cbn; tauto). now rewrite H. Qed.

  Theorem java_get_instance k : run lib_program pr vcall (S k) None "ChecksumServiceFactory" "getInstance" [] (mk L) = Ret (JOne "ChecksumServiceFactory") (mk L).
  Proof.
    erewrite run_eq by (apply registry_method; reflexivity). cbn [bind_params bind]. rewrite all_cons, ex_return. cbn [eval]. unfold name_val. cbn [set_loc s_loc assoc x_this x_class s_stat]. rewrite no_field by (vm_compute; reflexivity).
    erewrite codec_class by (cbn; tauto). cbn [consts class_ChecksumServiceFactory existsb fst String.eqb Ascii.eqb Bool.eqb orb bind seq_st result]. reflexivity.
  Qed.
  Theorem java_get_service k a : exists v, run lib_program pr vcall (S k) None "ChecksumServiceFactory" "getChecksumService" [jstr (chars a)] (mk L) = Ret v (mk L)
    /\ match get_service R a with Some s => is_service v s | None => exists t, v = JT t HNull end.
  Proof.
    destruct (ag_cache _ _ _ _ AG) as (m & Q & H). specialize (H a). unfold get_service.
    erewrite run_eq by (apply registry_method; reflexivity). cbn [bind_params bind]. unfold jstr, conv. cbn [bind_params bind]. rewrite all_cons, ex_return. cbn [eval]. set (s1 := set_loc (mk L) _).
    rewrite (name_cache m s1 eq_refl eq_refl Q). cbn [bind]. unfold s1 at 1. cbn [set_loc name_val s_loc assoc String.eqb Ascii.eqb Bool.eqb bind]. cbn [dispatch]. unfold map_call. cbn [mkey_of String.eqb Ascii.eqb Bool.eqb bind is_prim existsb].
    destruct (cache_get R a) as [sv|].
    - destruct H as (v & Hv & IS). rewrite Hv. cbn [or_null]. exists v. split; [|exact IS]. destruct IS as [->|[[-> _]|[[-> _]|[[-> _]|[-> _]]]]]; reflexivity.
    - rewrite H. cbn [or_null jnull]. eexists. split; [reflexivity|]. eexists. reflexivity.
  Qed.
  Theorem java_clear k : exists stat', run lib_program pr vcall (S k) None "ChecksumServiceFactory" "clearAllChecksumService" [] (mk L) = Ret JVoid {| s_h := h; s_b := b; s_loc := L; s_stat := stat' |}
    /\ agrees stat' (clear_services R) W V.
  Proof.
    destruct (ag_cache _ _ _ _ AG) as (m & Q & _). exists (put_assoc CACHE_key (JMap (fun _ => None)) stat). split; [|apply (agrees_cache stat R W V _ _ AG); reflexivity].
    erewrite run_eq by (apply registry_method; reflexivity). cbn [bind_params bind]. rewrite all_cons, ex_expr. cbn [eval]. set (s1 := set_loc (mk L) _). rewrite (name_cache m s1 eq_refl eq_refl Q). reflexivity.
  Qed.
  Theorem java_remove_service k a : exists stat', run lib_program pr vcall (S k) None "ChecksumServiceFactory" "removeChecksumService" [jstr (chars a)] (mk L) = Ret JVoid {| s_h := h; s_b := b; s_loc := L; s_stat := stat' |}
    /\ agrees stat' (remove_service R a) W V.
  Proof.
    destruct (ag_cache _ _ _ _ AG) as (m & Q & H). exists (put_assoc CACHE_key (JMap (m_set m (MKey (KStr (chars a))) None)) stat). split.
    - erewrite run_eq by (apply registry_method; reflexivity). cbn [bind_params bind]. unfold jstr, conv. cbn [bind_params bind]. rewrite all_cons, ex_expr. cbn [eval]. set (s1 := set_loc (mk L) _).
      rewrite (name_cache m s1 eq_refl eq_refl Q). reflexivity.
    - apply (agrees_cache stat R W V _ _ AG). intros x. unfold remove_service. rewrite cache_get_remove, m_set_key, chars_eqb. destruct (String.eqb x a); [reflexivity|apply H].
  Qed.
  Theorem java_registry k v sv : is_service v sv -> exists stat', run lib_program pr vcall (S (S k)) None "ChecksumServiceFactory" "registry" [v] (mk L) = Ret (JB (fst (registry R sv))) {| s_h := h; s_b := b; s_loc := L; s_stat := stat' |}
    /\ agrees stat' (snd (registry R sv)) W V.
  Proof.
    intros IS. destruct (ag_cache _ _ _ _ AG) as (m & Q & H).
    assert (BP : forall t, bind_params [(t, "checksumService"%string)] [v] (mk L) [] = Ret [("checksumService"%string, (t, v))] (mk L)) by (intros t; destruct IS as [->|[[-> _]|[[-> _]|[[-> _]|[-> _]]]]]; reflexivity).
    erewrite run_eq by (apply registry_method; reflexivity). rewrite BP. cbn [bind]. set (s1 := set_loc (mk L) _). pose proof (name_cache m s1 eq_refl eq_refl Q) as N1.
    assert (N2 : name_val lib_program {| x_this := None; x_class := "ChecksumServiceFactory" |} "checksumService" s1 = Ret v s1) by (eapply name_loc; reflexivity).
    pose proof (H (algorithm sv)) as HA. unfold registry. rewrite all_cons, ex_if. cbn [eval]. rewrite N1. cbn [bind]. rewrite N2. cbn [bind]. rewrite (java_algorithm v sv) by first [reflexivity|exact IS]. cbn [bind dispatch]. unfold map_call, jstr. cbn [mkey_of String.eqb Ascii.eqb Bool.eqb bind].
    destruct (cache_get R (algorithm sv)) as [old|].
    - destruct HA as (w & -> & _). exists stat. split; [|exact AG]. rewrite ex_block, all_cons, ex_return. cbn [eval bind seq_st scoped fst]. unfold s1, set_loc, leave. reflexivity.
    - rewrite HA. cbn [seq_st bind]. rewrite all_cons, ex_expr. cbn [eval]. rewrite N1. cbn [bind]. rewrite N2. cbn [bind]. rewrite (java_algorithm v sv) by first [reflexivity|exact IS]. cbn [bind]. rewrite N2. cbn [bind dispatch]. unfold map_call, jstr. cbn [mkey_of String.eqb Ascii.eqb Bool.eqb bind seq_st].
      rewrite all_cons, ex_return. cbn [eval bind seq_st result fst snd]. exists (put_assoc CACHE_key (JMap (m_set m (MKey (KStr (chars (algorithm sv)))) (Some v))) stat). split; [reflexivity|].
      apply (agrees_cache stat R W V _ _ AG). intros x. rewrite cache_get_put, m_set_key, chars_eqb. destruct (String.eqb x (algorithm sv)); [eauto|apply H].
  Qed.
End Registry.

(* ---------- calc, verify ---------- *)
Definition lib_services : list (string * service) := [("Crc16ChecksumService", crc16_service); ("Crc32ChecksumService", crc32_service); ("SseBinChecksumService", sse_service); ("SzseBinChecksumService", szse_service)]%string.
Lemma calc_in P stat pr vcall k c sv h b L : (forall c d, In (c, d) codec_classes -> assoc c P = Some d) ->
  assoc "Crc16ChecksumService.CRC_TABLE"%string stat = Some (JArr crc16_table) -> assoc "Crc32ChecksumService.CRC_TABLE"%string stat = Some (JArr crc32_table) ->
  2 ^ 31 <= Z.of_nat k -> okb b -> In (c, sv) lib_services ->
  run P pr vcall (S k) None c "calc" [JBuf] {| s_h := h; s_b := b; s_loc := L; s_stat := stat |} = Ret (jint (calc sv (readable b))) {| s_h := h; s_b := b; s_loc := L; s_stat := stat |}.
Proof.
  intros PC T16 T32 Hk OB I. cbn [In lib_services] in I. destruct I as [Q|[Q|[Q|[Q|[]]]]]; injection Q as <- <-; cbn [calc crc16_service crc32_service sse_service szse_service].
  - apply calc_crc16; auto.
  - apply calc_crc32; auto.
  - apply calc_sse; auto.
  - apply calc_szse; auto.
Qed.
Lemma computes_in P stat v sv : (forall c d, In (c, d) codec_classes -> assoc c P = Some d) ->
  assoc "Crc16ChecksumService.CRC_TABLE"%string stat = Some (JArr crc16_table) -> assoc "Crc32ChecksumService.CRC_TABLE"%string stat = Some (JArr crc32_table) ->
  is_service v sv -> computes P stat v (calc sv).
Proof.
  intros PC T16 T32 IS. split; [destruct IS as [->|[[-> _]|[[-> _]|[[-> _]|[-> _]]]]]; exact I|]. intros pr vcall n x0 x h b L Hn OB. cbv zeta.
  destruct IS as [->|IS]; [exists (T1 "Integer"); reflexivity|]. exists (T1 "int"). destruct IS as [[-> ->]|[[-> ->]|[[-> ->]|[-> ->]]]]; cbn [dispatch]; apply calc_in; auto; cbn; tauto.
Qed.
Section Services.
  Variable stat : list (string * jval).
  Variable R : cache.
  Variable W : factories.
  Variable V : list (string * Z).
  Hypothesis AG : agrees stat R W V.
  Theorem java_calc pr vcall k c sv h b L : 2 ^ 31 <= Z.of_nat k -> okb b -> In (c, sv) lib_services ->
    run lib_program pr vcall (S k) None c "calc" [JBuf] {| s_h := h; s_b := b; s_loc := L; s_stat := stat |} = Ret (jint (calc sv (readable b))) {| s_h := h; s_b := b; s_loc := L; s_stat := stat |}.
  Proof. apply calc_in; [exact codec_class|exact (ag_crc16 _ _ _ _ AG)|exact (ag_crc32 _ _ _ _ AG)]. Qed.
  Lemma service_lib c sv : In (c, sv) lib_services -> is_service (JOne c) sv.
  Proof. intros I. cbn [In lib_services] in I. unfold is_service. destruct I as [Q|[Q|[Q|[Q|[]]]]]; injection Q as <- <-; tauto. Qed.
  Lemma service_computes v sv : is_service v sv -> computes lib_program stat v (calc sv).
  Proof. apply computes_in; [exact codec_class|exact (ag_crc16 _ _ _ _ AG)|exact (ag_crc32 _ _ _ _ AG)]. Qed.
  Theorem java_verify pr vcall k c sv h b L t e : 2 ^ 31 <= Z.of_nat k -> okb b -> In (c, sv) lib_services ->
    run lib_program pr vcall (S (S k)) None c "verify" [JBuf; JT t (match e with Some z => HInt z | None => HNull end)] {| s_h := h; s_b := b; s_loc := L; s_stat := stat |}
    = Ret (JB (verify (fun b => calc sv (readable b)) b e)) {| s_h := h; s_b := b; s_loc := L; s_stat := stat |}.
  Proof.
    intros Hk OB I.
    assert (D : exists d, assoc c lib_program = Some d /\ consts d = [] /\ method_in (members d) "verify" 2 = None /\ exists ts, supers d = [Ty "ChecksumService" ts])
      by (cbn [In lib_services] in I; destruct I as [Q|[Q|[Q|[Q|[]]]]]; injection Q as <- <-; (eexists; split; [apply codec_class; cbn; tauto|split; [reflexivity|split; [reflexivity|eexists; reflexivity]]])).
    destruct D as (d & D & CD & M & ts & SU).
    assert (FM : find_method lib_program c "verify" 2 = method_in (members class_ChecksumService) "verify" 2).
    { unfold find_method. rewrite D, M, SU. cbn [inherited]. erewrite codec_class by (cbn; tauto). reflexivity. }
    assert (U : mem (c ++ "." ++ "Objects") (stat_keys lib_program) = false).
    { pose proof names_unused as U. cbv zeta in U. rewrite forallb_forall in U. assert (Ic : In c ["Crc16ChecksumService"; "Crc32ChecksumService"; "SseBinChecksumService"; "SzseBinChecksumService"]%string) by (apply (in_map fst) in I; exact I). specialize (U c Ic). apply andb_true_iff in U. destruct U as [_ U]. apply negb_true_iff in U. change ("." ++ "Objects")%string with ".Objects"%string. exact U. }
    assert (RS : resolve lib_program c "Objects" = "Objects"%string) by (unfold resolve; rewrite resolve_keys; cbn [In lib_services] in I; destruct I as [Q|[Q|[Q|[Q|[]]]]]; injection Q as <- <-; vm_compute; reflexivity).
    erewrite run_eq by exact FM. assert (BP : exists t', forall s, bind_params [(Ty "T" [], "buffer"%string); (Ty "R" [], "expectedChecksum"%string)] [JBuf; JT t (match e with Some z => HInt z | None => HNull end)] s []
      = Ret [("expectedChecksum"%string, (Ty "R" [], JT t' (match e with Some z => HInt z | None => HNull end))); ("buffer"%string, (Ty "T" [], JBuf))] s) by (exists (Ty "R" []); intros s; destruct e; reflexivity).
    destruct BP as (t' & BP). rewrite BP. cbn [bind]. set (s1 := set_loc _ _). rewrite all_cons, ex_return. cbn [eval].
    rewrite (name_static stat R W V AG c d "Objects" s1 eq_refl eq_refl U D) by now rewrite CD. rewrite RS. cbn [bind]. assert (N1 : name_val lib_program {| x_this := None; x_class := c |} "buffer" s1 = Ret JBuf s1) by (eapply name_loc; reflexivity).
    assert (N2 : name_val lib_program {| x_this := None; x_class := c |} "expectedChecksum" s1 = Ret (JT t' (match e with Some z => HInt z | None => HNull end)) s1) by (eapply name_loc; reflexivity).
    rewrite N1. cbn [bind x_this x_class String.eqb Ascii.eqb Bool.eqb]. assert (C1 : run lib_program pr vcall (S k) None c "calc" [JBuf] s1 = Ret (jint (calc sv (readable b))) s1) by (apply java_calc; assumption). rewrite C1. cbn [bind].
    rewrite N2. cbn [bind dispatch]. rewrite (absent "Objects") by (cbn; tauto). unfold lib_call. cbn [String.eqb Ascii.eqb Bool.eqb andb jint].
    unfold jeq. cbn [elements]. destruct e as [z|]; cbn [jeq_item verify bind seq_st result]; unfold s1, set_loc; reflexivity.
  Qed.
  Theorem agrees_world : world (env_of lib_classes W R) stat.
  Proof.
    split.
    - reflexivity.
    - exact (ag_keys _ _ _ _ AG).
    - destruct (ag_cache _ _ _ _ AG) as (m & Q & H). exists m. split; [exact Q|]. intros a. specialize (H a). cbn [env_of checksum]. unfold get_service. destruct (cache_get R a) as [sv|]; cbn [option_map]; [|exact H].
      destruct H as (v & Hv & IS). exists v. split; [exact Hv|]. apply service_computes, IS.
    - intros sc F C. destruct (ag_maps _ _ _ _ AG sc F C) as (m & Q & N & H). exists m. split; [exact Q|]. split; [exact N|]. intros kk. apply H.
  Qed.
End Services.
