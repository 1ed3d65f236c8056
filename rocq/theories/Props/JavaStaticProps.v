(* The Java text itself, run by the semantics of Java/Sem.v: sources, start-up, registry, factories, checksum services, bitmaps. *)
From Coq Require Import ZArith List Bool String Ascii Lia.
From Verif.Model Require Import JavaPrim ByteBuf Checksum Utf8 Codec Ast Interp Factory Show Heap GenSse Library BitMap.
From Verif.Spec Require Import Bytes Buffers Maps Wire Crc JavaState JavaRun.
From Verif.Proofs Require Import BytesFacts BufFacts BitMapFacts CodecFacts HeapFacts RegistryFacts JavaSem JavaEncode JavaClasses JavaText JavaTextCodec JavaTextSample JavaTextRisk JavaTextSse JavaTextSzse JavaTextBjse
  JavaLibrary JavaStart JavaState JavaRegistry JavaFactories JavaServices JavaBitmaps.
From Verif.Props Require Import ChecksumProps BitMapProps.
From Verif.Java Require Import Lex Syntax Source Sources Sem CodecTrees Init Program FilesSample FilesRisk FilesSse FilesSzse FilesBjse.
Import ListNotations.
Open Scope Z_scope.
Open Scope list_scope.

(* ---- C72: the program is the text of the files ---- *)
Theorem C72_text_reads_as_tree : forall t f, In (t, f) all_files -> reads t f.
Proof.
  intros t f H. unfold all_files in H. apply in_app_or in H as [H|H]; [exact (codec_reads t f H)|]. apply in_map_iff in H as (s & Q & H). injection Q as <- <-.
  unfold message_files in H. rewrite !in_app_iff in H. destruct H as [H|[H|[H|[H|H]]]].
  - exact (all_same_text _ sample_text s H).
  - exact (all_same_text _ risk_text s H).
  - exact (all_same_text _ sse_text s H).
  - exact (all_same_text _ szse_text s H).
  - exact (all_same_text _ bjse_text s H).
Qed.
(* the program consists of the classes of the files, and of nothing else *)
Theorem C72_program_is_the_files : forall q d, In (q, d) lib_program -> exists t f q0, In (t, f) all_files /\ In (q, d) (flatten q0 (f_class f)).
Proof.
  intros q d H. unfold lib_program in H. apply in_app_or in H as [H|H].
  - assert (Q : codec_classes = map (fun tf => (class_name (f_class (snd tf)), f_class (snd tf))) codec_files) by reflexivity. rewrite Q in H. apply in_map_iff in H as ((t & f) & J & H). cbn [snd] in J. injection J as <- <-.
    exists t, f, (class_name (f_class f)). split; [apply in_or_app; now left|apply flatten_self].
  - apply in_flat_map in H as (s & Hs & H). exists (s_text s), (tree s), (key_of s). split; [|exact H]. apply in_or_app. right. apply in_map_iff. eauto.
Qed.
(* every class of the model is a class of the program, and its tree is the one built from the model *)
Theorem C72_model_classes_are_in_the_files : forall c cd, assoc c lib_classes = Some cd ->
  exists sc nested, file_class sc /\ sc_def sc = cd /\ c_name cd = c /\ assoc c lib_program = Some (tree_of nested sc).
Proof.
  intros c cd H. destruct (in_some_file c cd H) as (sc & nested & F & IF). exists sc, nested. split; [exact F|]. pose proof (lib_tree c cd sc nested IF) as T. destruct IF as (A & B & _). rewrite A in *. repeat split; auto.
Qed.
(* no name is used twice *)
Theorem C72_names_are_distinct : NoDup (map fst lib_program).
Proof. exact lib_keys_nodup. Qed.
Example C72_meets : List.length all_files = 188%nat /\ List.length lib_classes = 182%nat.
Proof. split; vm_compute; reflexivity. Qed.

(* ---- C73: start-up ---- *)
Lemma initially_library o k c : lookup_factory lib_factories o k = Some c -> assoc c lib_classes <> None.
Proof.
  intros H. unfold lookup_factory in H. destruct (assoc o lib_factories) as [m|] eqn:Hm; [|discriminate]. apply f_get_in in H.
  assert (A : forallb (fun om : string * list (key * string) => forallb (fun kc => match assoc (snd kc) lib_classes with Some _ => true | None => false end) (snd om)) lib_factories = true) by (vm_compute; reflexivity).
  rewrite forallb_forall in A. specialize (A (o, m) (assoc_in _ _ _ Hm)). cbn [snd] in A. rewrite forallb_forall in A. specialize (A (k, c) H). cbn [snd] in A. destruct (assoc c lib_classes); discriminate.
Qed.
Theorem C73_classes_initialise : forall pr vcall h b, exists stat,
  init_all lib_program pr vcall 304 (at_rest h b (start_stat lib_program)) = Ret tt (at_rest h b stat)
  /\ running stat initial_cache lib_factories (reverse_map sse_initial).
Proof. intros pr vcall h b. exists after_start. split; [apply starts|]. split; [exact agrees_start|exact initially_library]. Qed.

(* ---- C74: registry and factories ---- *)
Lemma maker sc : factory_like sc -> In sc makers.
Proof. intros (F & C & _). now apply makers_in. Qed.
Lemma enough_S k : enough k -> exists k', k = S (S (S (S k'))) /\ 2 ^ 31 <= Z.of_nat k'.
Proof. unfold enough. intros H. do 4 (destruct k as [|k]; [lia|]). exists k. split; [reflexivity|lia]. Qed.
Lemma owner_of stat R W V sc : agrees stat R W V -> factory_like sc -> assoc (c_name (sc_def sc)) W = Some (owner_map W (c_name (sc_def sc))).
Proof. intros AG F. destruct (owner_there _ _ _ _ _ AG (maker sc F)) as (M & H). unfold owner_map. now rewrite H. Qed.

Lemma suppliers_register W o x c : (forall o k c, lookup_factory W o k = Some c -> assoc c lib_classes <> None) -> assoc c lib_classes <> None ->
  forall o' k c', lookup_factory (on_factory W o (fun M => register M x c)) o' k = Some c' -> assoc c' lib_classes <> None.
Proof.
  intros H Hc o' k c'. rewrite lookup_on. destruct (String.eqb o' o); [|apply H]. destruct (assoc o W) as [M|] eqn:Q; [|discriminate]. unfold register. rewrite f_get_put. destruct (key_eqb k x); [intros E; injection E as <-; exact Hc|].
  intros E. apply (H o k). unfold lookup_factory. now rewrite Q.
Qed.
Lemma suppliers_unregister W o x : (forall o k c, lookup_factory W o k = Some c -> assoc c lib_classes <> None) ->
  forall o' k c', lookup_factory (on_factory W o (fun M => snd (unregister M x))) o' k = Some c' -> assoc c' lib_classes <> None.
Proof.
  intros H o' k c'. rewrite lookup_on. destruct (String.eqb o' o); [|apply H]. destruct (assoc o W) as [M|] eqn:Q; [|discriminate]. unfold unregister. cbn [snd]. rewrite f_get_remove. destruct (key_eqb k x); [discriminate|].
  intros E. apply (H o k). unfold lookup_factory. now rewrite Q.
Qed.

Lemma one_call pr k d x stat R W V h b L : enough k -> running stat R W V -> sensible x -> exists r h' stat',
  java_call pr k d x {| s_h := h; s_b := b; s_loc := L; s_stat := stat |} = (match r with inr v => Ret v {| s_h := h'; s_b := b; s_loc := L; s_stat := stat' |} | inl e => Exc e {| s_h := h'; s_b := b; s_loc := L; s_stat := stat' |} end)
  /\ answers x (R, W, V) h h' r /\ (let '(R', W', V') := after x (R, W, V) in running stat' R' W' V').
Proof.
  intros K [AG SU] SX. destruct (enough_S k K) as (k' & -> & K').
  destruct x as [a|v sv|a| |sc x|sc x c|sc x|clazz z c|clazz|z]; cbn [java_call answers after sensible] in *; unfold invoke_on; set (vc := vcalls lib_program pr (S (S (S (S k')))) d).
  - destruct (java_get_service pr vc stat R W V AG h b L (S (S (S k'))) a) as (v & E & H). exists (inr v), h, stat. split; [exact E|]. split; [eauto|]. split; assumption.
  - destruct (java_registry pr vc stat R W V AG h b L (S (S k')) v sv SX) as (stat' & E & H). exists (inr (JB (fst (registry R sv)))), h, stat'. split; [exact E|]. split; [auto|]. split; assumption.
  - destruct (java_remove_service pr vc stat R W V AG h b L (S (S (S k'))) a) as (stat' & E & H). exists (inr JVoid), h, stat'. split; [exact E|]. split; [auto|]. split; assumption.
  - destruct (java_clear pr vc stat R W V AG h b L (S (S (S k')))) as (stat' & E & H). exists (inr JVoid), h, stat'. split; [exact E|]. split; [auto|]. split; assumption.
  - destruct SX as [F Hx]. pose proof F as (_ & _ & Own). assert (Hx' : x = HNull \/ exists y, hkey_of x = Some y) by (destruct Hx as [->|N]; [now left|right; destruct (hkey_of x) as [y|]; [eauto|contradiction]]).
    destruct (java_create pr vc stat R W V AG sc (maker sc F) Own h b L (S k') (key_type_of sc) x SU Hx') as (M & HM & E). unfold owner_map. rewrite HM. rewrite E. clear E.
    destruct (hkey_of x) as [y|]; [|exists (inl IAE), h, stat; split; [reflexivity|split; [split; reflexivity|split; assumption]]].
    destruct (Factory.create M y) as [e|c]; [exists (inl e), h, stat; split; [reflexivity|split; [split; reflexivity|split; assumption]]|]. destruct (hnew (env_of lib_classes W R) h c) as [h1 o]. exists (inr (JT (T1 c) o)), h1, stat. split; [reflexivity|split; [split; [reflexivity|eauto]|split; assumption]].
  - destruct SX as (F & (es & Q) & Hx & Hc). pose proof F as (_ & _ & Own). destruct (hkey_of x) as [y|] eqn:Hy; [|contradiction].
    destruct (java_register pr vc stat R W V AG sc (maker sc F) Own h b L (S (S (S k'))) es (key_type_of sc) x y c Q Hy) as (stat' & E & H). exists (inr JVoid), h, stat'. split; [exact E|]. split; [auto|]. split; [exact H|].
    apply suppliers_register; assumption.
  - destruct SX as (F & Hx). pose proof F as (_ & _ & Own). destruct (hkey_of x) as [y|] eqn:Hy; [|contradiction].
    destruct (java_unregister pr vc stat R W V AG sc (maker sc F) Own h b L (S (S (S k'))) (key_type_of sc) x y Hy) as (M & stat' & HM & E & H). unfold owner_map. rewrite HM. exists (inr (JB (fst (unregister M y)))), h, stat'. split; [exact E|]. split; [auto|]. split; [exact H|].
    apply suppliers_unregister; assumption.
  - destruct (java_sse_register pr vc stat R W V AG h b L (S (S (S k'))) clazz (T1 "Integer") z c) as (M & stat' & HM & E & H). unfold owner_map. rewrite HM. exists (inr JVoid), h, stat'. split; [exact E|]. split; [auto|]. split; [exact H|].
    unfold sse_register. cbn [body_map]. intros o k c' G. revert G. rewrite lookup_on. destruct (String.eqb o sse_owner) eqn:Qo; [|apply SU]. rewrite HM. rewrite f_get_put. destruct (key_eqb k (KInt z)); [intros G; injection G as <-; exact SX|].
    intros G. apply (SU sse_owner k). unfold lookup_factory. now rewrite HM.
  - destruct (java_sse_type pr vc stat R W V AG h b L (S (S (S k'))) clazz) as (v & E & H). exists (inr v), h, stat. split; [exact E|]. split; [|split; assumption]. split; [reflexivity|]. destruct (assoc clazz V); destruct H as (t & ->); eauto.
  - pose proof (java_from_value pr vc stat R W V AG h b L (S (S (S k'))) (T1 "int") z) as E. destruct (from_value sse_SseBinary_msgtypes z) as [e|n].
    + exists (inl e), h, stat. split; [exact E|split; [split; reflexivity|split; assumption]].
    + exists (inr (JConst type_place n)), h, stat. split; [exact E|split; [split; reflexivity|split; assumption]].
Qed.
(* any calls in any order, from start-up on: the Java text answers as the model does *)
Theorem C74_calls : forall pr k d xs stat R W V h b, enough k -> running stat R W V -> Forall sensible xs ->
  exists R' W' V' h' stat', calls pr k d xs (R, W, V) (at_rest h b stat) (R', W', V') (at_rest h' b stat') /\ running stat' R' W' V'
    /\ (R', W', V') = fold_left (fun w x => after x w) xs (R, W, V).
Proof.
  intros pr k d xs. induction xs as [|x xs IH]; intros stat R W V h b K Rn F.
  - exists R, W, V, h, stat. split; [constructor|]. auto.
  - inversion F as [|? ? Sx Fx]; subst. destruct (one_call pr k d x stat R W V h b [] K Rn Sx) as (r & h1 & stat1 & E & A & Rn1). destruct (after x (R, W, V)) as [[R1 W1] V1] eqn:Q.
    destruct (IH stat1 R1 W1 V1 h1 b K Rn1 Fx) as (R' & W' & V' & h' & stat' & C & Rn' & P). exists R', W', V', h', stat'. split; [|split; [exact Rn'|cbn [fold_left]; rewrite Q; exact P]].
    econstructor; [exact E|exact A|reflexivity|reflexivity|]. rewrite Q. exact C.
Qed.
Example C74_meets : factory_like main_sample_RootPacket /\ sensible (CCreate main_sample_RootPacket (HInt 2)) /\ sensible (CRegister main_sample_RootPacket (HInt 9) "sample.StringPacket"%string)
  /\ sensible (CRegistry (JOne "Crc16ChecksumService") crc16_service) /\ (exists c, lookup_factory lib_factories (c_name (sc_def main_sample_RootPacket)) (KInt 2) = Some c) /\ enough (Z.to_nat (2 ^ 31 + 4)).
Proof.
  assert (F : factory_like main_sample_RootPacket).
  { split; [|split; reflexivity]. apply in_flat_map. exists file_sample_RootPacket. split; [|cbn; tauto]. unfold message_files. apply in_or_app. cbn [In sample_files]. tauto. }
  split; [exact F|]. split; [split; [exact F|right; discriminate]|]. split; [split; [exact F|split; [eexists; reflexivity|split; [discriminate|vm_compute; discriminate]]]|].
  split; [apply service_lib; cbn; tauto|]. split; [eexists; vm_compute; reflexivity|]. unfold enough. rewrite Z2Nat.id; lia.
Qed.

(* ---- C75: the checksum services ---- *)
Theorem C75_services : forall pr k d stat R W V h b, enough k -> running stat R W V -> buf_wf b = true ->
  let s := at_rest h b stat in
  invoke_on pr k d "Crc16ChecksumService"%string "calc"%string [JBuf] s = Ret (jint (crc16_spec (readable b))) s
  /\ (exists z, invoke_on pr k d "Crc32ChecksumService"%string "calc"%string [JBuf] s = Ret (jint z) s /\ z mod 2 ^ 32 = crc32_spec (readable b) /\ - 2 ^ 31 <= z < 2 ^ 31)
  /\ invoke_on pr k d "SseBinChecksumService"%string "calc"%string [JBuf] s = Ret (jint (sum_bytes (readable b) mod 256)) s
  /\ invoke_on pr k d "SzseBinChecksumService"%string "calc"%string [JBuf] s = Ret (jint (sum_bytes (readable b) mod 256)) s.
Proof.
  intros pr k d stat R W V h b K [AG _] Hb s. destruct (enough_S k K) as (k' & -> & K'). pose proof Hb as HB. apply buf_wf_iff in HB. destruct (C14_services_are_functions_of_readable_bytes b Hb) as (E1 & E2 & E3 & E4).
  assert (J := fun c sv => java_calc stat R W V AG pr (vcalls lib_program pr (S (S (S (S k')))) d) (S (S (S k'))) c sv h b [] ltac:(lia) (okb_wf _ HB)).
  unfold invoke_on, s, at_rest. rewrite (J "Crc16ChecksumService"%string crc16_service), (J "Crc32ChecksumService"%string crc32_service), (J "SseBinChecksumService"%string sse_service), (J "SzseBinChecksumService"%string szse_service) by (cbn; tauto).
  rewrite E1, E2, E3, E4. destruct (C13_crc16_is_modbus b Hb) as [-> _]. destruct (C12_sum_modulo_256 b Hb) as (-> & -> & _ & _). destruct (C14_crc32_is_iso_hdlc b Hb) as (A & B). repeat split; eauto.
Qed.
(* verify compares with what calc returns *)
Theorem C75_verify : forall pr k d stat R W V h b c z e t, enough k -> running stat R W V -> buf_wf b = true ->
  In c ["Crc16ChecksumService"; "Crc32ChecksumService"; "SseBinChecksumService"; "SzseBinChecksumService"]%string ->
  let s := at_rest h b stat in
  invoke_on pr k d c "calc"%string [JBuf] s = Ret (jint z) s ->
  invoke_on pr k d c "verify"%string [JBuf; JT t (HInt e)] s = Ret (JB (z =? e)) s /\ invoke_on pr k d c "verify"%string [JBuf; JT t HNull] s = Ret (JB false) s.
Proof.
  intros pr k d stat R W V h b c z e t K [AG _] Hb I s E. destruct (enough_S k K) as (k' & -> & K'). pose proof Hb as HB. apply buf_wf_iff in HB.
  assert (Q : exists sv, In (c, sv) lib_services) by (cbn [In] in I; destruct I as [<-|[<-|[<-|[<-|[]]]]]; eexists; cbn; eauto). destruct Q as (sv & Q).
  assert (J := fun e => java_verify stat R W V AG pr (vcalls lib_program pr (S (S (S (S k')))) d) (S (S k')) c sv h b [] t e ltac:(lia) (okb_wf _ HB) Q).
  unfold invoke_on, s, at_rest in *. rewrite (java_calc stat R W V AG) with (sv := sv) in E; [|lia|exact (okb_wf _ HB)|exact Q]. injection E as E.
  rewrite (J (Some e)), (J None). cbn [verify]. rewrite E. auto.
Qed.

Example C75_meets : (exists stat R W V, running stat R W V) /\ buf_wf check_buf = true /\ crc16_spec (readable check_buf) = 19255 /\ sum_bytes (readable check_buf) mod 256 = 221.
Proof. split; [destruct (C73_classes_initialise {| show_float := fun _ => []; show_double := fun _ => [] |} (fun _ _ _ _ => Bad) [] check_buf) as (stat & _ & H); eauto|]. vm_compute. repeat split. Qed.

(* ---- C76: the bitmaps ---- *)
Definition bm_width (kd : bitmap) : Z := match kd with BByte => 8 | BShort => 16 | BInt => 32 | BLong => 64 end.
(* a map fresh from new, and bitCount() *)
Theorem C76_new : forall pr k d kd h b stat, exists h', create_new (bm_class kd) (at_rest h b stat) = Ret (JT (T1 (bm_class kd)) (HRef (List.length h))) (at_rest h' b stat)
  /\ h' = h ++ [bm_cell kd 0] /\ invoke pr (S k) (S d) (List.length h) "bitCount"%string [] (at_rest h' b stat) = Ret (jint (bm_width kd)) (at_rest h' b stat).
Proof.
  intros. eexists. split; [|split; [reflexivity|]].
  - unfold create_new, new_object. rewrite bm_there. destruct kd; reflexivity.
  - unfold invoke, at_rest. erewrite java_bm_count; [destruct kd; reflexivity|]. rewrite nth_error_app2 by lia. now rewrite Nat.sub_diag.
Qed.
(* calls of set and clear, one after the other *)
Fixpoint map_calls (pr : printers) (k d l : nat) (ops : list map_op) (s : st) : res jval :=
  match ops with
  | [] => Ret JVoid s
  | o :: r => match invoke pr k d l (match o with MSet _ => "set" | MClear _ => "clear" end)%string [JT (T1 "int") (HInt (op_pos o))] s with
              | Ret _ s1 => map_calls pr k d l r s1
              | x => x
              end
  end.
Lemma map_calls_run pr k d l kd : forall ops h bits b stat, nth_error h l = Some (bm_cell kd bits) ->
  map_calls pr (S k) (S d) l ops (at_rest h b stat) = Ret JVoid (at_rest (upd h l (bm_cell kd (Maps.run (bm_set kd) (bm_clear kd) ops bits))) b stat).
Proof.
  induction ops as [|o r IH]; intros h bits b stat C; cbn [map_calls].
  - cbn. now rewrite upd_id.
  - unfold invoke, at_rest. destruct o as [q|q]; cbn [op_pos]; [rewrite (java_bm_set pr stat kd d k h l bits b [] _ q C)|rewrite (java_bm_clear pr stat kd d k h l bits b [] _ q C)];
      (etransitivity; [apply IH; eapply upd_nth; exact C|rewrite upd_upd; reflexivity]).
Qed.
Lemma in_signed_testbit kd bits q : in_signed (bm_width kd) bits = true -> 0 <= q < bm_width kd -> bm_get kd bits q = Z.testbit bits (bm_width kd - 1 - q).
Proof.
  intros H Hq. destruct kd; cbn [bm_width bm_get] in *; [rewrite byte_get_bit by exact H|rewrite short_get_bit by exact H|rewrite int_get_bit by exact H|rewrite long_get_bit by exact H]; f_equal; rewrite Z.mod_small; lia.
Qed.
(* after any calls, get(q) on a byte or short map says what the last call naming q did; on an int or long map, whether any call named q *)
Theorem C76_positions : forall pr k d kd l bits h b stat ops q, nth_error h l = Some (bm_cell kd bits) -> in_signed (bm_width kd) bits = true -> Maps.in_range (bm_width kd) ops -> 0 <= q < bm_width kd ->
  exists h', map_calls pr (S k) (S d) l ops (at_rest h b stat) = Ret JVoid (at_rest h' b stat)
  /\ (forall l', l' <> l -> nth_error h' l' = nth_error h l') /\ List.length h' = List.length h
  /\ invoke pr (S k) (S d) l "get"%string [JT (T1 "int") (HInt q)] (at_rest h' b stat) = Ret (JB (
       match kd with
       | BByte | BShort => match last_call q ops with Some x => x | None => Z.testbit bits (bm_width kd - 1 - q) end
       | BInt | BLong => existsb (fun o => op_pos o =? q) ops || Z.testbit bits (bm_width kd - 1 - q)
       end)) (at_rest h' b stat).
Proof.
  intros pr k d kd l bits h b stat ops q C Hb Ho Hq. eexists. split; [apply map_calls_run; exact C|]. split; [|split].
  - intros l' N. now apply upd_off.
  - apply upd_length.
  - unfold invoke, at_rest. erewrite java_bm_get by (eapply upd_nth; exact C). do 2 f_equal. rewrite <- (in_signed_testbit kd bits q Hb Hq).
    destruct kd; cbn [bm_width bm_get bm_set bm_clear] in *; [apply byte_history|apply short_history|apply int_history|apply long_history]; auto.
Qed.
(* what a map holds after it was written and read back; [bits] and [r]: the field before and after *)
Definition survives (kd : bitmap) (bits r : Z) : Prop :=
  match kd with
  | BByte => r = bits
  | BShort => forall i, 0 <= i < 16 -> Z.testbit r i = negb (i =? 15) && negb (i =? 7) && Z.testbit bits i
  | BInt => forall i, 0 <= i < 32 -> Z.testbit r i = (i <? 28) && Z.testbit bits (24 + i - 14 * (i / 7))
  | BLong => forall i, 0 <= i < 64 -> Z.testbit r i = (i <? 56) && Z.testbit bits (49 + i - 14 * (i / 7))
  end.
Definition bm_bytes (kd : bitmap) (bits : Z) : list Z := match kd with BByte => number BE 1 bits | BShort => short_bytes bits | BInt => int_bytes bits | BLong => long_bytes bits end.
Lemma bm_wrote kd bits b : in_signed (bm_width kd) bits = true -> wf b -> wrote b (bm_bytes kd bits) (bm_write kd bits b).
Proof. intros H Hb. destruct kd; cbn [bm_bytes bm_write bm_width] in *; [exact (wrote_int BE 1 bits b Hb)|exact (short_write_wrote bits b H Hb)|exact (int_write_wrote bits b Hb)|exact (long_write_wrote bits b Hb)]. Qed.
Lemma bm_round kd bits old b rest : in_signed (bm_width kd) bits = true -> wf b -> readable b = bm_bytes kd bits ++ rest ->
  exists r, bm_read kd old b = (None, r, set_ridx b (ridx b + List.length (bm_bytes kd bits))) /\ in_signed (bm_width kd) r = true /\ survives kd bits r.
Proof.
  intros H Hb Hr. destruct kd; cbn [bm_bytes bm_read bm_width survives] in *.
  - exists bits. rewrite number_length. split; [eapply byte_round; eauto|]. auto.
  - destruct (short_round bits old b rest H Hb Hr) as (r & E & A). exists r. split; [exact E|exact A].
  - destruct (int_round bits old b rest Hb Hr) as (r & E & A). exists r. split; [exact E|exact A].
  - destruct (long_round bits old b rest Hb Hr) as (r & E & A). exists r. split; [exact E|exact A].
Qed.
Lemma bm_bytes_length kd bits : List.length (bm_bytes kd bits) = Z.to_nat (bm_width kd / 8).
Proof. destruct kd; cbn [bm_bytes]; [apply number_length|reflexivity..]. Qed.
Theorem C76_round_trip : forall pr k d kd l l2 bits old h h2 b b2 rest stat, enough k -> nth_error h l = Some (bm_cell kd bits) -> nth_error h2 l2 = Some (bm_cell kd old) ->
  in_signed (bm_width kd) bits = true -> buf_wf b = true -> Buffers.fits b (Z.to_nat (bm_width kd / 8)) ->
  exists bs b1, invoke pr k (S d) l "write"%string [JBuf] (at_rest h b stat) = Ret JVoid (at_rest h b1 stat) /\ appended b bs b1 /\ buf_wf b1 = true /\ Z.of_nat (List.length bs) = bm_width kd / 8
  /\ (buf_wf b2 = true -> readable b2 = bs ++ rest ->
      exists r h3 b3, invoke pr k (S d) l2 "read"%string [JBuf] (at_rest h2 b2 stat) = Ret JVoid (at_rest h3 b3 stat) /\ advanced b2 (List.length bs) b3
      /\ h3 = upd h2 l2 (bm_cell kd r) /\ in_signed (bm_width kd) r = true /\ survives kd bits r).
Proof.
  intros pr k d kd l l2 bits old h h2 b b2 rest stat K C C2 Hs Hb F. destruct (enough_S k K) as (k' & -> & K'). apply buf_wf_iff in Hb. pose proof (bm_wrote kd bits b Hs Hb) as W. rewrite <- (bm_bytes_length kd bits) in F.
  assert (J := java_bm_write pr stat kd d (S (S (S k'))) h l bits b [] ltac:(lia) C). destruct (bm_write kd bits b) as [[e|] b1]; [exfalso; exact (proj1 (proj2 W) F)|]. destruct W as [A W].
  exists (bm_bytes kd bits), b1. split; [exact J|]. split; [exact A|]. split; [apply buf_wf_iff; exact W|]. split; [rewrite bm_bytes_length; destruct kd; reflexivity|].
  intros Hb2 Hr. apply buf_wf_iff in Hb2. destruct (bm_round kd bits old b2 rest Hs Hb2 Hr) as (r & E & Rr & Sv). assert (J2 := java_bm_read pr stat kd d (S (S (S k'))) h2 l2 old b2 [] ltac:(lia) (okb_wf _ Hb2) C2). rewrite E in J2.
  exists r, (upd h2 l2 (bm_cell kd r)), (set_ridx b2 (ridx b2 + List.length (bm_bytes kd bits))). repeat split; auto.
Qed.
Example C76_meets : in_signed (bm_width BShort) 257 = true /\ Maps.in_range (bm_width BShort) [MSet 3; MClear 3; MSet 15] /\ last_call 3 [MSet 3; MClear 3; MSet 15] = Some false
  /\ buf_wf (map_buf [1]) = true /\ Buffers.fits (map_buf [1]) (Z.to_nat (bm_width BLong / 8)) /\ survives BShort 257 257 /\ ~ survives BShort 128 128.
Proof.
  split; [reflexivity|]. split; [repeat constructor; discriminate|]. split; [reflexivity|]. split; [reflexivity|]. split; [vm_compute; discriminate|]. split.
  - intros i Hi. destruct (Z.eqb_spec i 15) as [->|]; [reflexivity|]. destruct (Z.eqb_spec i 7) as [->|]; reflexivity.
  - intros H. specialize (H 7 ltac:(lia)). discriminate H.
Qed.
Print Assumptions C72_text_reads_as_tree.
Print Assumptions C72_program_is_the_files.
Print Assumptions C72_model_classes_are_in_the_files.
Print Assumptions C72_names_are_distinct.
Print Assumptions C73_classes_initialise.
Print Assumptions C74_calls.
Print Assumptions C75_services.
Print Assumptions C75_verify.
Print Assumptions C76_new.
Print Assumptions C76_positions.
Print Assumptions C76_round_trip.
