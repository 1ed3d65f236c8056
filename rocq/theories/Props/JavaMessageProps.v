(* The messages of the library, run as Java text: encode, decode, equals, hashCode, toString, getters and setters. *)
From Coq Require Import ZArith List Bool String Ascii Lia.
From Verif.Model Require Import JavaPrim ByteBuf Checksum Utf8 Codec Ast Interp Factory Show Heap GenSse Library.
From Verif.Spec Require Import Bytes Buffers Wire Reading Layouts Equality Text Access Sharing JavaState JavaRun.
From Verif.Proofs Require Import BytesFacts BufFacts EncodeFacts DecodeFacts DecodeInv HeapFacts HeapReach HeapOwn HeapDecode HeapEq HeapCycle HeapCheck HeapFrame HeapTypes HeapEncTypes HeapUntangle RegistryFacts Conform Messages
  JavaSem JavaEncode JavaValues JavaClasses JavaLibrary JavaState JavaRegistry.
From Verif.Java Require Import Lex Syntax Source Sources Sem CodecTrees Init Program.
From Verif.Props Require Import Samples MessageProps EqualProps TextProps ArbitraryProps LocalProps HeapProps HeapMoreProps JavaStaticProps.
Import ListNotations.
Open Scope Z_scope.
Open Scope list_scope.

(* what registry and factories hold, as Interp.v wants it *)
Definition holding (R : cache) (W : factories) : env := env_of lib_classes W R.
Lemma running_world stat R W V : running stat R W V -> world (holding R W) stat.
Proof. intros [AG SU]. exact (agrees_world stat R W V AG). Qed.
Lemma running_suppliers stat R W V : running stat R W V -> library_suppliers (holding R W).
Proof.
  intros [AG SU] o t c H. apply new_typed; [reflexivity|]. unfold has, find_class. cbn [classes holding env_of]. specialize (SU o t c). cbn [factory holding env_of] in H. destruct (assoc c lib_classes); [reflexivity|]. now destruct (SU H).
Qed.
Lemma object_at h l c : heap_ok lib_classes h -> Sharing.fits h (HRef l) (TObj c) -> exists c' fs, nth_error h l = Some (CObj c' fs).
Proof. intros OK F. cbn in F. destruct F as (fs & H). eauto. Qed.

Lemma encode_runs pr k d stat R W V h l c b : enough k -> running stat R W V -> heap_ok lib_classes h -> small h -> Sharing.fits h (HRef l) (TObj c) -> buf_wf b = true ->
  invoke pr k d l "encode"%string [JBuf] (at_rest h b stat) = (let '(e, h', b') := hencode (holding R W) d h (HRef l) b in ends e JVoid (at_rest h' b' stat)).
Proof.
  intros K Rn OK S F Hb. destruct (enough_S k K) as (k' & -> & K'). apply buf_wf_iff in Hb.
  exact (lib_encode (holding R W) stat (running_world _ _ _ _ Rn) pr k' K' d h l b [] OK S (okb_wf _ Hb) (object_at h l c OK F)).
Qed.
Lemma decode_runs pr k d stat R W V h l c b : enough k -> running stat R W V -> heap_ok lib_classes h -> Sharing.fits h (HRef l) (TObj c) -> buf_wf b = true ->
  invoke pr k d l "decode"%string [JBuf] (at_rest h b stat) = (let '(e, h', b') := hdecode (holding R W) d h (HRef l) b in ends e JVoid (at_rest h' b' stat)).
Proof.
  intros K Rn OK F Hb. destruct (enough_S k K) as (k' & -> & K'). apply buf_wf_iff in Hb.
  exact (lib_decode (holding R W) stat (running_world _ _ _ _ Rn) pr k' (fun o kk c' => r_suppliers _ _ _ _ Rn o kk c') K' d h l b [] OK (bk_wf _ Hb) (object_at h l c OK F)).
Qed.

(* ---- C77: encode ---- *)
(* a message that stands for the tree t: encode returns exactly if no part is missing, the bytes fit and the stack is deep enough; then the wire form was appended and nothing else
   changed but length and checksum fields.  Else an exception says which of the three it was. *)
Theorem C77_encode : forall pr k d stat R W V h l c t b, enough k -> running stat R W V -> heap_ok lib_classes h -> small h -> Sharing.fits h (HRef l) (TObj c) -> shows h (HRef l) t -> buf_wf b = true ->
  let t1 := fill_in Y (checksum (holding R W)) (readable b) t (WObj c) in
  let room := Buffers.fits b (List.length (ser Y t1 (WObj c))) in
  exists e h1 b1, invoke pr k d l "encode"%string [JBuf] (at_rest h b stat) = match e with None => Ret JVoid (at_rest h1 b1 stat) | Some x => Exc x (at_rest h1 b1 stat) end
  /\ heap_ok lib_classes h1 /\ Sharing.fits h1 (HRef l) (TObj c) /\ buf_wf b1 = true /\ (exists bs, appended b bs b1)
  /\ match e with
     | None => complete Y t (WObj c) = true /\ (nesting t <= d)%nat /\ room /\ appended b (ser Y t1 (WObj c)) b1
     | Some NPE => complete Y t (WObj c) = false
     | Some IOOBE => ~ room
     | Some SOE => (d < nesting t)%nat
     | Some _ => False
     end
  (* a message that shares nothing is left with its length and checksum fields filled in *)
  /\ (forall fp, owns h (HRef l) t fp -> e = None -> exists fp1, owns h1 (HRef l) t1 fp1).
Proof.
  intros pr k d stat R W V h l c t b K Rn OK S F Sh Hb t1 room. set (E := holding R W) in *. assert (HE : classes E = lib_classes) by reflexivity.
  rewrite (encode_runs pr k d stat R W V h l c b K Rn OK S F Hb). fold E. pose proof (fits_object E h (HRef l) t c HE OK F ltac:(discriminate) Sh) as Ob.
  destruct (C56_encode_unfolds E d h (HRef l) t b HE Sh) as [Q1 Q2].
  assert (FC : Sharing.fits h (HRef l) TCodec) by (destruct (object_at h l c OK F) as (c' & fs & H); cbn; eauto).
  pose proof (C63_encode_keeps_types E d h (HRef l) b HE OK FC) as KT.
  pose proof (encode_total lib_classes Y library_conforms E HE d c t b Ob Hb) as P. cbv zeta in P. fold t1 in P.
  assert (OW : forall fp, owns h (HRef l) t fp -> let '(e, h1, b1) := hencode E d h (HRef l) b in let '(e2, t1, b2) := encode E d t b in e = e2 /\ b1 = b2 /\ exists fp1, owns h1 (HRef l) t1 fp1)
    by (intros fp; apply C56_unshared_exact).
  pose proof (C57_encode_frame E d h (HRef l) b HE) as FR. cbv zeta in FR.
  destruct (hencode E d h (HRef l) b) as [[e h1] b1] eqn:H1. destruct (encode E d t b) as [[e2 t2] b2] eqn:H2. cbn [fst snd] in Q1, Q2, FR. subst e2 b2. destruct FR as [LE FR].
  assert (F1 : Sharing.fits h1 (HRef l) (TObj c)).
  { destruct F as (fs & Hl). destruct (nth_error h1 l) as [q|] eqn:Hq; [|apply nth_error_None in Hq; apply nth_lt in Hl; lia]. destruct (FR l _ _ Hl Hq) as [T _]. destruct q as [c' gs|vs]; cbn in T; [|discriminate]. destruct T as [-> _]. cbn. eauto. }
  exists e, h1, b1. split; [destruct e; reflexivity|]. split; [apply KT|]. split; [exact F1|]. destruct e as [x|].
  - destruct P as (A & B & P). split; [exact B|]. split; [exact A|]. split; [|discriminate]. destruct P as [[-> P]|[[-> P]|[-> P]]]; exact P.
  - destruct P as (-> & A & B & C & N & G). split; [exact B|]. split; [eauto|]. split; [auto|]. intros fp O _. destruct (OW fp O) as (_ & _ & X). exact X.
Qed.
(* any object graph: encode never gets stuck; it cannot return on a graph with a cycle *)
Theorem C77_any_graph : forall pr k d stat R W V h l c b, enough k -> running stat R W V -> heap_ok lib_classes h -> small h -> Sharing.fits h (HRef l) (TObj c) -> buf_wf b = true ->
  exists e h1 b1, invoke pr k d l "encode"%string [JBuf] (at_rest h b stat) = match e with None => Ret JVoid (at_rest h1 b1 stat) | Some x => Exc x (at_rest h1 b1 stat) end
  /\ heap_ok lib_classes h1 /\ (e = None \/ e = Some NPE \/ e = Some IOOBE \/ e = Some SOE)
  /\ (cyclic h l -> e <> None)
  /\ List.length h1 = List.length h /\ forall m, ~ reach h (HRef l) m -> nth_error h1 m = nth_error h m.
Proof.
  intros pr k d stat R W V h l c b K Rn OK S F Hb. set (E := holding R W). assert (HE : classes E = lib_classes) by reflexivity.
  rewrite (encode_runs pr k d stat R W V h l c b K Rn OK S F Hb). fold E.
  assert (FC : Sharing.fits h (HRef l) TCodec) by (destruct (object_at h l c OK F) as (c' & fs & H); cbn; eauto).
  pose proof (C63_encode_keeps_types E d h (HRef l) b HE OK FC) as KT. pose proof (C57_encode_frame E d h (HRef l) b HE) as FR. cbv zeta in FR.
  pose proof (C60_cycle_never_returns E pr d h l b HE OK) as CY.
  destruct (hencode E d h (HRef l) b) as [[e h1] b1]. cbn [fst snd] in *. destruct KT as [KT KE]. destruct FR as [LE FR].
  exists e, h1, b1. split; [destruct e; reflexivity|]. split; [exact KT|]. split; [exact KE|]. split; [intros Cy; apply CY; exact Cy|]. split; [exact LE|].
  intros m N. destruct (nth_error h m) as [q|] eqn:Hm; [|apply nth_error_None in Hm; apply nth_error_None; lia].
  destruct (nth_error h1 m) as [q'|] eqn:Hm'; [|apply nth_error_None in Hm'; apply HeapFacts.nth_lt in Hm; lia]. destruct (FR m q q' Hm Hm') as [_ X]. now rewrite (X N).
Qed.

(* ---- C78: decode ---- *)
(* any bytes, into any object of the library *)
Theorem C78_decode : forall pr k d stat R W V h l c b, enough k -> running stat R W V -> heap_ok lib_classes h -> Sharing.fits h (HRef l) (TObj c) -> buf_wf b = true ->
  exists e h1 b1 n, invoke pr k d l "decode"%string [JBuf] (at_rest h b stat) = match e with None => Ret JVoid (at_rest h1 b1 stat) | Some x => Exc x (at_rest h1 b1 stat) end
  /\ heap_ok lib_classes h1 /\ Sharing.fits h1 (HRef l) (TObj c) /\ (e = None \/ e = Some IOOBE \/ e = Some IAE \/ e = Some SOE)
  /\ ArbitraryProps.reads b n b1
  /\ (e = None -> exists t, shows h1 (HRef l) t /\ object_of (holding R W) c t = true)
  /\ forall m q, nth_error h m = Some q -> ~ reach h (HRef l) m -> nth_error h1 m = Some q.
Proof.
  intros pr k d stat R W V h l c b K Rn OK F Hb. set (E := holding R W). assert (HE : classes E = lib_classes) by reflexivity.
  rewrite (decode_runs pr k d stat R W V h l c b K Rn OK F Hb). fold E.
  pose proof (C63_decode_keeps_types E d h (HRef l) b HE OK Hb) as KT. destruct (C63_decode_exceptions E d h (HRef l) c b HE (running_suppliers _ _ _ _ Rn) OK F ltac:(discriminate) Hb) as [(n & RD) EX].
  pose proof (C62_decode_frame E d h (HRef l) b) as FR. cbv zeta in FR. pose proof (C64_decode_untangles E d h (HRef l) c b) as UT.
  destruct (hdecode E d h (HRef l) b) as [[e h1] b1]. cbn [fst snd] in *. destruct FR as [FR _].
  assert (F1 : Sharing.fits h1 (HRef l) (TObj c)).
  { pose proof F as (fs & Hl). destruct (FR l _ Hl) as (q' & Hq & P & _). destruct q' as [c' fs'|vs]; cbn in P; [|discriminate]. cbn. destruct P as [-> _]. eauto. }
  exists e, h1, b1, n. split; [destruct e; reflexivity|]. split; [exact KT|]. split; [exact F1|]. split; [exact EX|]. split; [exact RD|]. split.
  - intros ->. destruct (UT h1 b1 HE OK F Hb eq_refl) as (t & St). exists t. split; [exact St|]. apply (fits_object E h1 (HRef l) t c HE KT F1); [discriminate|exact St].
  - intros m q Hm N. destruct (FR m q Hm) as (q' & Hq & _ & X). rewrite Hq. f_equal. auto.
Qed.

(* ---- C79: round trip ---- *)
Lemma makes_new stat R W V c cd h b : running stat R W V -> assoc c lib_classes = Some cd -> create_new c (at_rest h b stat) =
  Ret (JT (T1 c) (HRef (List.length h))) (at_rest (fst (hnew (holding R W) h c)) b stat) /\ snd (hnew (holding R W) h c) = HRef (List.length h).
Proof.
  intros Rn A. destruct (lib_makes (holding R W) stat (running_world _ _ _ _ Rn) c cd A) as (d & D & Sd & ML). unfold create_new, new_object, hnew, find_class. cbn [classes holding env_of]. rewrite D, Sd, ML, A.
  split; reflexivity.
Qed.
Lemma object_class_of h l c : heap_ok lib_classes h -> Sharing.fits h (HRef l) (TObj c) -> exists cd, assoc c lib_classes = Some cd.
Proof. intros OK (fs & H). destruct (OK l c fs H) as (cd & A & _). eauto. Qed.
(* A sender encodes a message; a receiver with registrations of its own (which have to know the tags), another heap and anything after the bytes makes a new object and decodes it.  Then the new object stands for an equivalent
   message, the reader index is behind the bytes of the message, and nothing else of the receiver's heap has changed. *)
Theorem C79_round_trip : forall pr k k2 d d2 stat stat2 R W V R2 W2 V2 h h2 l c t b b2 rest, enough k -> enough k2 -> running stat R W V -> running stat2 R2 W2 V2 ->
  heap_ok lib_classes h -> small h -> heap_ok lib_classes h2 -> Sharing.fits h (HRef l) (TObj c) -> shows h (HRef l) t -> buf_wf b = true ->
  complete Y t (WObj c) = true -> parsable Y (factory (holding R2 W2)) t (WObj c) = true -> canonical Y t (WObj c) = true ->
  let t1 := fill_in Y (checksum (holding R W)) (readable b) t (WObj c) in
  Buffers.fits b (List.length (ser Y t1 (WObj c))) -> (nesting t <= d)%nat -> (nesting t <= d2)%nat ->
  exists h1 b1 bs, invoke pr k d l "encode"%string [JBuf] (at_rest h b stat) = Ret JVoid (at_rest h1 b1 stat) /\ appended b bs b1
  /\ (buf_wf b2 = true -> readable b2 = bs ++ rest ->
     exists h3 h4 b4 t4, create_new c (at_rest h2 b2 stat2) = Ret (JT (T1 c) (HRef (List.length h2))) (at_rest h3 b2 stat2)
     /\ invoke pr k2 d2 (List.length h2) "decode"%string [JBuf] (at_rest h3 b2 stat2) = Ret JVoid (at_rest h4 b4 stat2)
     /\ shows h4 (HRef (List.length h2)) t4 /\ equivalent t4 t1 /\ (exact_form Y t (WObj c) = true -> t4 = t1)
     /\ advanced b2 (List.length bs) b4 /\ readable b4 = rest
     /\ heap_ok lib_classes h4 /\ Sharing.fits h4 (HRef (List.length h2)) (TObj c)
     /\ (forall m q, nth_error h2 m = Some q -> nth_error h4 m = Some q)
     (* all of it is new *)
     /\ exists fp, owns h4 (HRef (List.length h2)) t4 fp /\ forall m, In m fp -> (List.length h2 <= m)%nat).
Proof.
  intros pr k k2 d d2 stat stat2 R W V R2 W2 V2 h h2 l c t b b2 rest K K2 Rn Rn2 OK S OK2 F Sh Hb Cm Pa Ca t1 Fi Hn Hn2. set (E := holding R W) in *. set (E2 := holding R2 W2) in *. assert (HE : classes E = lib_classes) by reflexivity. assert (HE2 : classes E2 = lib_classes) by reflexivity.
  destruct (C56_encode_unfolds E d h (HRef l) t b HE Sh) as [Q1 Q2]. pose proof (fits_object E h (HRef l) t c HE OK F ltac:(discriminate) Sh) as Ob.
  pose proof (C39_complete_objects_throw_only_without_room E d c t b HE Ob Hb Cm Hn) as [RM _]. fold t1 in RM. destruct (RM Fi) as (t' & b' & EN).
  destruct (C22_round_trip E E2 d d2 c t b t' b' HE HE2 Ob Hb EN Pa Ca Hn2) as (bs & Ap & RT).
  destruct (C23_encode_appends_wire_form E d c t b t' b' HE Ob Hb EN) as (_ & _ & -> & _). fold t1 in EN, RT.
  rewrite (encode_runs pr k d stat R W V h l c b K Rn OK S F Hb). fold E. rewrite EN in Q1, Q2. destruct (hencode E d h (HRef l) b) as [[e' h'] b''] eqn:HC. cbn [fst snd] in Q1, Q2. subst e' b''.
  exists h', b', bs. split; [reflexivity|]. split; [exact Ap|]. intros Hb2 Hr. destruct (RT b2 rest Hb2 Hr) as (t4 & b4 & DE & Eq & Ex & _ & Ad).
  destruct (object_class_of h l c OK F) as (cd & Hc). destruct (makes_new stat2 R2 W2 V2 c cd h2 b2 Rn2 Hc) as [CN HN]. fold E2 in CN, HN.
  destruct (new_ok E2 h2 c) as (OK3 & _ & F3); [exact OK2|]. rewrite HN in F3. change (classes E2) with lib_classes in OK3.
  pose proof (C58_decode_fresh E2 d2 h2 c b2) as DF. pose proof (C63_decode_keeps_types E2 d2 (fst (hnew E2 h2 c)) (HRef (List.length h2)) b2 HE2 OK3 Hb2) as OK4.
  pose proof (C62_decode_frame E2 d2 (fst (hnew E2 h2 c)) (HRef (List.length h2)) b2) as FR. cbv zeta in FR.
  destruct (hnew E2 h2 c) as [h3 v]. cbn [fst snd] in *. subst v.
  rewrite DE in DF. pose proof (decode_runs pr k2 d2 stat2 R2 W2 V2 h3 (List.length h2) c b2 K2 Rn2 OK3 F3 Hb2) as DR. fold E2 in DR.
  destruct (hdecode E2 d2 h3 (HRef (List.length h2)) b2) as [[e4 h4] b4']. cbn [fst snd] in *. destruct DF as (-> & -> & [Le Un] & fp1 & Ow & Fr). destruct FR as [FR _].
  exists h3, h4, b4, t4. split; [exact CN|]. split; [exact DR|]. split; [exact (proj1 (owns_shows h4) _ _ _ Ow)|]. split; [exact Eq|]. split; [exact Ex|]. split; [exact Ad|].
  split; [unfold advanced in Ad; rewrite Ad, readable_advance, Hr, skipn_app, skipn_all, Nat.sub_diag; reflexivity|]. split; [exact OK4|]. split.
  - pose proof F3 as (fs & Hl). destruct (FR _ _ Hl) as (q' & Hq & P & _). destruct q' as [c' fs'|vs]; cbn in P; [|discriminate]. cbn. destruct P as [-> _]. eauto.
  - split; [intros m q Hm; rewrite Un; auto; eapply nth_lt; eauto|]. exists fp1. split; [exact Ow|exact Fr].
Qed.

(* ---- C80: equals, hashCode, toString, getters, setters ---- *)
Lemma enough_1 k : enough k -> exists k', k = S k'.
Proof. intros K. destruct (enough_S k K) as (k' & -> & _). eauto. Qed.
Lemma is_item h l c : heap_ok lib_classes h -> Sharing.fits h (HRef l) (TObj c) -> JavaValues.item h (HRef l).
Proof. intros OK F. exact (object_at h l c OK F). Qed.
(* the documented polynomial; StackOverflowError for a field-less class inside or for objects nested deeper than the stack *)
Theorem C80_hash_code : forall pr k d stat R W V h l c t b, enough k -> running stat R W V -> heap_ok lib_classes h -> Sharing.fits h (HRef l) (TObj c) -> shows h (HRef l) t ->
  let s := at_rest h b stat in
  invoke pr k d l "hashCode"%string [] s = if has_void Y t || Nat.ltb d (nesting t) then Exc SOE s else Ret (jint (digest Y t (WObj c))) s.
Proof.
  intros pr k d stat R W V h l c t b K Rn OK F Sh s. destruct (enough_1 k K) as (k' & ->). set (E := holding R W). assert (HE : classes E = lib_classes) by reflexivity.
  etransitivity; [exact (JavaLibrary.lib_hash E stat (running_world _ _ _ _ Rn) pr k' d h l b [] OK (is_item h l c OK F))|].
  destruct (C61_hash_and_text_unfold E pr d h (HRef l) t c HE OK F Sh) as [-> _]. rewrite (C41_hash_value E d c t HE (fits_object E h (HRef l) t c HE OK F ltac:(discriminate) Sh)). destruct (_ || _); reflexivity.
Qed.
(* class name and all fields by name and value, in order; [pr] prints float and double values *)
Theorem C80_to_string : forall pr k d stat R W V h l c t b, enough k -> running stat R W V -> heap_ok lib_classes h -> Sharing.fits h (HRef l) (TObj c) -> shows h (HRef l) t ->
  let s := at_rest h b stat in
  invoke pr k d l "toString"%string [] s = if Nat.leb (nesting t) d then Ret (jstr (text Y (show_float pr) (show_double pr) t (WObj c))) s else Exc SOE s.
Proof.
  intros pr k d stat R W V h l c t b K Rn OK F Sh s. destruct (enough_1 k K) as (k' & ->). set (E := holding R W). assert (HE : classes E = lib_classes) by reflexivity.
  etransitivity; [exact (JavaLibrary.lib_string E stat (running_world _ _ _ _ Rn) pr k' d h l b [] OK (is_item h l c OK F))|].
  destruct (C61_hash_and_text_unfold E pr d h (HRef l) t c HE OK F Sh) as [_ ->]. rewrite (C54_to_string E pr d c t HE (fits_object E h (HRef l) t c HE OK F ltac:(discriminate) Sh)). destruct (Nat.leb _ _); reflexivity.
Qed.
(* equals says whether the two objects stand for the same value, all NaNs being one *)
Theorem C80_equals : forall pr k d stat R W V h l l' c c' t u b, enough k -> running stat R W V -> heap_ok lib_classes h -> Sharing.fits h (HRef l) (TObj c) -> Sharing.fits h (HRef l') (TObj c') ->
  shows h (HRef l) t -> shows h (HRef l') u -> (nesting t <= d)%nat ->
  let s := at_rest h b stat in
  exists r, invoke pr k d l "equals"%string [JT (T1 "Object") (HRef l')] s = Ret (JB r) s /\ (r = true <-> one_nan Y t (WObj c) = one_nan Y u (WObj c')).
Proof.
  intros pr k d stat R W V h l l' c c' t u b K Rn OK F F' Sh Sh' Hn s. destruct (enough_1 k K) as (k' & ->). set (E := holding R W). assert (HE : classes E = lib_classes) by reflexivity.
  destruct (C61_equals_unfolds E d h (HRef l) (HRef l') t u c c' HE OK F F' Sh Sh' ltac:(discriminate) ltac:(discriminate) Hn) as (r & Q & X). exists r. split; [|exact X].
  assert (NN : forall m, HRef l' = HRef m -> nth_error h m <> None) by (intros m [= <-]; destruct F' as (fs & ->); discriminate).
  etransitivity; [exact (JavaLibrary.lib_equals E stat (running_world _ _ _ _ Rn) pr k' d h l (HRef l') b [] OK (is_item h l c OK F) NN)|]. rewrite Q. reflexivity.
Qed.
Theorem C80_equals_null : forall pr k d stat R W V h l c b, enough k -> running stat R W V -> heap_ok lib_classes h -> Sharing.fits h (HRef l) (TObj c) ->
  let s := at_rest h b stat in invoke pr k (S d) l "equals"%string [JT (T1 "Object") HNull] s = Ret (JB false) s.
Proof.
  intros pr k d stat R W V h l c b K Rn OK F s. destruct (enough_1 k K) as (k' & ->). set (E := holding R W).
  etransitivity; [exact (JavaLibrary.lib_equals E stat (running_world _ _ _ _ Rn) pr k' (S d) h l HNull b [] OK (is_item h l c OK F) ltac:(discriminate))|].
  destruct F as (fs & Hl). cbn [hequals]. rewrite Hl. reflexivity.
Qed.
(* a copy made by encoding and decoding equals the original and has its hash code *)
Theorem C80_copy_equals : forall pr k d stat R W V h l c t b b2 rest fp, enough k -> running stat R W V -> heap_ok lib_classes h -> small h -> Sharing.fits h (HRef l) (TObj c) -> owns h (HRef l) t fp -> buf_wf b = true ->
  complete Y t (WObj c) = true -> parsable Y (factory (holding R W)) t (WObj c) = true -> canonical Y t (WObj c) = true -> exact_form Y t (WObj c) = true ->
  Buffers.fits b (List.length (ser Y (fill_in Y (checksum (holding R W)) (readable b) t (WObj c)) (WObj c))) -> (nesting t <= d)%nat ->
  exists h1 b1 bs, invoke pr k d l "encode"%string [JBuf] (at_rest h b stat) = Ret JVoid (at_rest h1 b1 stat) /\ appended b bs b1
  /\ (buf_wf b2 = true -> readable b2 = bs ++ rest ->
     exists l2 h3 h4 b4, create_new c (at_rest h1 b2 stat) = Ret (JT (T1 c) (HRef l2)) (at_rest h3 b2 stat)
     /\ invoke pr k d l2 "decode"%string [JBuf] (at_rest h3 b2 stat) = Ret JVoid (at_rest h4 b4 stat) /\ l2 <> l
     /\ invoke pr k d l2 "equals"%string [JT (T1 "Object") (HRef l)] (at_rest h4 b4 stat) = Ret (JB true) (at_rest h4 b4 stat)
     /\ invoke pr k d l "equals"%string [JT (T1 "Object") (HRef l2)] (at_rest h4 b4 stat) = Ret (JB true) (at_rest h4 b4 stat)
     /\ exists x, invoke pr k d l2 "hashCode"%string [] (at_rest h4 b4 stat) = x /\ invoke pr k d l "hashCode"%string [] (at_rest h4 b4 stat) = x).
Proof.
  intros pr k d stat R W V h l c t b b2 rest fp K Rn OK S F Ow Hb Cm Pa Ca Ex Fi Hn. pose proof (proj1 (owns_shows h) _ _ _ Ow) as Sh.
  destruct (C77_encode pr k d stat R W V h l c t b K Rn OK S F Sh Hb) as (e & h1 & b1 & J & OK1 & F1 & Wb1 & _ & X & OX). cbv zeta in X, OX.
  assert (He : e = None).
  { pose proof (C79_round_trip pr k k d d stat stat R W V R W V h h l c t b b2 rest K K Rn Rn OK S OK F Sh Hb Cm Pa Ca Fi Hn Hn) as (h1' & b1' & bs' & J' & _). rewrite J in J'. destruct e; [discriminate|reflexivity]. }
  subst e. destruct (OX fp Ow eq_refl) as (fp1 & Ow1).
  destruct (C79_round_trip pr k k d d stat stat R W V R W V h h1 l c t b b2 rest K K Rn Rn OK S OK1 F Sh Hb Cm Pa Ca Fi Hn Hn) as (h1' & b1' & bs & J' & Ap & RT). rewrite J in J'. injection J' as <- <-.
  exists h1, b1, bs. split; [exact J|]. split; [exact Ap|]. intros Hb2 Hr. destruct (RT Hb2 Hr) as (h3 & h4 & b4 & t4 & CN & DE & S4 & _ & T4 & _ & _ & OK4 & F4 & Un & _). specialize (T4 Ex). subst t4.
  set (t1 := fill_in Y (checksum (holding R W)) (readable b) t (WObj c)) in *.
  assert (Ow4 : owns h4 (HRef l) t1 fp1).
  { apply (proj1 (owns_frame h1 h4) _ _ _ Ow1). intros m Hm. pose proof (proj1 (owns_bound h1) _ _ _ Ow1 m Hm) as Lm. destruct (nth_error h1 m) as [q|] eqn:Q; [exact (Un m q Q)|apply nth_error_None in Q; lia]. }
  pose proof (proj1 (owns_shows h4) _ _ _ Ow4) as S4'.
  assert (F4' : Sharing.fits h4 (HRef l) (TObj c)) by (destruct F1 as (fs & Hl); exists fs; exact (Un l _ Hl)).
  assert (N1 : (nesting t1 <= d)%nat).
  { pose proof (fits_object (holding R W) h (HRef l) t c eq_refl OK F ltac:(discriminate) Sh) as Ob. destruct (C39_complete_objects_throw_only_without_room (holding R W) d c t b eq_refl Ob Hb Cm Hn) as [RM _].
    destruct (RM Fi) as (t' & b' & EN). destruct (C23_encode_appends_wire_form (holding R W) d c t b t' b' eq_refl Ob Hb EN) as (_ & _ & Q & _). fold t1 in Q. subst t'.
    destruct (encoded_facts lib_classes Y library_conforms (holding R W) eq_refl d c t b t1 b' Ob Hb EN) as (_ & _ & -> & _). exact Hn. }
  exists (List.length h1), h3, h4, b4. split; [exact CN|]. split; [exact DE|]. split; [destruct F1 as (fs & Hl); apply nth_lt in Hl; lia|].
  destruct (C80_equals pr k d stat R W V h4 (List.length h1) l c c t1 t1 b4 K Rn OK4 F4 F4' S4 S4' N1) as (r & Q & Y1). rewrite Q, (proj2 Y1 eq_refl).
  destruct (C80_equals pr k d stat R W V h4 l (List.length h1) c c t1 t1 b4 K Rn OK4 F4' F4 S4' S4 N1) as (r' & Q' & Y2). rewrite Q', (proj2 Y2 eq_refl).
  split; [reflexivity|]. split; [reflexivity|]. eexists. split; [exact (C80_hash_code pr k d stat R W V h4 (List.length h1) c t1 b4 K Rn OK4 F4 S4)|exact (C80_hash_code pr k d stat R W V h4 l c t1 b4 K Rn OK4 F4' S4')].
Qed.
(* getF returns the field *)
Theorem C80_getters : forall pr k d stat R W V h l c cd fs f t x b, running stat R W V -> nth_error h l = Some (CObj c fs) -> heap_ok lib_classes h -> assoc c lib_classes = Some cd -> In (f, t) (c_fields cd) -> In (f, x) fs ->
  let s := at_rest h b stat in exists u, invoke pr (S k) (S d) l (getter f) [] s = Ret (JT u x) s.
Proof.
  intros pr k d stat R W V h l c cd fs f t x b Rn Hl OK A I Ix s. destruct (library_method_names c cd A) as (Nd & Ng & _).
  assert (G : assoc (getter f) (c_get cd) = Some f) by (rewrite (library_getters c cd A); apply (assoc_method getter (c_fields cd) (getter f) f Ng); split; [reflexivity|]; change f with (fst (f, t)); now apply in_map).
  eexists. etransitivity; [exact (JavaLibrary.lib_get (holding R W) stat (running_world _ _ _ _ Rn) pr k d h l c cd fs b [] (getter f) f Hl A G)|].
  rewrite (field_at h l f c fs Hl). replace (hget f fs) with x; [reflexivity|]. destruct (OK l c fs Hl) as (cd' & A' & T). rewrite A in A'. injection A' as <-.
  assert (Nf : NoDup (map fst fs)). { replace (map fst fs) with (map fst (c_fields cd)); [exact Nd|]. clear - T. induction T as [|fv ft fs ts [E _] T IH]; cbn; [reflexivity|]. now rewrite E, IH. }
  clear - Nf Ix. induction fs as [|[g y] fs IH]; [contradiction|]. cbn [hget map fst] in *. inversion Nf as [|? ? N1 N2]; subst. destruct Ix as [[= <- <-]|Ix]; [now rewrite String.eqb_refl|].
  destruct (String.eqb_spec f g) as [->|]; [|now apply IH]. exfalso. apply N1. change g with (fst (g, x)). now apply in_map.
Qed.
(* no class is called like a primitive type *)
Lemma reference_types c cd : assoc c lib_classes = Some cd -> forallb (fun ft => match snd ft with TByte | TShort | TInt | TLong | TFloat | TDouble => true | t => negb (is_prim (type_name t)) end) (c_fields cd) = true.
Proof. intros H. eapply (all_classes_ok (fun cd => forallb (fun ft => match snd ft with TByte | TShort | TInt | TLong | TFloat | TDouble => true | t => negb (is_prim (type_name t)) end) (c_fields cd))); [vm_compute; reflexivity|exact H]. Qed.
(* setF(v) with a value of the field's type: getF returns v, other getters and other objects are not affected, and the object is still one of its class *)
Theorem C80_setters : forall pr k d stat R W V h l c cd fs f t u v b, running stat R W V -> nth_error h l = Some (CObj c fs) -> heap_ok lib_classes h -> assoc c lib_classes = Some cd -> In (f, t) (c_fields cd) ->
  Sharing.fits h v t ->
  exists h1, invoke pr (S k) (S d) l (setter f) [JT u v] (at_rest h b stat) = Ret JVoid (at_rest h1 b stat)
  /\ (forall m, m <> l -> nth_error h1 m = nth_error h m) /\ heap_ok lib_classes h1 /\ Sharing.fits h1 (HRef l) (TObj c)
  /\ forall g t', In (g, t') (c_fields cd) -> exists u1 u2,
       invoke pr (S k) (S d) l (getter g) [] (at_rest h1 b stat) = Ret (JT u1 (if String.eqb f g then v else Heap.field h l g)) (at_rest h1 b stat)
       /\ invoke pr (S k) (S d) l (getter g) [] (at_rest h b stat) = Ret (JT u2 (Heap.field h l g)) (at_rest h b stat).
Proof.
  intros pr k d stat R W V h l c cd fs f t u v b Rn Hl OK A I Fv. destruct (library_method_names c cd A) as (Nd & Ng & Ns). pose proof (running_world _ _ _ _ Rn) as Wd.
  assert (Im : forall g t', In (g, t') (c_fields cd) -> In g (map fst (c_fields cd))) by (intros g t' Ig; change g with (fst (g, t')); now apply in_map).
  assert (G : forall g t', In (g, t') (c_fields cd) -> assoc (getter g) (c_get cd) = Some g) by (intros g t' Ig; rewrite (library_getters c cd A); apply (assoc_method getter (c_fields cd) (getter g) g Ng); eauto).
  assert (T : assoc (setter f) (c_set cd) = Some f) by (rewrite (library_setters c cd A); apply (assoc_method setter (c_fields cd) (setter f) f Ns); eauto).
  assert (At : assoc f (c_fields cd) = Some t).
  { clear - Nd I. induction (c_fields cd) as [|[g y] ts IH]; [contradiction|]. cbn [assoc map fst] in *. inversion Nd as [|? ? N1 N2]; subst. destruct I as [[= <- <-]|I]; [now rewrite String.eqb_refl|].
    destruct (String.eqb_spec f g) as [->|]; [|now apply IH]. exfalso. apply N1. change g with (fst (g, t)). now apply in_map. }
  assert (P : v = HNull -> is_prim (type_name (type_of f (c_fields cd))) = false).
  { intros ->. rewrite (assoc_type_of _ _ _ At). pose proof (reference_types c cd A) as B. rewrite forallb_forall in B. specialize (B (f, t) I). cbn [snd] in B.
    destruct t; cbn in Fv; first [contradiction|apply negb_true_iff; exact B]. }
  exists (put_field h l f v). split; [exact (JavaLibrary.lib_set (holding R W) stat Wd pr k d h l c cd fs b [] (setter f) f u v Hl A T P)|].
  split; [intros m N; now apply put_off|]. split; [exact (put_ok (holding R W) h l c fs cd f t v OK Hl A At Fv)|]. pose proof (put_at h l f v c fs Hl) as Hl1. split; [cbn; eauto|].
  intros g t' Ig. do 2 eexists. split.
  - etransitivity; [exact (JavaLibrary.lib_get (holding R W) stat Wd pr k d (put_field h l f v) l c cd _ b [] (getter g) g Hl1 A (G g t' Ig))|]. rewrite (field_at _ l g c _ Hl1), (field_at h l g c fs Hl).
    destruct (OK l c fs Hl) as (cd' & A' & T2). rewrite A in A'. injection A' as <-. assert (Mf : In f (map fst fs)). { replace (map fst fs) with (map fst (c_fields cd)); [eauto|]. clear - T2. induction T2 as [|fv ft fs ts [E _] T IH]; cbn; [reflexivity|]. now rewrite E, IH. }
    replace (hget g (hset f v fs)) with (if String.eqb f g then v else hget g fs); [reflexivity|]. destruct (String.eqb_spec f g) as [->|N]; [|now rewrite hget_off by congruence].
    clear - Mf. induction fs as [|[q y] fs IH]; [contradiction|]. cbn [hset]. destruct (String.eqb_spec g q) as [->|Nq]; cbn [hget]; [now rewrite String.eqb_refl|]. apply String.eqb_neq in Nq as Nq'. rewrite Nq'. apply IH. destruct Mf as [Q|Mf]; [cbn in Q; congruence|exact Mf].
  - exact (JavaLibrary.lib_get (holding R W) stat Wd pr k d h l c cd fs b [] (getter g) g Hl A (G g t' Ig)).
Qed.

(* ---- examples ---- *)
Lemma some_state : exists stat V, running stat initial_cache lib_factories V.
Proof. destruct (C73_classes_initialise some_printers (fun _ _ _ _ => Bad) [] used_buf) as (stat & _ & H). eauto. Qed.
Lemma small_check h : forallb (fun q => match q with CList vs => Z.of_nat (List.length vs) <? 2 ^ 31 | CObj _ _ => true end) h = true -> small h.
Proof. intros H l vs Q. rewrite forallb_forall in H. apply nth_error_In in Q. specialize (H _ Q). cbn in H. now apply Z.ltb_lt. Qed.
(* a message two of whose parts are one object *)
Example C77_meets : (exists stat V, running stat initial_cache lib_factories V) /\ heap_ok lib_classes h_alias /\ small h_alias /\ Sharing.fits h_alias (HRef 4) (TObj "sample.RootPacket") /\ shows h_alias (HRef 4) (seen 9 h_alias (HRef 4))
  /\ buf_wf used_buf = true /\ complete Y (seen 9 h_alias (HRef 4)) (WObj "sample.RootPacket") = true /\ nesting (seen 9 h_alias (HRef 4)) = 3%nat
  /\ Buffers.fits used_buf (List.length (ser Y (fill_in Y (checksum (holding initial_cache lib_factories)) (readable used_buf) (seen 9 h_alias (HRef 4)) (WObj "sample.RootPacket")) (WObj "sample.RootPacket")))
  /\ heap_ok lib_classes h_cycle /\ small h_cycle /\ cyclic h_cycle 0.
Proof.
  split; [exact some_state|]. split; [apply cells_ok; vm_compute; reflexivity|]. split; [apply small_check; reflexivity|]. split; [apply fitsb_fits; vm_compute; reflexivity|]. split; [apply (view_shows _ 9); vm_compute; reflexivity|].
  split; [reflexivity|]. split; [vm_compute; reflexivity|]. split; [vm_compute; reflexivity|]. split; [unfold Buffers.fits; apply Z.leb_le; vm_compute; reflexivity|]. split; [apply C60_meets|]. split; [apply small_check; reflexivity|apply C60_meets].
Qed.
Example C78_meets : heap_ok lib_classes h_alias /\ Sharing.fits h_alias (HRef 3) (TObj "sample.NestedPacket") /\ buf_wf incoming = true /\ readable incoming <> [].
Proof. split; [apply cells_ok; vm_compute; reflexivity|]. split; [apply fitsb_fits; vm_compute; reflexivity|]. split; [vm_compute; reflexivity|vm_compute; discriminate]. Qed.
Example C79_meets : let t := seen 9 h_two (HRef 5) in let w := WObj "sample.NestedPacket" in
  heap_ok lib_classes h_two /\ small h_two /\ Sharing.fits h_two (HRef 5) (TObj "sample.NestedPacket") /\ owns h_two (HRef 5) t [5; 4; 2; 0; 1; 3]%nat
  /\ complete Y t w = true /\ parsable Y (factory (holding initial_cache lib_factories)) t w = true /\ canonical Y t w = true /\ exact_form Y t w = true /\ nesting t = 2%nat
  /\ Buffers.fits used_buf (List.length (ser Y (fill_in Y (checksum (holding initial_cache lib_factories)) (readable used_buf) t w) w)).
Proof.
  split; [apply cells_ok; vm_compute; reflexivity|]. split; [apply small_check; reflexivity|]. split; [apply fitsb_fits; vm_compute; reflexivity|]. split; [apply (owned_owns _ 9); vm_compute; reflexivity|].
  do 5 (split; [vm_compute; reflexivity|]). unfold Buffers.fits. apply Z.leb_le. vm_compute. reflexivity.
Qed.
Example C80_meets : exists cd, assoc "sample.SubPacket"%string lib_classes = Some cd /\ In ("fieldU32"%string, TInt) (c_fields cd) /\ (exists fs, nth_error h_two 0 = Some (CObj "sample.SubPacket" fs) /\ In ("fieldU32"%string, HInt 1) fs)
  /\ Sharing.fits h_two (HInt (-7)) TInt /\ setter "fieldU32" = "setFieldU32"%string
  /\ has_void Y (seen 9 h_two (HRef 5)) = false /\ one_nan Y (seen 9 h_two (HRef 0)) (WObj "sample.SubPacket") = one_nan Y (seen 9 h_two (HRef 1)) (WObj "sample.SubPacket").
Proof.
  eexists. split; [vm_compute; reflexivity|]. split; [vm_compute; tauto|]. split; [eexists; split; [vm_compute; reflexivity|cbn; tauto]|]. split; [cbn; lia|]. split; [reflexivity|]. split; vm_compute; reflexivity.
Qed.
Print Assumptions C77_encode.
Print Assumptions C77_any_graph.
Print Assumptions C78_decode.
Print Assumptions C79_round_trip.
Print Assumptions C80_hash_code.
Print Assumptions C80_to_string.
Print Assumptions C80_equals.
Print Assumptions C80_equals_null.
Print Assumptions C80_copy_equals.
Print Assumptions C80_getters.
Print Assumptions C80_setters.
