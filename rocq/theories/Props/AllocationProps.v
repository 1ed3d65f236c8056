(* C89: what encode and decode of the Java text leave in the heap. *)
From Coq Require Import ZArith List Bool String Ascii Lia.
From Verif.Model Require Import JavaPrim ByteBuf Checksum Utf8 Codec Ast Interp Factory Show Heap GenSse Library.
From Verif.Spec Require Import Bytes Buffers Wire Reading Layouts Equality Text Access Sharing Sizes Allocation JavaState JavaRun.
From Verif.Proofs Require Import BytesFacts BufFacts DecodeFacts DecodeInv HeapFacts HeapReach HeapCheck HeapFrame HeapTypes HeapEncTypes HeapSize JavaSem JavaEncode JavaClasses JavaLibrary.
From Verif.Java Require Import Lex Syntax Source Sources Sem CodecTrees Init Program.
From Verif.Props Require Import Samples MessageProps TextProps ArbitraryProps HeapProps HeapMoreProps JavaStaticProps JavaMessageProps.
Import ListNotations.
Open Scope nat_scope.
Open Scope list_scope.

Lemma lib_pays E : classes E = lib_classes -> forall c cd, find_class E c = Some cd -> class_pays E cd = true.
Proof.
  intros HE c cd H. destruct E as [C K F]. cbn in HE. subst C. assert (A : lib_all (class_pays {| classes := lib_classes; factory := K; checksum := F |}) = true) by (vm_compute; reflexivity).
  exact (lib_all_ok _ A c cd H).
Qed.

(* decode: at most one new object or list for every byte read, and one more if it throws; at most one list element and one char for every byte read *)
Theorem C89_decode : forall pr k d stat R W V h l c b, enough k -> running stat R W V -> heap_ok lib_classes h -> Sharing.fits h (HRef l) (TObj c) -> buf_wf b = true ->
  exists e h1 b1 n, invoke pr k d l "decode"%string [JBuf] (at_rest h b stat) = match e with None => Ret JVoid (at_rest h1 b1 stat) | Some x => Exc x (at_rest h1 b1 stat) end
  /\ ArbitraryProps.reads b n b1
  /\ List.length h <= List.length h1 /\ List.length h1 <= List.length h + n + match e with None => 0 | Some _ => 1 end
  /\ list_items h1 <= list_items h + n /\ text_size h1 <= text_size h + n.
Proof.
  intros pr k d stat R W V h l c b K Rn OK F Hb. set (E := holding R W). assert (HE : classes E = lib_classes) by reflexivity.
  rewrite (decode_runs pr k d stat R W V h l c b K Rn OK F Hb). fold E.
  destruct (C63_decode_exceptions E d h (HRef l) c b HE (running_suppliers _ _ _ _ Rn) OK F ltac:(discriminate) Hb) as [(n & RD) _].
  pose proof (decode_paid E (lib_pays E HE) d h (HRef l) b (bk_wf _ (proj1 (buf_wf_iff _) Hb))) as P.
  destruct (hdecode E d h (HRef l) b) as [[e h1] b1]. cbn [fst snd] in *. exists e, h1, b1, n. split; [destruct e; reflexivity|]. split; [exact RD|]. destruct RD as [RD _]. unfold advanced in RD.
  assert (Q : paid (match e with None => 0 | Some _ => -1 end) 0 h b h1 b1) by (destruct e; destruct P as [_ P]; [apply P|destruct P as (l' & c' & fs & _ & _ & _ & P); exact P]).
  unfold paid, Zl in Q. subst b1. cbn [set_ridx ridx] in Q. destruct e; lia.
Qed.

(* encode: nothing new *)
Lemma sum_pointwise {A} (f : A -> nat) : forall l m, List.length m = List.length l -> (forall i x y, nth_error l i = Some x -> nth_error m i = Some y -> f y <= f x) -> sum_of f m <= sum_of f l.
Proof.
  induction l as [|x l IH]; intros [|y m] L H; try discriminate; cbn; [lia|]. pose proof (H 0 x y eq_refl eq_refl). pose proof (IH m ltac:(cbn in L; lia) (fun i => H (S i))). lia.
Qed.
Theorem C89_encode : forall pr k d stat R W V h l c b, enough k -> running stat R W V -> heap_ok lib_classes h -> small h -> Sharing.fits h (HRef l) (TObj c) -> buf_wf b = true ->
  exists e h1 b1, invoke pr k d l "encode"%string [JBuf] (at_rest h b stat) = match e with None => Ret JVoid (at_rest h1 b1 stat) | Some x => Exc x (at_rest h1 b1 stat) end
  /\ List.length h1 = List.length h /\ list_items h1 = list_items h /\ text_size h1 <= text_size h.
Proof.
  intros pr k d stat R W V h l c b K Rn OK S F Hb. set (E := holding R W). assert (HE : classes E = lib_classes) by reflexivity.
  rewrite (encode_runs pr k d stat R W V h l c b K Rn OK S F Hb). fold E.
  pose proof (C57_encode_frame E d h (HRef l) b HE) as FR. cbv zeta in FR. destruct (hencode E d h (HRef l) b) as [[e h1] b1]. cbn [fst snd] in *. destruct FR as [LE FR].
  exists e, h1, b1. split; [destruct e; reflexivity|]. split; [exact LE|]. split.
  - apply Nat.le_antisymm; (apply sum_pointwise; [congruence|]); intros i x y Hx Hy.
    + destruct (FR i x y Hx Hy) as [T _]. destruct x, y; cbn in T; try discriminate; try (injection T as ->); lia.
    + destruct (FR i y x Hy Hx) as [T _]. destruct x, y; cbn in T; try discriminate; try (injection T as ->); lia.
  - apply sum_pointwise; [exact LE|]. intros i x y Hx Hy. destruct (FR i x y Hx Hy) as [T _]. destruct x as [c1 fs|vs], y as [c2 gs|ws]; cbn [touched] in T; try discriminate.
    + destruct T as (_ & N & T). apply sum_pointwise; [rewrite <- (map_length fst gs), N; apply map_length|]. intros j [f v] [g w] Hv Hw.
      assert (g = f). { apply (f_equal (fun z => nth_error z j)) in N. rewrite !nth_error_map, Hv, Hw in N. cbn in N. congruence. } subst g.
      destruct (T j f v w Hv Hw) as [->|[_ [z ->]]]; cbn; lia.
    + injection T as ->. lia.
Qed.

(* the hypotheses hold: C78_meets and C77_meets; here the bytes of a NestedPacket go into an empty one, which gains a SubPacket, an InerPacket and a list *)
Definition h_empty : heap := [obj "sample.NestedPacket" []].
Example C89_meets : (exists stat V, running stat initial_cache lib_factories V) /\ heap_ok lib_classes h_empty /\ small h_empty /\ Sharing.fits h_empty (HRef 0) (TObj "sample.NestedPacket") /\ buf_wf incoming = true
  /\ let '(e, h1, b1) := hdecode lib_env 3 h_empty (HRef 0) incoming in e = None /\ List.length h1 = 4 /\ ridx b1 = widx incoming.
Proof. split; [apply C77_meets|]. split; [apply cells_ok; vm_compute; reflexivity|]. split; [apply small_check; reflexivity|]. split; [apply fitsb_fits; vm_compute; reflexivity|]. split; [vm_compute; reflexivity|]. vm_compute. repeat split. Qed.
(* one object more than bytes read: the decode that throws before the first byte has created the SubPacket *)
Example C89_tight : let '(e, h1, b1) := hdecode lib_env 3 h_empty (HRef 0) empty_buf in e = Some IOOBE /\ List.length h1 = 2 /\ ridx b1 = ridx empty_buf.
Proof. vm_compute. repeat split. Qed.
Print Assumptions C89_decode.
Print Assumptions C89_encode.
