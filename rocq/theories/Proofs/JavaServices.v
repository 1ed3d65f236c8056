(* The checksum services, their registry and their start-up, run as Java. *)
From Coq Require Import ZArith List Bool String Ascii Lia.
From Verif.Model Require Import JavaPrim ByteBuf Checksum Utf8 Codec Ast Interp Show Heap Library.
From Verif.Proofs Require Import BytesFacts JavaSem JavaEncode JavaClasses.
From Verif.Java Require Import Lex Syntax Source Sources Sem CodecTrees Init Program.
Import ListNotations.
Open Scope Z_scope.
Open Scope list_scope.

(* a loop that counts i up to n *)
Lemma loop_count {A} (sto : A -> nat -> st) (f : A -> nat -> A) n c b u :
  (forall a i, (i < n)%nat -> c (sto a i) = Ret (JB true) (sto a i) /\ b (sto a i) = Ret None (sto (f a i) i) /\ exists w, u (sto (f a i) i) = Ret w (sto (f a i) (S i))) ->
  (forall a, c (sto a n) = Ret (JB false) (sto a n)) ->
  forall d i m a, (i + d)%nat = n -> (d < m)%nat -> loop m c b u (sto a i) = Ret None (sto (fold_left f (seq i d) a) n).
Proof.
  intros G S0. induction d as [|d IH]; intros i m a E M; (destruct m as [|m]; [lia|]).
  - replace i with n by lia. apply loop_stop. apply S0.
  - destruct (G a i ltac:(lia)) as (G1 & G2 & w & G3). rewrite (loop_go _ _ _ _ _ _ _ _ _ G1 G2 G3). rewrite IH by lia. reflexivity.
Qed.
Lemma readable_length b : okb b -> List.length (readable b) = (widx b - ridx b)%nat.
Proof. intros (A & B & _). unfold readable, content. rewrite skipn_length, firstn_length. lia. Qed.
Lemma nth_skip {A} (d : A) n : forall l i, nth i (skipn n l) d = nth (n + i) l d.
Proof. induction n as [|n IH]; intros l i; [reflexivity|]. destruct l as [|x l]; [destruct i; reflexivity|]. apply IH. Qed.
Lemma nth_first {A} (d : A) n : forall l i, (i < n)%nat -> nth i (firstn n l) d = nth i l d.
Proof. induction n as [|n IH]; intros l i H; [lia|]. destruct l as [|x l], i as [|i]; try reflexivity. cbn [firstn nth]. apply IH. lia. Qed.
Lemma nth_readable b i : (i < widx b - ridx b)%nat -> nth i (readable b) 0 = nth (ridx b + i) (arr b) 0.
Proof. intros H. unfold readable, content. rewrite nth_skip, nth_first by lia. reflexivity. Qed.
Lemma fold_same {A} (f g : A -> nat -> A) l : (forall a i, In i l -> f a i = g a i) -> forall a, fold_left f l a = fold_left g l a.
Proof. induction l as [|i l IH]; intros H a; [reflexivity|]. cbn [fold_left]. rewrite H by now left. apply IH. intros a' j J. apply H. now right. Qed.
Lemma over_same {A} (f : A -> Z -> A) a b : okb b -> over_readable f a (wrapped (readable b)) = fold_left (fun acc i => f acc (nth (ridx b + i) (arr b) 0)) (seq 0 (widx b - ridx b)) a.
Proof.
  intros H. unfold over_readable. assert (E : readable (wrapped (readable b)) = readable b) by (unfold wrapped, readable at 1, content; cbn [arr ridx widx skipn]; apply firstn_all).
  rewrite E, readable_length by exact H. apply fold_same. intros x i I. apply in_seq in I. cbn [wrapped ridx arr Nat.add]. rewrite nth_readable by lia. reflexivity.
Qed.

Section Calc.
  (* any program with these classes *)
  Variable P : program.
  Hypothesis PC : forall c d, In (c, d) codec_classes -> assoc c P = Some d.
  Variable pr : printers.
  Variable vcall : string -> nat -> list jval -> st -> res jval.
  Variable stat : list (string * jval).
  Variable h : heap.
  Variable b : bytebuf.
  Hypothesis OB : okb b.
  Let n := (widx b - ridx b)%nat.
  Lemma W i : (i <= n)%nat -> wrap 32 (Z.of_nat (ridx b) + Z.of_nat i) = Z.of_nat (ridx b + i).
  Proof. intros I. destruct OB as (A & B & D & M). subst n. rewrite wrap_small; lia. Qed.
  Lemma inside i : (i < n)%nat -> (0 <=? Z.of_nat (ridx b + i)) && (Z.of_nat (ridx b + i) <? Z.of_nat (List.length (arr b))) = true.
  Proof. intros I. destruct OB as (A & B & D & M). subst n. rewrite andb_true_iff, Z.leb_le, Z.ltb_lt. lia. Qed.
  Lemma big : Z.of_nat n < 2 ^ 31.
  Proof. destruct OB as (A & B & D & M). subst n. lia. Qed.
  Lemma byte_at call x0 i L : (i < n)%nat -> assoc "buf"%string L = Some (T0 "ByteBuf", JBuf) -> assoc "readerIndex"%string L = Some (T0 "int", jint (Z.of_nat (ridx b))) -> assoc "i"%string L = Some (T0 "int", jint (Z.of_nat i)) ->
    eval P pr vcall call x0 (ECall (EName "buf") "getUnsignedByte" [EBin OAdd (EName "readerIndex") (EName "i")]) {| s_h := h; s_b := b; s_loc := L; s_stat := stat |} =
    Ret (JT (T1 "short") (HInt (nth (ridx b + i) (arr b) 0))) {| s_h := h; s_b := b; s_loc := L; s_stat := stat |}.
  Proof.
    intros I B1 B2 B3. set (s0 := {| s_h := h; s_b := b; s_loc := L; s_stat := stat |}).
    pose proof (name_loc P x0 "buf" _ _ s0 B1) as N1. pose proof (name_loc P x0 "readerIndex" _ _ s0 B2) as N2. pose proof (name_loc P x0 "i" _ _ s0 B3) as N3.
    cbn [eval]. rewrite N1. cbn [bind]. rewrite N2. cbn [bind]. rewrite N3. cbn [bind jint binary is_stringy T1 is_name String.eqb Ascii.eqb Bool.eqb orb num arith is_long dispatch].
    rewrite W by lia. unfold buf_call. cbn [strip Ascii.eqb Bool.eqb String.eqb s_b s0]. rewrite inside by exact I. rewrite Nat2Z.id. reflexivity.
  Qed.
  Lemma below call x0 i L : (i <= n)%nat -> assoc "readableBytes"%string L = Some (T0 "int", jint (Z.of_nat (widx b) - Z.of_nat (ridx b))) -> assoc "i"%string L = Some (T0 "int", jint (Z.of_nat i)) ->
    eval P pr vcall call x0 (EBin OLt (EName "i") (EName "readableBytes")) {| s_h := h; s_b := b; s_loc := L; s_stat := stat |} = Ret (JB (Nat.ltb i n)) {| s_h := h; s_b := b; s_loc := L; s_stat := stat |}.
  Proof.
    intros I B1 B2. set (s0 := {| s_h := h; s_b := b; s_loc := L; s_stat := stat |}).
    pose proof (name_loc P x0 "readableBytes" _ _ s0 B1) as N1. pose proof (name_loc P x0 "i" _ _ s0 B2) as N2.
    cbn [eval]. rewrite N2. cbn [bind]. rewrite N1. cbn [bind jint binary num arith]. f_equal. f_equal. destruct OB as (A & _). subst n. apply eq_true_iff_eq. rewrite Z.ltb_lt, Nat.ltb_lt. lia.
  Qed.
  Lemma next call x0 i L : (i < n)%nat -> eval P pr vcall call x0 (EInc (EName "i")) {| s_h := h; s_b := b; s_loc := ("i"%string, (T0 "int", jint (Z.of_nat i))) :: L; s_stat := stat |} =
    Ret (jint (Z.of_nat i)) {| s_h := h; s_b := b; s_loc := ("i"%string, (T0 "int", jint (Z.of_nat (S i)))) :: L; s_stat := stat |}.
  Proof.
    intros I. pose proof big. cbn [eval]. erewrite name_loc by reflexivity. cbn [bind jint num]. unfold assign. cbn [s_loc assoc String.eqb Ascii.eqb Bool.eqb conv bind]. unfold set_loc. cbn [s_loc s_h s_b s_stat put_assoc String.eqb Ascii.eqb Bool.eqb].
    change (cast_z (T1 "int") (Z.of_nat i + 1)) with (wrap 32 (Z.of_nat i + 1)). rewrite wrap_small by lia. replace (Z.of_nat i + 1) with (Z.of_nat (S i)) by lia. reflexivity.
  Qed.

  (* SseBinChecksumService.java, SzseBinChecksumService.java, Crc16ChecksumService.java, Crc32ChecksumService.java *)
  Lemma land_index z (l : list Z) : List.length l = 256%nat -> (0 <=? Z.land z 255) && (Z.land z 255 <? Z.of_nat (List.length l)) = true.
  Proof. intros ->. change 255 with (Z.ones 8). rewrite Z.land_ones by lia. pose proof (Z.mod_pos_bound z 256 ltac:(lia)). change (2 ^ 8) with 256. rewrite andb_true_iff, Z.leb_le, Z.ltb_lt. lia. Qed.
  Lemma calc_found c d : In (c, d) codec_classes -> find_method P c "calc" 1 = match method_in (members d) "calc" 1 with Some m => Some m | None => inherited P (supers d) "calc" 1 end.
  Proof. intros I. unfold find_method. now rewrite (PC _ _ I). Qed.

  Lemma for0 call k x0 t x c u bd s : exec P pr vcall call k x0 (SFor t x (EInt false 0) c u bd) s =
    scoped s (loop k (eval P pr vcall call x0 c) (fun s => scoped s (exec P pr vcall call k x0 bd s)) (eval P pr vcall call x0 u) (set_loc s ((x, (t, JT t (HInt 0))) :: s_loc s))).
  Proof. reflexivity. Qed.
  (* the loop of a service: R is the state of the other locals *)
  Lemma readable_loop call k x0 (R : Z -> locals) (f : Z -> Z -> Z) bd a s : s = {| s_h := h; s_b := b; s_loc := R a; s_stat := stat |} ->
    (forall a, assoc "buf"%string (R a) = Some (T0 "ByteBuf", JBuf) /\ assoc "readerIndex"%string (R a) = Some (T0 "int", jint (Z.of_nat (ridx b))) /\ assoc "readableBytes"%string (R a) = Some (T0 "int", jint (Z.of_nat (widx b) - Z.of_nat (ridx b))) /\ List.length (R a) = List.length (R 0)) ->
    (forall a i, (i < n)%nat -> let L := ("i"%string, (T0 "int", jint (Z.of_nat i))) :: R a in
       exec P pr vcall call k x0 bd {| s_h := h; s_b := b; s_loc := L; s_stat := stat |} = Ret None {| s_h := h; s_b := b; s_loc := ("i"%string, (T0 "int", jint (Z.of_nat i))) :: R (f a (nth (ridx b + i) (arr b) 0)); s_stat := stat |}) ->
    2 ^ 31 <= Z.of_nat k ->
    exec P pr vcall call k x0 (SFor (Ty "int" []) "i" (EInt false 0) (EBin OLt (EName "i") (EName "readableBytes")) (EInc (EName "i")) bd) s =
    Ret None {| s_h := h; s_b := b; s_loc := R (over_readable f a (wrapped (readable b))); s_stat := stat |}.
  Proof.
    intros -> HR HB K. rewrite for0. unfold set_loc. cbn [s_h s_b s_loc s_stat]. pose proof big as BG.
    pose proof (loop_count (fun a i => {| s_h := h; s_b := b; s_loc := ("i"%string, (T0 "int", jint (Z.of_nat i))) :: R a; s_stat := stat |}) (fun a i => f a (nth (ridx b + i) (arr b) 0)) n
      (eval P pr vcall call x0 (EBin OLt (EName "i") (EName "readableBytes"))) (fun s => scoped s (exec P pr vcall call k x0 bd s)) (eval P pr vcall call x0 (EInc (EName "i")))) as LC.
    rewrite over_same by exact OB. fold n. change (T0 "int", jint (Z.of_nat 0)) with (Ty "int" [], JT (Ty "int" []) (HInt 0)) in LC. cbn beta in LC.
    etransitivity; [|]. 2: { match goal with |- _ = ?r => instantiate (1 := r) end. reflexivity. }
    assert (LC' := LC). clear LC. specialize (fun A B => LC' A B n O k a eq_refl). cbn beta in LC'.
    change (("i"%string, (T0 "int", jint (Z.of_nat 0))) :: R a) with (("i"%string, (Ty "int" [], JT (Ty "int" []) (HInt 0))) :: R a) in LC'.
    rewrite LC'.
    - cbn [scoped s_loc]. destruct (HR a) as (_ & _ & _ & Q). destruct (HR (fold_left (fun acc i => f acc (nth (ridx b + i) (arr b) 0)) (seq 0 n) a)) as (_ & _ & _ & Q'). rewrite leave_b by congruence. reflexivity.
    - intros a0 i I. destruct (HR a0) as (R1 & R2 & R3 & R4). split; [|split].
      + rewrite (below _ _ i) by (cbn [assoc String.eqb Ascii.eqb Bool.eqb]; auto; lia). apply Nat.ltb_lt in I. now rewrite I.
      + rewrite HB by exact I. cbn [scoped s_loc]. rewrite leave_same; [reflexivity|]. cbn [List.length]. destruct (HR (f a0 (nth (ridx b + i) (arr b) 0))) as (_ & _ & _ & Q). congruence.
      + eexists. apply next. exact I.
    - intros a0. destruct (HR a0) as (R1 & R2 & R3 & R4). rewrite (below _ _ n) by (cbn [assoc String.eqb Ascii.eqb Bool.eqb]; auto; lia). now rewrite Nat.ltb_irrefl.
    - lia.
  Qed.
  Ltac reg := unfold declare, jint; cbn [conv]; unfold set_loc; cbn [s_h s_b s_loc s_stat seq_st bind].
  Ltac idx := rewrite all_cons, ex_local, ev_call; cbn [eval]; erewrite name_loc by reflexivity; cbn [bind]; rewrite args_nil; cbn [bind dispatch]; unfold buf_call; cbn [strip Ascii.eqb Bool.eqb String.eqb s_b bind]; reg.
  Ltac body := rewrite ex_block, all_cons, ex_local; rewrite byte_at with (i := _) by (eassumption || reflexivity); cbn [bind]; reg; rewrite all_cons, ex_expr.
  Lemma calc_crc16 k0 L : assoc "Crc16ChecksumService.CRC_TABLE"%string stat = Some (JArr crc16_table) -> 2 ^ 31 <= Z.of_nat k0 ->
    run P pr vcall (S k0) None "Crc16ChecksumService" "calc" [JBuf] {| s_h := h; s_b := b; s_loc := L; s_stat := stat |} = Ret (jint (crc16_calc (wrapped (readable b)))) {| s_h := h; s_b := b; s_loc := L; s_stat := stat |}.
  Proof.
    intros T K. erewrite run_eq by (rewrite (calc_found _ class_Crc16ChecksumService) by (cbn; tauto); reflexivity). cbn [bind_params conv bind]. unfold set_loc. cbn [s_h s_b s_loc s_stat].
    set (call := run P pr vcall k0). set (x0 := {| x_this := None; x_class := "Crc16ChecksumService"%string |}).
    rewrite all_cons, ex_local. cbn [eval bind]. reg. idx. idx.
    rewrite all_cons. rewrite (readable_loop call k0 x0 (fun a => [("readableBytes", (T0 "int", jint (Z.of_nat (widx b) - Z.of_nat (ridx b)))); ("readerIndex", (T0 "int", jint (Z.of_nat (ridx b)))); ("crc", (T0 "int", jint a)); ("buf", (T0 "ByteBuf", JBuf))]%string) crc16_step _ (hex32 65535)).
    - cbn [seq_st bind]. rewrite all_cons, ex_return. cbn [eval]. erewrite name_loc by reflexivity. reflexivity.
    - reflexivity.
    - intros a. repeat split.
    - intros a i I L0. subst L0. body. set (z := nth (ridx b + i) (arr b) 0). match goal with |- context [eval _ _ _ _ _ _ ?s] => set (s1 := s) end.
      assert (N1 : name_val P x0 "crc" s1 = Ret (jint a) s1) by (eapply name_loc; reflexivity). assert (N2 : name_val P x0 "b" s1 = Ret (jint z) s1) by (eapply name_loc; reflexivity).
      assert (N3 : name_val P x0 "CRC_TABLE" s1 = Ret (JArr crc16_table) s1) by (unfold name_val, x0, s1; cbn [s_loc assoc String.eqb Ascii.eqb Bool.eqb x_this x_class append s_stat]; rewrite T; reflexivity).
      cbn [eval]. rewrite N1. cbn [bind binary jint num arith is_long T1 is_name String.eqb Ascii.eqb Bool.eqb orb]. rewrite N3. cbn [bind]. rewrite N1. cbn [bind]. rewrite N2. cbn [bind binary jint num arith is_long T1 is_name String.eqb Ascii.eqb Bool.eqb orb]. change (hex32 255) with 255.
      rewrite land_index by reflexivity. cbn [bind binary jint num arith is_long T1 is_name String.eqb Ascii.eqb Bool.eqb orb]. unfold assign, s1. cbn [s_loc assoc String.eqb Ascii.eqb Bool.eqb conv bind seq_st]. unfold set_loc. cbn [s_loc s_h s_b s_stat put_assoc String.eqb Ascii.eqb Bool.eqb].
      rewrite all_nil. cbn [scoped s_loc]. rewrite leave_b by reflexivity. reflexivity.
    - exact K.
  Qed.
  Lemma calc_crc32 k0 L : assoc "Crc32ChecksumService.CRC_TABLE"%string stat = Some (JArr crc32_table) -> 2 ^ 31 <= Z.of_nat k0 ->
    run P pr vcall (S k0) None "Crc32ChecksumService" "calc" [JBuf] {| s_h := h; s_b := b; s_loc := L; s_stat := stat |} = Ret (jint (crc32_calc (wrapped (readable b)))) {| s_h := h; s_b := b; s_loc := L; s_stat := stat |}.
  Proof.
    intros T K. erewrite run_eq by (rewrite (calc_found _ class_Crc32ChecksumService) by (cbn; tauto); reflexivity). cbn [bind_params conv bind]. unfold set_loc. cbn [s_h s_b s_loc s_stat].
    set (call := run P pr vcall k0). set (x0 := {| x_this := None; x_class := "Crc32ChecksumService"%string |}).
    rewrite all_cons, ex_local. cbn [eval bind]. reg. idx. idx.
    rewrite all_cons. rewrite (readable_loop call k0 x0 (fun a => [("readableBytes", (T0 "int", jint (Z.of_nat (widx b) - Z.of_nat (ridx b)))); ("readerIndex", (T0 "int", jint (Z.of_nat (ridx b)))); ("crc", (T0 "int", jint a)); ("buf", (T0 "ByteBuf", JBuf))]%string) crc32_step _ (hex32 4294967295)).
    - cbn [seq_st bind]. rewrite all_cons, ex_return. cbn [eval]. erewrite name_loc by reflexivity. reflexivity.
    - reflexivity.
    - intros a. repeat split.
    - intros a i I L0. subst L0. body. set (z := nth (ridx b + i) (arr b) 0). match goal with |- context [eval _ _ _ _ _ _ ?s] => set (s1 := s) end.
      assert (N1 : name_val P x0 "crc" s1 = Ret (jint a) s1) by (eapply name_loc; reflexivity). assert (N2 : name_val P x0 "b" s1 = Ret (jint z) s1) by (eapply name_loc; reflexivity).
      assert (N3 : name_val P x0 "CRC_TABLE" s1 = Ret (JArr crc32_table) s1) by (unfold name_val, x0, s1; cbn [s_loc assoc String.eqb Ascii.eqb Bool.eqb x_this x_class append s_stat]; rewrite T; reflexivity).
      cbn [eval]. rewrite N3. cbn [bind]. rewrite N1. cbn [bind]. rewrite N2. cbn [bind binary jint num arith is_long T1 is_name String.eqb Ascii.eqb Bool.eqb orb]. change (hex32 255) with 255.
      rewrite land_index by reflexivity. cbn [bind]. rewrite N1. cbn [bind binary jint num arith is_long T1 is_name String.eqb Ascii.eqb Bool.eqb orb]. unfold assign, s1. cbn [s_loc assoc String.eqb Ascii.eqb Bool.eqb conv bind seq_st]. unfold set_loc. cbn [s_loc s_h s_b s_stat put_assoc String.eqb Ascii.eqb Bool.eqb].
      rewrite all_nil. cbn [scoped s_loc]. rewrite leave_b by reflexivity. reflexivity.
    - exact K.
  Qed.
  Lemma calc_sse k0 L : 2 ^ 31 <= Z.of_nat k0 ->
    run P pr vcall (S k0) None "SseBinChecksumService" "calc" [JBuf] {| s_h := h; s_b := b; s_loc := L; s_stat := stat |} = Ret (jint (sse_calc (wrapped (readable b)))) {| s_h := h; s_b := b; s_loc := L; s_stat := stat |}.
  Proof.
    intros K. erewrite run_eq by (rewrite (calc_found _ class_SseBinChecksumService) by (cbn; tauto); reflexivity). cbn [bind_params conv bind]. unfold set_loc. cbn [s_h s_b s_loc s_stat].
    set (call := run P pr vcall k0). set (x0 := {| x_this := None; x_class := "SseBinChecksumService"%string |}).
    idx. idx. rewrite all_cons, ex_local. cbn [eval bind]. reg.
    rewrite all_cons. rewrite (readable_loop call k0 x0 (fun a => [("checksum", (T0 "int", jint a)); ("readableBytes", (T0 "int", jint (Z.of_nat (widx b) - Z.of_nat (ridx b)))); ("readerIndex", (T0 "int", jint (Z.of_nat (ridx b)))); ("buf", (T0 "ByteBuf", JBuf))]%string) (fun c x => Z.land (wrap 32 (c + x)) 255) _ 0).
    - cbn [seq_st bind]. rewrite all_cons, ex_return. cbn [eval]. erewrite name_loc by reflexivity. reflexivity.
    - reflexivity.
    - intros a. repeat split.
    - intros a i I L0. subst L0. body. set (z := nth (ridx b + i) (arr b) 0). match goal with |- context [eval _ _ _ _ _ _ ?s] => set (s1 := s) end.
      assert (N1 : name_val P x0 "checksum" s1 = Ret (jint a) s1) by (eapply name_loc; reflexivity). assert (N2 : name_val P x0 "b" s1 = Ret (jint z) s1) by (eapply name_loc; reflexivity).
      cbn [eval]. rewrite N1. cbn [bind]. rewrite N2. cbn [bind binary jint num arith is_stringy is_long T1 is_name String.eqb Ascii.eqb Bool.eqb orb]. change (hex32 255) with 255.
      unfold assign, s1. cbn [s_loc assoc String.eqb Ascii.eqb Bool.eqb conv bind seq_st]. unfold set_loc. cbn [s_loc s_h s_b s_stat put_assoc String.eqb Ascii.eqb Bool.eqb].
      rewrite all_nil. cbn [scoped s_loc]. rewrite leave_b by reflexivity. reflexivity.
    - exact K.
  Qed.
  Lemma calc_szse k0 L : 2 ^ 31 <= Z.of_nat k0 ->
    run P pr vcall (S k0) None "SzseBinChecksumService" "calc" [JBuf] {| s_h := h; s_b := b; s_loc := L; s_stat := stat |} = Ret (jint (szse_calc (wrapped (readable b)))) {| s_h := h; s_b := b; s_loc := L; s_stat := stat |}.
  Proof.
    intros K. erewrite run_eq by (rewrite (calc_found _ class_SzseBinChecksumService) by (cbn; tauto); reflexivity). cbn [bind_params conv bind]. unfold set_loc. cbn [s_h s_b s_loc s_stat].
    set (call := run P pr vcall k0). set (x0 := {| x_this := None; x_class := "SzseBinChecksumService"%string |}).
    idx. idx. rewrite all_cons, ex_local. cbn [eval bind]. reg.
    rewrite all_cons. rewrite (readable_loop call k0 x0 (fun a => [("sum", (T0 "long", JT (T0 "long") (HInt a))); ("readableBytes", (T0 "int", jint (Z.of_nat (widx b) - Z.of_nat (ridx b)))); ("readerIndex", (T0 "int", jint (Z.of_nat (ridx b)))); ("buf", (T0 "ByteBuf", JBuf))]%string) (fun c x => wrap 64 (c + x)) _ 0).
    - cbn [seq_st bind]. rewrite all_cons, ex_return. cbn [eval]. erewrite name_loc by reflexivity. reflexivity.
    - reflexivity.
    - intros a. repeat split.
    - intros a i I L0. subst L0. rewrite ex_block, all_cons, ex_expr. set (z := nth (ridx b + i) (arr b) 0). match goal with |- context [eval _ _ _ _ _ _ ?s] => set (s1 := s) end.
      assert (N1 : name_val P x0 "sum" s1 = Ret (JT (T0 "long") (HInt a)) s1) by (eapply name_loc; reflexivity). pose proof (byte_at call x0 i (s_loc s1) I eq_refl eq_refl eq_refl) as N2. change {| s_h := h; s_b := b; s_loc := s_loc s1; s_stat := stat |} with s1 in N2.
      assert (Q : eval P pr vcall call x0 (EAsg (AOp OAdd) (EName "sum") (ECall (EName "buf") "getUnsignedByte" [EBin OAdd (EName "readerIndex") (EName "i")])) s1 =
        bind (name_val P x0 "sum" s1) (fun v s' => bind (eval P pr vcall call x0 (ECall (EName "buf") "getUnsignedByte" [EBin OAdd (EName "readerIndex") (EName "i")]) s') (fun w s'' =>
          match lvalue_type P x0 "sum" s1 with Some t => bind (binary pr vcall OAdd v w s'') (fun u s3 => num u s3 (fun _ z => assign P x0 "sum" (JT t (HInt (cast_z t z))) s3)) | None => Bad end))) by reflexivity.
      rewrite Q, N1. cbn [bind]. rewrite N2. cbn [bind]. fold z. unfold lvalue_type. cbn [s_loc s1 assoc String.eqb Ascii.eqb Bool.eqb]. cbn [bind binary jint num arith is_stringy is_long T0 T1 is_name String.eqb Ascii.eqb Bool.eqb orb].
      unfold assign, s1. cbn [s_loc assoc String.eqb Ascii.eqb Bool.eqb conv bind seq_st]. unfold set_loc. cbn [s_loc s_h s_b s_stat put_assoc String.eqb Ascii.eqb Bool.eqb].
      rewrite all_nil. cbn [scoped s_loc]. rewrite leave_same by reflexivity. unfold cast_z. cbn [is_name String.eqb Ascii.eqb Bool.eqb]. rewrite (wrap_id 64 (wrap 64 (a + z))) by (reflexivity || apply wrap_in_signed; lia). reflexivity.
    - exact K.
  Qed.
End Calc.
