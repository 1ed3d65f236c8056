(* The methods of the four bitmaps, run as Java, against the model. *)
From Coq Require Import ZArith NArith List Bool String Ascii Lia.
From Verif.Model Require Import JavaPrim ByteBuf Checksum Utf8 Codec Ast Interp Factory Show Heap Library BitMap.
From Verif.Proofs Require Import BytesFacts HeapFacts JavaSem JavaEncode JavaClasses JavaServices.
From Verif.Java Require Import Lex Syntax Source Sources Sem CodecTrees Init Program.
Import ListNotations.
Open Scope Z_scope.
Open Scope list_scope.

Inductive bitmap := BByte | BShort | BInt | BLong.
Definition bm_class (k : bitmap) : string := match k with BByte => "ByteBitMap" | BShort => "ShortBitMap" | BInt => "IntBitMap" | BLong => "LongBitMap" end.
Definition bm_type (k : bitmap) : ty := T1 (match k with BByte => "byte" | BShort => "short" | BInt => "int" | BLong => "long" end).
Definition bm_set (k : bitmap) := match k with BByte => byte_set | BShort => short_set | BInt => int_set | BLong => long_set end.
Definition bm_clear (k : bitmap) := match k with BByte => byte_clear | BShort => short_clear | BInt => int_clear | BLong => long_clear end.
Definition bm_get (k : bitmap) := match k with BByte => byte_get | BShort => short_get | BInt => int_get | BLong => long_get end.
Definition bm_count (k : bitmap) := match k with BByte => byte_count | BShort => short_count | BInt => int_count | BLong => long_count end.
Definition bm_write (k : bitmap) := match k with BByte => byte_write | BShort => short_write | BInt => int_write | BLong => long_write end.
Definition bm_read (k : bitmap) := match k with BByte => byte_read | BShort => short_read | BInt => int_read | BLong => long_read end.
(* the object *)
Definition bm_cell (k : bitmap) (bits : Z) : cell := CObj (bm_class k) [("bits"%string, HInt bits)].

Lemma land31 s : Z.land (wrap 32 s) 31 = Z.land s 31.
Proof.
  change 31 with (Z.ones 5). rewrite !Z.land_ones by lia. rewrite (Znumtheory.Zmod_div_mod (2 ^ 5) (2 ^ 32) (wrap 32 s)), (Znumtheory.Zmod_div_mod (2 ^ 5) (2 ^ 32) s) by first [lia|exists (2 ^ 27); reflexivity]. now rewrite wrap_mod by lia.
Qed.
Lemma land63 s : Z.land (wrap 32 s) 63 = Z.land s 63.
Proof.
  change 63 with (Z.ones 6). rewrite !Z.land_ones by lia. rewrite (Znumtheory.Zmod_div_mod (2 ^ 6) (2 ^ 32) (wrap 32 s)), (Znumtheory.Zmod_div_mod (2 ^ 6) (2 ^ 32) s) by first [lia|exists (2 ^ 26); reflexivity]. now rewrite wrap_mod by lia.
Qed.
Lemma ishl_wrap x s : ishl x (wrap 32 s) = ishl x s. Proof. unfold ishl. now rewrite land31. Qed.
Lemma lshl_wrap x s : lshl x (wrap 32 s) = lshl x s. Proof. unfold lshl. now rewrite land63. Qed.

Lemma wrap_again z : wrap 32 (wrap 32 z) = wrap 32 z.
Proof. apply wrap_small; [lia|]. pose proof (wrap_range 32 z ltac:(lia)). lia. Qed.

Lemma upd_nth {A} (h : list A) l x y : nth_error h l = Some y -> nth_error (upd h l x) l = Some x.
Proof.
  unfold upd. revert l. induction h as [|z h IH]; intros [|l] H; cbn [nth_error firstn skipn app] in *; try discriminate; [reflexivity|]. now apply IH.
Qed.
Lemma upd_upd {A} (h : list A) l x y : upd (upd h l x) l y = upd h l y.
Proof.
  unfold upd. revert l. induction h as [|z h IH]; intros [|l]; cbn [firstn skipn app]; try reflexivity. f_equal. apply IH.
Qed.
Lemma upd_id {A} (h : list A) l x : nth_error h l = Some x -> upd h l x = h.
Proof.
  unfold upd. revert l. induction h as [|z h IH]; intros [|l] H; cbn [nth_error firstn skipn app] in *; try discriminate; [now injection H as ->|]. f_equal. now apply IH.
Qed.

Definition bm_tree (k : bitmap) : jclass := match k with BByte => class_ByteBitMap | BShort => class_ShortBitMap | BInt => class_IntBitMap | BLong => class_LongBitMap end.
Lemma bm_there k : assoc (bm_class k) lib_program = Some (bm_tree k).
Proof. apply codec_class. destruct k; cbn; tauto. Qed.
Lemma bm_method k m n x : method_in (members (bm_tree k)) m n = Some x -> find_method lib_program (bm_class k) m n = Some x.
Proof. intros H. unfold find_method. rewrite bm_there, H. reflexivity. Qed.
Lemma bm_field k : field_ty lib_program (bm_class k) "bits" = Some (bm_type k).
Proof. unfold field_ty. rewrite bm_there. destruct k; reflexivity. Qed.

Section Bitmap.
  Variable pr : printers.
  Variable vcall : string -> nat -> list jval -> st -> res jval.
  Variable stat : list (string * jval).
  Variable k : bitmap.
  Variable l : nat.
  Let x0 := {| x_this := Some l; x_class := bm_class k |}.
  Notation mk h b L := {| s_h := h; s_b := b; s_loc := L; s_stat := stat |}.
  Lemma name_bits h b L bits : nth_error h l = Some (bm_cell k bits) -> assoc "bits"%string L = None -> name_val lib_program x0 "bits" (mk h b L) = Ret (JT (bm_type k) (HInt bits)) (mk h b L).
  Proof. intros C N. unfold name_val. cbn [s_loc x_this x_class x0]. rewrite N, bm_field. unfold field. cbn [s_h]. rewrite C. reflexivity. Qed.
  Lemma assign_bits h b L bits t z : nth_error h l = Some (bm_cell k bits) -> assoc "bits"%string L = None ->
    assign lib_program x0 "bits" (JT t (HInt z)) (mk h b L) = Ret (JT (bm_type k) (HInt z)) (mk (upd h l (bm_cell k z)) b L).
  Proof. intros C N. unfold assign. cbn [s_loc x_this x_class x0]. rewrite N, bm_field. cbn [conv hval_of]. unfold put_field. cbn [s_h]. rewrite C. reflexivity. Qed.
  Lemma lvalue_bits s : assoc "bits"%string (s_loc s) = None -> lvalue_type lib_program x0 "bits" s = Some (bm_type k).
  Proof. intros N. unfold lvalue_type. rewrite N. exact (bm_field k). Qed.
  Lemma cast_bits z : cast_z (bm_type k) z = wrap (match k with BByte => 8 | BShort => 16 | BInt => 32 | BLong => 64 end) z.
  Proof. destruct k; reflexivity. Qed.
End Bitmap.

Ltac arith_cbn := cbn [bind jint binary is_stringy is_numeric bm_type T1 is_name is_prim is_long is_object existsb String.eqb Ascii.eqb Bool.eqb orb andb negb num arith].
Ltac locals := repeat (erewrite name_loc by reflexivity; arith_cbn).

Section Ops.
  Variable pr : printers.
  Variable stat : list (string * jval).
  Variable kd : bitmap.
  Notation mk h b L := {| s_h := h; s_b := b; s_loc := L; s_stat := stat |}.
  Section Frame.
  Variable d k : nat.
  Variable h : heap.
  Variable l : nat.
  Variable bits : Z.
  Hypothesis C : nth_error h l = Some (bm_cell kd bits).
  Variable b : bytebuf.
  Variable L : list (string * (ty * jval)).
  Lemma enter m args : vcalls lib_program pr (S k) (S d) m l args (mk h b L) = run lib_program pr (vcalls lib_program pr (S k) d) (S k) (Some l) (bm_class kd) m args (mk h b L).
  Proof. cbn [vcalls s_h]. rewrite C. reflexivity. Qed.

  Lemma bits_at L0 : assoc "bits"%string L0 = None -> name_val lib_program {| x_this := Some l; x_class := bm_class kd |} "bits" (mk h b L0) = Ret (JT (bm_type kd) (HInt bits)) (mk h b L0).
  Proof. exact (name_bits stat kd l h b L0 bits C). Qed.
  Lemma bits_to L0 t z : assoc "bits"%string L0 = None -> assign lib_program {| x_this := Some l; x_class := bm_class kd |} "bits" (JT t (HInt z)) (mk h b L0) = Ret (JT (bm_type kd) (HInt z)) (mk (upd h l (bm_cell kd z)) b L0).
  Proof. exact (assign_bits stat kd l h b L0 bits t z C). Qed.
  End Frame.
End Ops.

Lemma assign_loc x0 x t v s t' z : assoc x (s_loc s) = Some (t, v) -> assign lib_program x0 x (JT t' (HInt z)) s = Ret (JT t (HInt z)) (set_loc s (put_assoc x (t, JT t (HInt z)) (s_loc s))).
Proof. intros H. unfold assign. rewrite H. reflexivity. Qed.
Lemma assign_bool x0 x t v s c : assoc x (s_loc s) = Some (t, v) -> assign lib_program x0 x (JB c) s = Ret (JB c) (set_loc s (put_assoc x (t, JB c) (s_loc s))).
Proof. intros H. unfold assign. rewrite H. reflexivity. Qed.
Lemma lvalue_loc x0 x t v s : assoc x (s_loc s) = Some (t, v) -> lvalue_type lib_program x0 x s = Some t.
Proof. intros H. unfold lvalue_type. rewrite H. reflexivity. Qed.
Lemma write_call vcall call x0 x t z s : dispatch lib_program vcall call x0 x JBuf "writeByte" [JT t (HInt z)] s = done s (write_int BE 1 z (s_b s)).
Proof. reflexivity. Qed.
Lemma read_call vcall call x0 x s : dispatch lib_program vcall call x0 x JBuf "readByte" [] s = got s (read_bytes 1 (s_b s)) (fun bs => JT (T1 "byte") (HInt (get_int BE bs))).
Proof. exact (buf_read 1 BE s (or_introl eq_refl)). Qed.
Ltac step := arith_cbn; cbn [bm_class]; first
  [ erewrite name_loc by reflexivity
  | erewrite assign_loc by reflexivity; unfold set_loc; cbn [put_assoc String.eqb Ascii.eqb Bool.eqb s_h s_b s_loc s_stat]
  | erewrite assign_bool by reflexivity; unfold set_loc; cbn [put_assoc String.eqb Ascii.eqb Bool.eqb s_h s_b s_loc s_stat]
  | erewrite lvalue_loc by reflexivity
  | match goal with |- context [name_val lib_program {| x_this := Some ?l; x_class := ?c |} "bits" {| s_h := ?h; s_b := ?b; s_loc := ?L0; s_stat := ?stat |}] =>
      match goal with H : nth_error h l = Some (bm_cell ?K ?bits) |- _ => rewrite (bits_at stat K h l bits H b L0 eq_refl : name_val lib_program {| x_this := Some l; x_class := c |} "bits" _ = _) end end
  | match goal with |- context [assign lib_program {| x_this := Some ?l; x_class := ?c |} "bits" (JT ?t (HInt ?z)) {| s_h := ?h; s_b := ?b; s_loc := ?L0; s_stat := ?stat |}] =>
      match goal with H : nth_error h l = Some (bm_cell ?K ?bits) |- _ => rewrite (bits_to stat K h l bits H b L0 t z eq_refl : assign lib_program {| x_this := Some l; x_class := c |} "bits" _ _ = _) end end
  | match goal with |- context [lvalue_type lib_program {| x_this := Some ?l; x_class := ?c |} "bits" ?s] =>
      match goal with H : nth_error _ l = Some (bm_cell ?K _) |- _ => rewrite (lvalue_bits K l s eq_refl : lvalue_type lib_program {| x_this := Some l; x_class := c |} "bits" s = _) end end ].
Ltac enters K C := rewrite (enter _ _ K _ _ _ _ _ C); erewrite run_eq by (apply (bm_method K); reflexivity); cbn [bind_params conv is_prim T1 existsb String.eqb Ascii.eqb Bool.eqb orb bind]; unfold set_loc; cbn [s_h s_b s_loc s_stat].

Ltac tidy := unfold declare, set_loc; cbn [conv seq_st bind scoped result s_h s_b s_loc s_stat fst snd jint binary is_stringy is_numeric bm_type T1 is_name is_prim is_long is_object existsb String.eqb Ascii.eqb Bool.eqb orb andb negb num arith].
Ltac go := repeat (tidy; first [step | rewrite all_cons | rewrite all_nil | rewrite ex_local; cbn [eval] | rewrite ex_expr; cbn [eval] | rewrite ex_return; cbn [eval] | rewrite ex_if; cbn [eval] | rewrite ex_block; cbn [eval]]); tidy.

Section Theorems.
  Variable pr : printers.
  Variable stat : list (string * jval).
  Notation mk h b L := {| s_h := h; s_b := b; s_loc := L; s_stat := stat |}.
  Theorem java_bm_set kd d k h l bits b L t pos : nth_error h l = Some (bm_cell kd bits) ->
    vcalls lib_program pr (S k) (S d) "set" l [JT t (HInt pos)] (mk h b L) = Ret JVoid (mk (upd h l (bm_cell kd (bm_set kd bits pos))) b L).
  Proof.
    intros C. destruct kd; [enters BByte C|enters BShort C|enters BInt C|enters BLong C]; go; rewrite ?ishl_wrap, ?lshl_wrap; reflexivity.
  Qed.
  Theorem java_bm_clear kd d k h l bits b L t pos : nth_error h l = Some (bm_cell kd bits) ->
    vcalls lib_program pr (S k) (S d) "clear" l [JT t (HInt pos)] (mk h b L) = Ret JVoid (mk (upd h l (bm_cell kd (bm_clear kd bits pos))) b L).
  Proof.
    intros C. destruct kd; [enters BByte C|enters BShort C|enters BInt C|enters BLong C]; go; rewrite ?ishl_wrap, ?lshl_wrap; reflexivity.
  Qed.
  Theorem java_bm_get kd d k h l bits b L t pos : nth_error h l = Some (bm_cell kd bits) ->
    vcalls lib_program pr (S k) (S d) "get" l [JT t (HInt pos)] (mk h b L) = Ret (JB (bm_get kd bits pos)) (mk h b L).
  Proof.
    intros C. destruct kd; [enters BByte C|enters BShort C|enters BInt C|enters BLong C]; go; rewrite ?ishl_wrap, ?lshl_wrap; reflexivity.
  Qed.
  Theorem java_bm_count kd d k h l bits b L : nth_error h l = Some (bm_cell kd bits) ->
    vcalls lib_program pr (S k) (S d) "bitCount" l [] (mk h b L) = Ret (jint (bm_count kd)) (mk h b L).
  Proof.
    intros C. destruct kd; [enters BByte C|enters BShort C|enters BInt C|enters BLong C]; go; reflexivity.
  Qed.
  Lemma write_byte_short d k h l bits b L kd : kd = BByte \/ kd = BShort -> nth_error h l = Some (bm_cell kd bits) ->
    vcalls lib_program pr (S k) (S d) "write" l [JBuf] (mk h b L) = (let '(e, b') := bm_write kd bits b in ends e JVoid (mk h b' L)).
  Proof.
    intros [->| ->] C; [enters BByte C|enters BShort C]; go.
    - unfold bm_write, byte_write. rewrite write_call. cbn [s_b]. destruct (write_int BE 1 bits b) as [[e|] b']; cbn [done]; unfold set_b; go; reflexivity.
    - unfold bm_write, short_write. cbv zeta. rewrite write_call. cbn [s_b].
      change (cast_z (Ty "byte" []) (Z.lor (cast_z (Ty "byte" []) (Z.land (ishr bits 8) (hex32 255))) (hex32 128))) with (wrap 8 (Z.lor (wrap 8 (Z.land (ishr bits 8) 255)) 128)).
      destruct (write_int BE 1 _ b) as [[e|] b']; cbn [done]; unfold set_b; go; [reflexivity|]. rewrite write_call. cbn [s_b]. change (cast_z (Ty "byte" []) (Z.land bits (hex32 255))) with (wrap 8 (Z.land bits 255)).
      destruct (write_int BE 1 _ b') as [[e|] b'']; cbn [done]; unfold set_b; go; reflexivity.
  Qed.

  (* ---------- write of IntBitMap and LongBitMap ---------- *)
  Lemma loop_groups h0 (g : Z -> Z) (n : nat) (St : nat -> bytebuf -> st) (c : st -> res jval) (bd : st -> res (option jval)) (u : st -> res jval) :
    (forall i b, exists L, St i b = mk h0 b L) ->
    (forall i b, (i <= n)%nat -> c (St i b) = Ret (JB (Nat.ltb i n)) (St i b)) ->
    (forall i b, (i < n)%nat -> bd (St i b) = (let '(e, b') := write_int BE 1 (g (Z.of_nat i)) b in ends e None (St i b'))) ->
    (forall i b, (i < n)%nat -> exists w, u (St i b) = Ret w (St (S i) b)) ->
    forall m i b fuel, (i + m = n)%nat -> (m < fuel)%nat ->
      exists L', loop fuel c bd u (St i b) = (let '(e, b') := write_groups (map (fun j => g (Z.of_nat j)) (seq i m)) b in ends e None (match e with None => St n b' | Some _ => mk h0 b' L' end)).
  Proof.
    intros HS HC HB HU. induction m as [|m IH]; intros i b fuel E F; (destruct fuel as [|fuel]; [lia|]).
    - exists []. cbn [seq map write_groups]. replace i with n in * by lia. rewrite (loop_stop fuel c bd u _ (St n b)); [reflexivity|]. rewrite HC by lia. rewrite Nat.ltb_irrefl. reflexivity.
    - cbn [seq map write_groups]. assert (T : c (St i b) = Ret (JB true) (St i b)) by (rewrite HC by lia; do 2 f_equal; apply Nat.ltb_lt; lia). pose proof (HB i b ltac:(lia)) as HB'.
      destruct (write_int BE 1 (g (Z.of_nat i)) b) as [[e|] b'] eqn:Wr; cbn [ends] in HB'.
      + destruct (HS i b') as (L' & HL). exists L'. rewrite (loop_exc _ _ _ _ _ _ _ _ T HB'), HL. reflexivity.
      + destruct (HU i b' ltac:(lia)) as (w & Hu). rewrite (loop_go _ _ _ _ _ _ _ _ _ T HB' Hu). apply IH; lia.
  Qed.
  Definition for_body (kd : bitmap) : stmt := match find (fun s => match s with SFor _ _ _ _ _ _ => true | _ => false end) (match method_in (members (bm_tree kd)) "write" 1 with Some (_, ss) => ss | None => [] end) with Some (SFor _ _ _ _ _ b) => b | _ => SBlock [] end.
  Definition loc_i (kd : bitmap) (bits : Z) (i : nat) : list (string * (ty * jval)) :=
    ("i"%string, (Ty "int" [], JT (Ty "int" []) (HInt (Z.of_nat i)))) :: match kd with BLong => [("val"%string, (Ty "long" [], JT (Ty "long" []) (HInt bits)))] | _ => [] end ++ [("buf"%string, (Ty "ByteBuf" [], JBuf))].
  Definition bm_groups (kd : bitmap) : nat := match kd with BLong => 8 | _ => 4 end.
  Definition bm_group (kd : bitmap) : Z -> Z -> Z := match kd with BLong => long_group | _ => int_group end.
  Lemma group_body kd vc k h l bits i b : kd = BInt \/ kd = BLong -> nth_error h l = Some (bm_cell kd bits) -> (i < bm_groups kd)%nat ->
    scoped (mk h b (loc_i kd bits i)) (exec lib_program pr vc (run lib_program pr vc k) k {| x_this := Some l; x_class := bm_class kd |} (for_body kd) (mk h b (loc_i kd bits i)))
    = (let '(e, b') := write_int BE 1 (bm_group kd bits (Z.of_nat i)) b in ends e None (mk h b' (loc_i kd bits i))).
  Proof.
    intros [->| ->] C I; cbn [bm_groups] in I.
    - change (for_body BInt) with (SBlock [(SLocal (Ty "byte" []) "b" (Some (ECast (Ty "byte" []) (EParen (EBin OBAnd (EParen (EBin OShr (EName "bits") (EParen (EBin OSub (EInt false 24) (EBin OMul (EName "i") (EInt false 7)))))) (EInt true 127)))))); (SIf (EBin OLt (EName "i") (EInt false 3)) (SExpr (EAsg (AOp OBOr) (EName "b") (EInt true 128))) None); (SExpr (ECall (EName "buf") "writeByte" [(EName "b")]))]).
      unfold bm_group, int_group, loc_i. rewrite ex_block. cbn [app]. go. rewrite ?leave_same by reflexivity.
      assert (Q : wrap 32 (24 - wrap 32 (Z.of_nat i * 7)) = 24 - Z.of_nat i * 7) by (do 4 (destruct i as [|i]; [reflexivity|]); lia). rewrite Q. change (hex32 127) with 127. change (hex32 128) with 128. change (cast_z (Ty "byte" [])) with (wrap 8).
      destruct (Z.of_nat i <? 3); go; rewrite write_call; cbn [s_b]; (destruct (write_int BE 1 _ b) as [[e|] b']; cbn [done]; unfold set_b; go; cbn [ends]; unfold leave, set_loc; reflexivity).
    - change (for_body BLong) with (SBlock [(SLocal (Ty "byte" []) "b" (Some (ECast (Ty "byte" []) (EParen (EBin OBAnd (EParen (EBin OShr (EName "val") (EParen (EBin OSub (EInt false 49) (EBin OMul (EName "i") (EInt false 7)))))) (EInt true 127)))))); (SIf (EBin OLt (EName "i") (EInt false 7)) (SExpr (EAsg (AOp OBOr) (EName "b") (EInt true 128))) None); (SExpr (ECall (EName "buf") "writeByte" [(EName "b")]))]).
      unfold bm_group, long_group, loc_i. rewrite ex_block. cbn [app]. go. rewrite ?leave_same by reflexivity.
      assert (Q : wrap 32 (49 - wrap 32 (Z.of_nat i * 7)) = 49 - Z.of_nat i * 7) by (do 8 (destruct i as [|i]; [reflexivity|]); lia). rewrite Q. change (hex32 127) with 127. change (hex32 128) with 128. change (cast_z (Ty "byte" [])) with (wrap 8).
      destruct (Z.of_nat i <? 7); go; rewrite write_call; cbn [s_b]; (destruct (write_int BE 1 _ b) as [[e|] b']; cbn [done]; unfold set_b; go; cbn [ends]; unfold leave, set_loc; reflexivity).
  Qed.
  Lemma write_int_long d k h l bits b L kd : (9 <= k)%nat -> kd = BInt \/ kd = BLong -> nth_error h l = Some (bm_cell kd bits) ->
    vcalls lib_program pr (S k) (S d) "write" l [JBuf] (mk h b L) = (let '(e, b') := bm_write kd bits b in ends e JVoid (mk h b' L)).
  Proof.
    intros Hk HK C. set (vc := vcalls lib_program pr (S k) d). set (x0 := {| x_this := Some l; x_class := bm_class kd |}). set (cond := eval lib_program pr vc (run lib_program pr vc k) x0 (EBin OLt (EName "i") (EInt false (Z.of_nat (bm_groups kd))))).
    set (bd := fun s => scoped s (exec lib_program pr vc (run lib_program pr vc k) k x0 (for_body kd) s)). set (up := eval lib_program pr vc (run lib_program pr vc k) x0 (EInc (EName "i"))).
    assert (G : exists L', loop k cond bd up (mk h b (loc_i kd bits 0)) = (let '(e, b') := write_groups (map (fun j => bm_group kd bits (Z.of_nat j)) (seq 0 (bm_groups kd))) b in ends e None (match e with None => mk h b' (loc_i kd bits (bm_groups kd)) | Some _ => mk h b' L' end))).
    { apply (loop_groups h (bm_group kd bits) (bm_groups kd) (fun i b => mk h b (loc_i kd bits i)) cond bd up); try reflexivity.
      - intros i b0. eexists. reflexivity.
      - intros i b0 I. unfold cond. cbn [eval]. erewrite name_loc by reflexivity. cbn [bind jint binary num arith]. do 2 f_equal. apply eq_true_iff_eq. rewrite Z.ltb_lt, Nat.ltb_lt. lia.
      - intros i b0 I. apply group_body; assumption.
      - intros i b0 I. eexists. unfold up. cbn [eval]. erewrite name_loc by reflexivity. cbn [bind num]. erewrite assign_loc by reflexivity. cbn [bind]. unfold set_loc, loc_i. cbn [put_assoc String.eqb Ascii.eqb Bool.eqb s_h s_b s_loc s_stat]. do 2 f_equal.
        change (cast_z (Ty "int" [])) with (wrap 32). rewrite wrap_small; [|lia|destruct HK as [->| ->]; cbn [bm_groups] in I; lia]. replace (Z.of_nat i + 1) with (Z.of_nat (S i)) by lia. reflexivity.
      - destruct HK as [->| ->]; cbn [bm_groups]; lia. }
    destruct G as (L' & G). rewrite (enter pr stat kd d k h l bits C b L).
    destruct HK as [->| ->]; (erewrite run_eq by (apply bm_method; reflexivity)); cbn [bind_params conv bind]; unfold set_loc at 1; cbn [s_h s_b s_loc s_stat].
    - rewrite all_cons, ex_for. cbn [eval bind]. unfold declare. cbn [conv jint bind]. unfold set_loc at 1. cbn [s_h s_b s_loc s_stat]. unfold bm_write, int_write.
      change (map (int_group bits) [0; 1; 2; 3]) with (map (fun j => bm_group BInt bits (Z.of_nat j)) (seq 0 (bm_groups BInt))).
      match goal with |- context [loop k ?a1 ?a2 ?a3 ?a4] => change (loop k a1 a2 a3 a4) with (loop k cond bd up (mk h b (loc_i BInt bits 0))) end.
      rewrite G. destruct (write_groups _ b) as [[e|] b']; cbn [ends]; go; unfold leave, loc_i; cbn [s_loc s_h s_b s_stat List.length Nat.sub skipn]; unfold set_loc; reflexivity.
    - go. rewrite ex_for. cbn [eval bind]. unfold declare. cbn [conv jint bind]. unfold set_loc at 1. cbn [s_h s_b s_loc s_stat]. unfold bm_write, long_write.
      change (map (long_group bits) [0; 1; 2; 3; 4; 5; 6; 7]) with (map (fun j => bm_group BLong bits (Z.of_nat j)) (seq 0 (bm_groups BLong))).
      match goal with |- context [loop k ?a1 ?a2 ?a3 ?a4] => change (loop k a1 a2 a3 a4) with (loop k cond bd up (mk h b (loc_i BLong bits 0))) end.
      rewrite G. destruct (write_groups _ b) as [[e|] b']; cbn [ends]; go; unfold leave, loc_i; cbn [s_loc s_h s_b s_stat List.length Nat.sub skipn]; unfold set_loc; reflexivity.
  Qed.
  Theorem java_bm_write kd d k h l bits b L : (9 <= k)%nat -> nth_error h l = Some (bm_cell kd bits) ->
    vcalls lib_program pr (S k) (S d) "write" l [JBuf] (mk h b L) = (let '(e, b') := bm_write kd bits b in ends e JVoid (mk h b' L)).
  Proof. intros K C. destruct kd; [apply write_byte_short|apply write_byte_short|apply write_int_long|apply write_int_long]; auto. Qed.

  (* ---------- read ---------- *)
  Lemma ex_none P vcall call k x0 t x s : exec P pr vcall call k x0 (SLocal t x None) s = Ret None (set_loc s ((x, (t, JVoid)) :: s_loc s)).
  Proof. reflexivity. Qed.
  Lemma ex_do P vcall call k x0 b c s : exec P pr vcall call k x0 (SDo b c) s =
    scoped s (bind (scoped s (exec P pr vcall call k x0 b s)) (fun r s' => match r with Some _ => Ret r s' | None => loop k (eval P pr vcall call x0 c) (fun s => scoped s (exec P pr vcall call k x0 b s)) (Ret JVoid) s' end)).
  Proof. reflexivity. Qed.
  Lemma read_byte_short d k h l bits b L kd : kd = BByte \/ kd = BShort -> nth_error h l = Some (bm_cell kd bits) ->
    vcalls lib_program pr (S k) (S d) "read" l [JBuf] (mk h b L) = (let '(e, bits', b') := bm_read kd bits b in ends e JVoid (mk (upd h l (bm_cell kd bits')) b' L)).
  Proof.
    intros [->| ->] C; [enters BByte C|enters BShort C]; go.
    - unfold bm_read, byte_read. rewrite read_call. cbn [s_b]. destruct (read_bytes 1 b) as [[e|x] b']; cbn [got]; unfold set_b; go; [|reflexivity]. rewrite (upd_id _ _ _ C). reflexivity.
    - unfold bm_read, short_read. rewrite read_call. cbn [s_b]. destruct (read_bytes 1 b) as [[e|x] b']; cbn [got]; unfold set_b; go; [rewrite (upd_id _ _ _ C); reflexivity|].
      rewrite read_call. cbn [s_b]. destruct (read_bytes 1 b') as [[e|y] b'']; cbn [got]; unfold set_b; go; [rewrite (upd_id _ _ _ C); reflexivity|].
      reflexivity.
  Qed.
  Definition do_body (kd : bitmap) : stmt := match find (fun s => match s with SDo _ _ => true | _ => false end) (match method_in (members (bm_tree kd)) "read" 1 with Some (_, ss) => ss | None => [] end) with Some (SDo b _) => b | _ => SBlock [] end.
  Definition loc_r (sh : Z) (c : jval) : list (string * (ty * jval)) := [("shift"%string, (Ty "int" [], JT (Ty "int" []) (HInt sh))); ("cont"%string, (Ty "boolean" [], c)); ("buf"%string, (Ty "ByteBuf" [], JBuf))].
  Definition bm_shl (kd : bitmap) : Z -> Z -> Z := match kd with BLong => lshl | _ => ishl end.
  Definition bm_width (kd : bitmap) : Z := match kd with BByte => 8 | BShort => 16 | BInt => 32 | BLong => 64 end.
  Lemma read_body kd vc k h l bits sh c b : kd = BInt \/ kd = BLong -> nth_error h l = Some (bm_cell kd bits) ->
    scoped (mk h b (loc_r sh c)) (exec lib_program pr vc (run lib_program pr vc k) k {| x_this := Some l; x_class := bm_class kd |} (do_body kd) (mk h b (loc_r sh c)))
    = match read_bytes 1 b with
      | (inl e, b') => Exc e (mk h b' (loc_r sh c))
      | (inr x, b') => Ret None (mk (upd h l (bm_cell kd (wrap (bm_width kd) (Z.lor bits (bm_shl kd (Z.land (get_int BE x) 127) sh))))) b'
                                    (loc_r (wrap 32 (sh + 7)) (JB (negb (Z.land (get_int BE x) 128 =? 0)))))
      end.
  Proof.
    intros [->| ->] C.
    - change (do_body BInt) with (SBlock [(SLocal (Ty "byte" []) "b" (Some (ECall (EName "buf") "readByte" []))); (SExpr (EAsg ASet (EName "cont") (EBin ONe (EParen (EBin OBAnd (EName "b") (EInt true 128))) (EInt false 0)))); (SExpr (EAsg (AOp OBOr) (EName "bits") (EBin OShl (EParen (EBin OBAnd (EName "b") (EInt true 127))) (EName "shift")))); (SExpr (EAsg (AOp OAdd) (EName "shift") (EInt false 7)))]).
      unfold loc_r. rewrite ex_block. go. rewrite read_call. cbn [s_b]. destruct (read_bytes 1 b) as [[e|x] b']; cbn [got]; unfold set_b; go; [reflexivity|]. unfold leave, set_loc. cbn [s_loc s_h s_b s_stat List.length Nat.sub skipn].
      change (cast_z (Ty "int" [])) with (wrap 32). rewrite wrap_again. reflexivity.
    - change (do_body BLong) with (SBlock [(SLocal (Ty "byte" []) "b" (Some (ECall (EName "buf") "readByte" []))); (SExpr (EAsg ASet (EName "cont") (EBin ONe (EParen (EBin OBAnd (EName "b") (EInt true 128))) (EInt false 0)))); (SExpr (EAsg (AOp OBOr) (EName "bits") (EBin OShl (EParen (ECast (Ty "long" []) (EParen (EBin OBAnd (EName "b") (EInt true 127))))) (EName "shift")))); (SExpr (EAsg (AOp OAdd) (EName "shift") (EInt false 7)))]).
      unfold loc_r. rewrite ex_block. go. rewrite read_call. cbn [s_b]. destruct (read_bytes 1 b) as [[e|x] b']; cbn [got]; unfold set_b; go; [reflexivity|]. unfold leave, set_loc. cbn [s_loc s_h s_b s_stat List.length Nat.sub skipn].
      change (cast_z (Ty "int" [])) with (wrap 32). rewrite wrap_again. change (cast_z (Ty "long" []) (Z.land (get_int BE x) (hex32 127))) with (wrap 64 (Z.land (get_int BE x) (Z.ones 7))).
      rewrite (wrap_small 64); [reflexivity|lia|]. rewrite Z.land_ones by lia. pose proof (Z.mod_pos_bound (get_int BE x) (2 ^ 7)). lia.
  Qed.
  Lemma read_turns kd vc k l : kd = BInt \/ kd = BLong ->
    let x0 := {| x_this := Some l; x_class := bm_class kd |} in
    let bd s := scoped s (exec lib_program pr vc (run lib_program pr vc k) k x0 (do_body kd) s) in
    forall n b h bits sh c fuel mf, (widx b - ridx b < n)%nat -> (n <= fuel)%nat -> (n <= mf)%nat -> nth_error h l = Some (bm_cell kd bits) ->
    exists L', List.length L' = 3%nat /\
      bind (bd (mk h b (loc_r sh c))) (fun r s' => match r with Some _ => Ret r s' | None => loop fuel (eval lib_program pr vc (run lib_program pr vc k) x0 (EName "cont")) bd (Ret JVoid) s' end)
      = (let '(e, bits', b') := read_loop (bm_shl kd) (bm_width kd) mf bits sh b in ends e None (mk (upd h l (bm_cell kd bits')) b' L')).
  Proof.
    intros K x0 bd. induction n as [|n IH]; intros b h bits sh c fuel mf Hn Hf Hm C; [lia|].
    destruct mf as [|mf]; [lia|]. destruct fuel as [|fuel]; [lia|]. unfold bd at 1. unfold x0 at 1. rewrite (read_body kd vc k h l bits sh c b K C). cbn [read_loop].
    unfold read_bytes. destruct (Nat.leb_spec (ridx b + 1) (widx b)) as [Hr|Hr].
    - cbn [bind]. set (x := slice (arr b) (ridx b) 1). set (b1 := set_ridx b (ridx b + 1)). set (bits' := wrap (bm_width kd) (Z.lor bits (bm_shl kd (Z.land (get_int BE x) 127) sh))).
      destruct (negb (Z.land (get_int BE x) 128 =? 0)).
      + destruct (IH b1 (upd h l (bm_cell kd bits')) bits' (wrap 32 (sh + 7)) (JB true) fuel mf) as (L' & HL & E); [unfold b1; cbn [widx ridx set_ridx]; lia|lia|lia|exact (upd_nth _ _ _ _ C)|].
        exists L'. split; [exact HL|]. cbn [eval] in E. cbn [loop eval]. erewrite name_loc by reflexivity. cbn [bind]. etransitivity; [exact E|]. destruct (read_loop _ _ mf bits' _ b1) as [[e b2] b3]. rewrite upd_upd. reflexivity.
      + exists (loc_r (wrap 32 (sh + 7)) (JB false)). split; [reflexivity|]. cbn [loop eval]. erewrite name_loc by reflexivity. cbn [bind ends]. reflexivity.
    - exists (loc_r sh c). split; [reflexivity|]. cbn [bind ends]. rewrite (upd_id _ _ _ C). reflexivity.
  Qed.
  Lemma read_int_long d k h l bits b L kd : 2 ^ 31 <= Z.of_nat k -> okb b -> kd = BInt \/ kd = BLong -> nth_error h l = Some (bm_cell kd bits) ->
    vcalls lib_program pr (S k) (S d) "read" l [JBuf] (mk h b L) = (let '(e, bits', b') := bm_read kd bits b in ends e JVoid (mk (upd h l (bm_cell kd bits')) b' L)).
  Proof.
    intros Hk Ok K C. set (h0 := upd h l (bm_cell kd 0)). assert (C0 : nth_error h0 l = Some (bm_cell kd 0)) by exact (upd_nth _ _ _ _ C).
    assert (R : List.length (readable b) = (widx b - ridx b)%nat) by (apply readable_length; exact Ok).
    destruct (read_turns kd (vcalls lib_program pr (S k) d) k l K (S (List.length (readable b))) b h0 0 0 JVoid k (S (List.length (readable b)))) as (L' & HL & E); [rewrite R; lia| |lia|exact C0|].
    { destruct Ok as (? & ? & ? & ?). rewrite R. lia. }
    assert (Fin : forall r, (let '(e, bits', b') := r in ends e (None : option jval) (mk (upd h0 l (bm_cell kd bits')) b' L')) = (let '(e, bits', b') := r in ends e None (mk (upd h l (bm_cell kd bits')) b' L'))) by (intros [[? ?] ?]; unfold h0; rewrite upd_upd; reflexivity).
    rewrite Fin in E. clear Fin.
    assert (Rd : bm_read kd bits b = read_loop (bm_shl kd) (bm_width kd) (S (List.length (readable b))) 0 0 b) by (destruct K as [->| ->]; reflexivity). rewrite Rd. clear Rd.
    destruct K as [->| ->]; [enters BInt C|enters BLong C].
    - rewrite all_cons, ex_expr. cbn [eval bind]. unfold jint at 1. rewrite (bits_to stat BInt h l bits C b [("buf"%string, (Ty "ByteBuf" [], JBuf))] (T1 "int") 0 eq_refl). cbn [bind seq_st]. fold h0. rewrite !all_cons, ex_none. unfold set_loc at 1. cbn [seq_st bind s_h s_b s_loc s_stat]. rewrite all_cons, ex_local. cbn [eval bind]. unfold declare. cbn [conv jint bind seq_st]. unfold set_loc at 1. cbn [s_h s_b s_loc s_stat].
      rewrite all_cons, ex_do.
      match goal with |- context [scoped ?s (bind ?x ?y)] => match type of E with ?u = _ => change (scoped s (bind x y)) with (scoped (mk h0 b (loc_r 0 JVoid)) u) end end.
      rewrite E. destruct (read_loop _ _ _ 0 0 b) as [[[e|] bits'] b']; cbn [ends scoped seq_st bind]; [reflexivity|]. unfold leave. cbn [s_loc s_h s_b s_stat]. rewrite HL. cbn [List.length loc_r Nat.sub skipn]. unfold set_loc. rewrite all_nil. reflexivity.
    - rewrite all_cons, ex_expr. cbn [eval bind]. unfold jint at 1. rewrite (bits_to stat BLong h l bits C b [("buf"%string, (Ty "ByteBuf" [], JBuf))] (T1 "int") 0 eq_refl). cbn [bind seq_st]. fold h0. rewrite !all_cons, ex_none. unfold set_loc at 1. cbn [seq_st bind s_h s_b s_loc s_stat]. rewrite all_cons, ex_local. cbn [eval bind]. unfold declare. cbn [conv jint bind seq_st]. unfold set_loc at 1. cbn [s_h s_b s_loc s_stat].
      rewrite all_cons, ex_do.
      match goal with |- context [scoped ?s (bind ?x ?y)] => match type of E with ?u = _ => change (scoped s (bind x y)) with (scoped (mk h0 b (loc_r 0 JVoid)) u) end end.
      rewrite E. destruct (read_loop _ _ _ 0 0 b) as [[[e|] bits'] b']; cbn [ends scoped seq_st bind]; [reflexivity|]. unfold leave. cbn [s_loc s_h s_b s_stat]. rewrite HL. cbn [List.length loc_r Nat.sub skipn]. unfold set_loc. rewrite all_nil. reflexivity.
  Qed.
  Theorem java_bm_read kd d k h l bits b L : 2 ^ 31 <= Z.of_nat k -> okb b -> nth_error h l = Some (bm_cell kd bits) ->
    vcalls lib_program pr (S k) (S d) "read" l [JBuf] (mk h b L) = (let '(e, bits', b') := bm_read kd bits b in ends e JVoid (mk (upd h l (bm_cell kd bits')) b' L)).
  Proof. intros K Ok C. destruct kd; [apply read_byte_short|apply read_byte_short|apply read_int_long|apply read_int_long]; auto. Qed.
End Theorems.
