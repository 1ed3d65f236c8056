(* Running Java: the buffer calls and the methods of BinaryCodec. *)
From Coq Require Import ZArith List Bool String Lia.
From Verif.Model Require Import JavaPrim ByteBuf Utf8 Codec Ast Interp Show Heap.
From Verif.Proofs Require Import BytesFacts Utf8Facts.
From Verif.Java Require Import Lex Syntax Source Sem CodecTrees.
Import ListNotations.
Open Scope Z_scope.
Open Scope list_scope.

Definition width (n : nat) : Prop := n = 1%nat \/ n = 2%nat \/ n = 4%nat \/ n = 8%nat.
Definition fwidth (n : nat) : Prop := n = 4%nat \/ n = 8%nat.
Lemma buf_write n o v s : width n -> buf_call ("write" ++ int_name n o) [v] s = num v s (fun _ z => done s (write_int o n z (s_b s))).
Proof. intros [->|[->|[->| ->]]]; destruct o; reflexivity. Qed.
Lemma buf_write_f n o v s : fwidth n -> buf_call ("write" ++ flt_name n o) [v] s =
  match v with JT _ (HFlt z) => done s (write_int o n z (s_b s)) | JT _ HNull => Exc NPE s | _ => Bad end.
Proof. intros [->| ->]; destruct o; reflexivity. Qed.
Lemma buf_set n o t i v s : width n -> buf_call ("set" ++ int_name n o) [JT t (HInt (Z.of_nat i)); v] s = num v s (fun _ z => done s (set_int o n i z (s_b s))).
Proof.
  assert (N : (Z.of_nat i <? 0) = false) by (apply Z.ltb_ge; lia).
  intros [->|[->|[->| ->]]]; destruct o; cbn -[Z.ltb Z.of_nat Z.to_nat set_int num]; destruct v as [t' [|z|z|u|l]| | | | | | | | | | | | |]; try reflexivity; cbn [num]; rewrite N, Nat2Z.id; reflexivity.
Qed.
Lemma buf_read n o s : width n -> buf_call ("read" ++ int_name n o) [] s = got s (read_bytes n (s_b s)) (fun bs => JT (type_of_width n) (HInt (get_int o bs))).
Proof. intros [->|[->|[->| ->]]]; destruct o; try reflexivity.
  cbn -[read_bytes get_int got]. unfold read_bytes. destruct (Nat.leb _ _); [|reflexivity]. cbn [got]. do 3 f_equal. unfold slice.
  destruct (skipn (ridx (s_b s)) (arr (s_b s))); reflexivity.
Qed.
Lemma buf_read_f n o s : fwidth n -> buf_call ("read" ++ flt_name n o) [] s = got s (read_bytes n (s_b s)) (fun bs => JT (type_of_fwidth n) (HFlt (get_bits o bs))).
Proof. intros [->| ->]; destruct o; reflexivity. Qed.

(* [e] thrown, or the value [v] *)
Definition ends {A} (e : option exn) (v : A) (s : st) : res A := match e with None => Ret v s | Some x => Exc x s end.
Definition is_class (P : program) (stat : list (string * jval)) (c x q : string) : Prop :=
  field_ty P c x = None /\ assoc (c ++ "." ++ x)%string stat = None /\ (exists d, assoc c P = Some d /\ consts d = []) /\ resolve P c x = q.
Lemma name_class P this c x q s : is_class P (s_stat s) c x q -> assoc x (s_loc s) = None ->
  name_val P {| x_this := this; x_class := c |} x s = Ret (JCls q) s.
Proof.
  intros (F & A & (d & D & Cn) & R) L. unfold name_val. cbn [x_class x_this]. rewrite L, F, A, D, Cn, R. cbn [existsb]. destruct this; reflexivity.
Qed.

Ltac ev := cbn [jint jstr jnull exec_all exec eval eval_args bind name_val assoc String.eqb Ascii.eqb Bool.eqb fst snd s_loc s_h s_b s_stat set_loc set_b set_h set_stat num conv is_prim declare x_this x_class binary
   existsb String.append List.app orb andb negb arith is_long is_name is_numeric is_stringy put_assoc hval_of assign lvalue_type cast_z T1 is_char is_float dispatch var_of done got scoped leave List.length].

Lemma name_loc P x0 x t v s : assoc x (s_loc s) = Some (t, v) -> name_val P x0 x s = Ret v s.
Proof. intros E. unfold name_val. now rewrite E. Qed.
(* one statement after the other *)
Definition seq_st (r : res (option jval)) (f : st -> res (option jval)) : res (option jval) :=
  bind r (fun v s => match v with Some _ => Ret v s | None => f s end).
Ltac evs := cbn [jint jstr jnull eval eval_args bind name_val assoc String.eqb Ascii.eqb Bool.eqb fst snd s_loc s_h s_b s_stat set_loc set_b set_h set_stat num conv is_prim declare x_this x_class binary
   existsb String.append List.app orb andb negb arith is_long is_name is_numeric is_stringy put_assoc hval_of assign lvalue_type cast_z T1 is_char is_float dispatch var_of done got seq_st ends field_val];
   unfold set_loc, set_b, set_h, set_stat; cbn [s_loc s_h s_b s_stat].

Lemma loop_go m c b u s s1 s2 s3 w : c s = Ret (JB true) s1 -> b s1 = Ret None s2 -> u s2 = Ret w s3 -> loop (S m) c b u s = loop m c b u s3.
Proof. intros A B C. cbn [loop]. rewrite A. cbn [bind]. rewrite B. cbn [bind]. rewrite C. reflexivity. Qed.
Lemma loop_stop m c b u s s1 : c s = Ret (JB false) s1 -> loop (S m) c b u s = Ret None s1.
Proof. intros A. cbn [loop]. rewrite A. reflexivity. Qed.
Lemma loop_exc m c b u s s1 e s2 : c s = Ret (JB true) s1 -> b s1 = Exc e s2 -> loop (S m) c b u s = Exc e s2.
Proof. intros A B. cbn [loop]. rewrite A. cbn [bind]. rewrite B. reflexivity. Qed.
Lemma wrap_small w z : 0 < w -> - 2 ^ (w - 1) <= z < 2 ^ (w - 1) -> wrap w z = z.
Proof. intros W H. apply wrap_id; [exact W|]. unfold in_signed. now rewrite andb_true_iff, Z.leb_le, Z.ltb_lt. Qed.

Section Equations.
  Variable P : program.
  Variable pr : printers.
  Variable vcall : string -> nat -> list jval -> st -> res jval.
  Variable call : option nat -> string -> string -> list jval -> st -> res jval.
  Variable k : nat.
  Variable x0 : cx.
  Let ex := exec P pr vcall call k x0.
  Let ea := exec_all P pr vcall call k x0.
  Let ei := eval P pr vcall call x0.
  Lemma all_nil s : ea [] s = Ret None s. Proof. reflexivity. Qed.
  Lemma all_cons c l s : ea (c :: l) s = seq_st (ex c s) (ea l). Proof. reflexivity. Qed.
  Lemma ex_local t x e s : ex (SLocal t x (Some e)) s = bind (ei e s) (fun v s' => declare t x v s'). Proof. reflexivity. Qed.
  Lemma ex_expr e s : ex (SExpr e) s = bind (ei e s) (fun _ s' => Ret None s'). Proof. reflexivity. Qed.
  Lemma ex_if e a b s : ex (SIf e a b) s = bind (ei e s) (fun v s' => match v with
    | JB true => scoped s' (ex a s') | JB false => match b with Some d => scoped s' (ex d s') | None => Ret None s' end | _ => Bad end).
  Proof. reflexivity. Qed.
  Lemma ex_while c b s : ex (SWhile c b) s = scoped s (loop k (ei c) (fun s => scoped s (ex b s)) (Ret JVoid) s). Proof. reflexivity. Qed.
  Lemma ex_for t x i c u b s : ex (SFor t x i c u b) s =
    scoped s (bind (ei i s) (fun v s' => bind (declare t x v s') (fun _ s'' => loop k (ei c) (fun s => scoped s (ex b s)) (ei u) s''))).
  Proof. reflexivity. Qed.
  Lemma ex_block ss s : ex (SBlock ss) s = scoped s (ea ss s). Proof. reflexivity. Qed.
  Lemma ex_return e s : ex (SReturn (Some e)) s = bind (ei e s) (fun v s' => Ret (Some v) s'). Proof. reflexivity. Qed.
  Lemma ev_call a m args s : ei (ECall a m args) s =
    bind (ei a s) (fun v s' => bind (eval_args P pr vcall call x0 args s') (fun vs s'' => dispatch P vcall call x0 (var_of a) v m vs s'')).
  Proof. reflexivity. Qed.
  Lemma args_nil s : eval_args P pr vcall call x0 [] s = Ret [] s. Proof. reflexivity. Qed.
  Lemma args_cons a l s : eval_args P pr vcall call x0 (a :: l) s =
    bind (ei a s) (fun v s' => bind (eval_args P pr vcall call x0 l s') (fun vs s'' => Ret (v :: vs) s'')).
  Proof. reflexivity. Qed.
  Lemma ev_field a x s : ei (EField a x) s = bind (ei a s) (fun v s' => field_val P v x s'). Proof. reflexivity. Qed.
End Equations.
Lemma run_eq P pr vcall k this c m args s ps body : find_method P c m (List.length args) = Some (ps, body) ->
  run P pr vcall (S k) this c m args s =
  bind (bind_params ps args s []) (fun ls s1 =>
    match exec_all P pr vcall (run P pr vcall k) k {| x_this := this; x_class := c |} body (set_loc s1 ls) with
    | Ret v s2 => Ret (result v) (set_loc s2 (s_loc s)) | Exc e s2 => Exc e (set_loc s2 (s_loc s)) | Bad => Bad end).
Proof. intros F. cbn [run]. rewrite F. reflexivity. Qed.
Lemma leave_app h b (new L : list (string * (ty * jval))) st0 : leave (List.length L) {| s_h := h; s_b := b; s_loc := new ++ L; s_stat := st0 |} = {| s_h := h; s_b := b; s_loc := L; s_stat := st0 |}.
Proof. unfold leave, set_loc. cbn [s_loc s_h s_b s_stat]. rewrite app_length. replace (List.length new + List.length L - List.length L)%nat with (List.length new) by lia. now rewrite skipn_app, skipn_all, Nat.sub_diag. Qed.
Lemma leave_same h b (L L' : list (string * (ty * jval))) st0 : List.length L' = List.length L -> leave (List.length L) {| s_h := h; s_b := b; s_loc := L'; s_stat := st0 |} = {| s_h := h; s_b := b; s_loc := L'; s_stat := st0 |}.
Proof. intros E. unfold leave, set_loc. cbn [s_loc s_h s_b s_stat]. now rewrite E, Nat.sub_diag. Qed.

Lemma leave_b h b x (L L' : list (string * (ty * jval))) st0 : List.length L' = List.length L -> leave (List.length L) {| s_h := h; s_b := b; s_loc := x :: L'; s_stat := st0 |} = {| s_h := h; s_b := b; s_loc := L'; s_stat := st0 |}.
Proof. intros <-. apply (leave_app h b [x]). Qed.
Lemma buf_prefix bs n t t' s : n <= Z.of_nat (List.length bs) -> buf_call "writeBytes" [JBytes bs; JT t (HInt 0); JT t' (HInt n)] s = done s (write_prefix bs n (s_b s)).
Proof. intros H. apply Z.leb_le in H. cbn -[Z.leb Z.of_nat write_prefix]. now rewrite H. Qed.
Ltac unsc := cbn [scoped s_loc bind seq_st ends]; rewrite ?leave_same by reflexivity; cbn [scoped s_loc bind seq_st ends].

Section Codec.
  Variable P : program.
  Variable pr : printers.
  Variable vcall : string -> nat -> list jval -> st -> res jval.
  Variable c : string.
  Variable stat : list (string * jval).
  Hypothesis HC : forall m n, (2 <= n)%nat -> find_method P c m n = method_in (members class_BinaryCodec) m n.
  Hypothesis Hutil : is_class P stat c "StringUtil" "StringUtil".
  Hypothesis Hmath : is_class P stat c "Math" "Math".
  Hypothesis Lutil : assoc "StringUtil"%string P = None.
  Hypothesis Lmath : assoc "Math"%string P = None.
  Hypothesis Hutf : is_class P stat c "StandardCharsets" "StandardCharsets".

  Lemma loop_pad call k this h st0 tb ch : forall n b m, (n < m)%nat -> Z.of_nat n < 2 ^ 31 ->
    let L i := [("padChar", (Ty "char" [], JT (Ty "char" []) (HInt ch))); ("len", (Ty "int" [], JT (Ty "int" []) (HInt i))); ("byteBuf", (tb, JBuf))]%string in
    let x0 := {| x_this := this; x_class := c |} in
    exists i, loop m (eval P pr vcall call x0 (EBin OGt (EName "len") (EInt false 0)))
         (fun s => scoped s (exec P pr vcall call k x0 (SBlock [SExpr (ECall (EName "byteBuf") "writeByte" [EName "padChar"]); SExpr (EDec (EName "len"))]) s))
         (Ret JVoid) {| s_h := h; s_b := b; s_loc := L (Z.of_nat n); s_stat := st0 |}
    = (let '(e, b') := pad_loop n ch b in ends e None {| s_h := h; s_b := b'; s_loc := L i; s_stat := st0 |}).
  Proof.
    induction n as [|n IH]; intros b m Hm Hn L x0; (destruct m as [|m]; [lia|]).
    - exists 0. eapply loop_stop. subst L x0. ev. reflexivity.
    - assert (C : eval P pr vcall call x0 (EBin OGt (EName "len") (EInt false 0)) {| s_h := h; s_b := b; s_loc := L (Z.of_nat (S n)); s_stat := st0 |} =
                  Ret (JB true) {| s_h := h; s_b := b; s_loc := L (Z.of_nat (S n)); s_stat := st0 |}) by (subst L x0; ev; reflexivity).
      cbn [pad_loop]. destruct (write_int BE 1 ch b) as [e b1] eqn:W. destruct e as [e|].
      + eexists. eapply loop_exc; [exact C|]. subst L x0. ev. change (buf_call "writeByte") with (buf_call ("write" ++ int_name 1 BE)). rewrite buf_write by (left; reflexivity).
        cbn [num done s_b]. rewrite W. reflexivity.
      + destruct (IH b1 m ltac:(lia) ltac:(lia)) as (i & IH'). exists i. etransitivity; [|exact IH']. clear IH IH'. eapply loop_go; [exact C| |reflexivity]. subst L x0. ev.
        change (buf_call "writeByte") with (buf_call ("write" ++ int_name 1 BE)). rewrite buf_write by (left; reflexivity).
        cbn [num done s_b]. rewrite W. ev. replace (wrap 32 (Z.of_nat (S n) - 1)) with (Z.of_nat n) by (rewrite wrap_small; lia). reflexivity.
  Qed.


  Definition back (s : st) (r : option exn * bytebuf) : res jval := ends (fst r) JVoid (set_b s (snd r)).
  Ltac meth m n := let r := eval vm_compute in (method_in (members class_BinaryCodec) m n) in
    match r with Some (?ps, ?body) => erewrite (run_eq _ _ _ _ _ _ m _ _ ps body) by (rewrite HC by (cbn; lia); reflexivity) end.
  Lemma run_pad k this t t' len ch s : Z.max 0 len < Z.of_nat k -> len < 2 ^ 31 ->
    run P pr vcall (S k) this c "padChar" [JBuf; JT t (HInt len); JT t' (HInt ch)] s = back s (pad_char len ch (s_b s)).
  Proof.
    intros Hk Hl. meth "padChar"%string 3%nat. cbn [bind_params conv bind is_prim]. destruct s as [h b L st0]. unfold set_loc, set_b, back. cbn [s_loc s_b s_h s_stat].
    rewrite all_cons, ex_while. unfold pad_char. destruct (Z_le_gt_dec 0 len) as [G|G].
    - destruct (loop_pad (run P pr vcall k) k this h st0 (Ty "ByteBuf" []) ch (Z.to_nat len) b k ltac:(lia) ltac:(lia)) as (i & E). cbn zeta in E. rewrite Z2Nat.id in E by lia.
      rewrite E. destruct (pad_loop (Z.to_nat len) ch b) as [[e|] b']; cbn [fst snd ends scoped bind seq_st]; cbn [s_loc]; rewrite leave_same by reflexivity; reflexivity.
    - destruct k as [|k]; [lia|]. erewrite loop_stop.
      2: { ev. replace (0 <? len) with false by (symmetry; apply Z.ltb_ge; lia). reflexivity. }
      replace (Z.to_nat len) with O by lia. cbn [pad_loop fst snd ends scoped bind seq_st]. cbn [s_loc]. rewrite leave_same by reflexivity. reflexivity.
  Qed.

  (* trimByChar *)
  Definition trim_locs (u : list Z) ch lft e i : list (string * (ty * jval)) :=
    [("end", (Ty "int" [], jint e)); ("start", (Ty "int" [], jint i)); ("len", (Ty "int" [], jint (Z.of_nat (List.length u))));
     ("padLeft", (Ty "boolean" [], JB lft)); ("ch", (Ty "char" [], JT (Ty "char" []) (HInt ch))); ("s", (Ty "String" [], JT (Ty "String" []) (HStr u)))]%string.
  Lemma in_range (i n : nat) : (i < n)%nat -> (0 <=? Z.of_nat i) && (Z.of_nat i <? Z.of_nat n) = true.
  Proof. intros. rewrite andb_true_iff, Z.leb_le, Z.ltb_lt. lia. Qed.
  Lemma loop_start call k this h b st0 u ch lft e : Z.of_nat (List.length u) < 2 ^ 31 -> forall fuel i m, (List.length u <= fuel + i)%nat -> (i <= List.length u)%nat -> (fuel < m)%nat ->
    let x0 := {| x_this := this; x_class := c |} in
    let S i := {| s_h := h; s_b := b; s_loc := trim_locs u ch lft e (Z.of_nat i); s_stat := st0 |} in
    loop m (eval P pr vcall call x0 (EBin OAnd (EBin OLt (EName "start") (EName "len")) (EBin OEq (ECall (EName "s") "charAt" [EName "start"]) (EName "ch"))))
         (fun s => scoped s (exec P pr vcall call k x0 (SBlock [SExpr (EInc (EName "start"))]) s)) (Ret JVoid) (S i) = Ret None (S (start_loop fuel u ch i)).
  Proof.
    intros Hu. induction fuel as [|fuel IH]; intros i m Hf Hi Hm x0 S; (destruct m as [|m]; [lia|]); cbn [start_loop].
    - apply loop_stop. subst S x0. unfold trim_locs. ev. unfold jint. ev. replace (Z.of_nat i <? Z.of_nat (List.length u)) with false by (symmetry; apply Z.ltb_ge; lia). reflexivity.
    - destruct (Nat.ltb_spec i (List.length u)) as [G|G]; cbn [andb].
      + assert (C : eval P pr vcall call x0 (EBin OAnd (EBin OLt (EName "start") (EName "len")) (EBin OEq (ECall (EName "s") "charAt" [EName "start"]) (EName "ch"))) (S i)
                = Ret (JB (nth i u 0 =? ch)) (S i)).
        { subst S x0. unfold trim_locs. ev. unfold jint. ev. replace (Z.of_nat i <? Z.of_nat (List.length u)) with true by (symmetry; apply Z.ltb_lt; lia).
          unfold str_call. cbn [String.eqb Ascii.eqb Bool.eqb]. rewrite in_range by exact G. ev. rewrite Nat2Z.id. reflexivity. }
        destruct (nth i u 0 =? ch) eqn:Q.
        * refine (eq_trans _ (IH (Datatypes.S i) m _ _ _)); [|lia..]. eapply loop_go; [exact C| |reflexivity]. subst S x0. unfold trim_locs. ev. unfold jint. ev.
          replace (wrap 32 (Z.of_nat i + 1)) with (Z.of_nat (Datatypes.S i)) by (rewrite wrap_small; lia). reflexivity.
        * apply loop_stop. exact C.
      + apply loop_stop. subst S x0. unfold trim_locs. ev. unfold jint. ev. replace (Z.of_nat i <? Z.of_nat (List.length u)) with false by (symmetry; apply Z.ltb_ge; lia). reflexivity.
  Qed.
  Lemma loop_end call k this h b st0 u ch lft i : Z.of_nat (List.length u) < 2 ^ 31 -> forall e m, (e <= List.length u)%nat -> (e < m)%nat ->
    let x0 := {| x_this := this; x_class := c |} in
    let S e := {| s_h := h; s_b := b; s_loc := trim_locs u ch lft (Z.of_nat e) i; s_stat := st0 |} in
    loop m (eval P pr vcall call x0 (EBin OAnd (EBin OGt (EName "end") (EInt false 0)) (EBin OEq (ECall (EName "s") "charAt" [EBin OSub (EName "end") (EInt false 1)]) (EName "ch"))))
         (fun s => scoped s (exec P pr vcall call k x0 (SBlock [SExpr (EDec (EName "end"))]) s)) (Ret JVoid) (S e) = Ret None (S (end_loop u ch e)).
  Proof.
    intros Hu. induction e as [|e IH]; intros m He Hm x0 S; (destruct m as [|m]; [lia|]); cbn [end_loop].
    - apply loop_stop. subst S x0. unfold trim_locs. ev. unfold jint. ev. reflexivity.
    - assert (W : wrap 32 (Z.of_nat (Datatypes.S e) - 1) = Z.of_nat e) by (rewrite wrap_small; lia).
      assert (C : eval P pr vcall call x0 (EBin OAnd (EBin OGt (EName "end") (EInt false 0)) (EBin OEq (ECall (EName "s") "charAt" [EBin OSub (EName "end") (EInt false 1)]) (EName "ch"))) (S (Datatypes.S e))
                = Ret (JB (nth e u 0 =? ch)) (S (Datatypes.S e))).
      { subst S x0. unfold trim_locs. ev. unfold jint. ev. replace (0 <? Z.of_nat (Datatypes.S e)) with true by (symmetry; apply Z.ltb_lt; lia). ev. rewrite W.
        unfold str_call. cbn [String.eqb Ascii.eqb Bool.eqb]. rewrite in_range by lia. ev. rewrite Nat2Z.id. reflexivity. }
      destruct (nth e u 0 =? ch) eqn:Q.
      + refine (eq_trans _ (IH m _ _)); [|lia..]. eapply loop_go; [exact C| |reflexivity]. subst S x0. unfold trim_locs. ev. unfold jint. ev. rewrite W. reflexivity.
      + apply loop_stop. exact C.
  Qed.
  Lemma start_le fuel u ch i : (i <= List.length u)%nat -> (start_loop fuel u ch i <= List.length u)%nat.
  Proof. revert i. induction fuel as [|f IH]; intros i H; cbn [start_loop]; auto. destruct (Nat.ltb_spec i (List.length u)); cbn [andb]; auto. destruct (_ =? _); auto. Qed.
  Lemma end_le u ch e : (end_loop u ch e <= e)%nat.
  Proof. induction e as [|e IH]; cbn [end_loop]; auto. destruct (_ =? _); lia. Qed.
  Lemma run_trim k this t t' u ch lft s : Z.of_nat (List.length u) < 2 ^ 31 -> (List.length u < k)%nat ->
    run P pr vcall (S k) this c "trimByChar" [JT t (HStr u); JT t' (HInt ch); JB lft] s = Ret (jstr (trim_by_char u ch lft)) s.
  Proof.
    intros Hu Hk. meth "trimByChar"%string 3%nat. cbn [bind_params conv bind is_prim]. destruct s as [h b L st0]. unfold set_loc. cbn [s_loc s_b s_h s_stat].
    rewrite all_cons, ex_local. evs. unfold str_call at 1. evs.
    rewrite all_cons, ex_local. evs. rewrite all_cons, ex_local. evs. rewrite all_cons, ex_if. evs. unfold trim_by_char. destruct lft.
    - rewrite ex_block, all_cons, ex_while. change 0 with (Z.of_nat 0) at 3.
      match goal with |- context [loop _ _ _ _ {| s_h := _; s_b := _; s_loc := ?X; s_stat := _ |}] => change X with (trim_locs u ch true (Z.of_nat (List.length u)) (Z.of_nat 0)) end.
      rewrite (loop_start (run P pr vcall k) k this h b st0 u ch true) with (fuel := List.length u) by (cbn; lia).
      unsc. rewrite all_nil. unsc. rewrite all_cons, ex_return. unfold trim_locs. evs. unfold str_call. evs.
      pose proof (start_le (List.length u) u ch 0 ltac:(lia)) as A.
      replace (0 <=? Z.of_nat _) with true by (symmetry; apply Z.leb_le; lia). replace (Z.of_nat (start_loop _ _ _ _) <=? _) with true by (symmetry; apply Z.leb_le; lia).
      rewrite Z.leb_refl, !Nat2Z.id. reflexivity.
    - rewrite ex_block, all_cons, ex_while.
      match goal with |- context [loop _ _ _ _ {| s_h := _; s_b := _; s_loc := ?X; s_stat := _ |}] => change X with (trim_locs u ch false (Z.of_nat (List.length u)) (Z.of_nat 0)) end.
      rewrite (loop_end (run P pr vcall k) k this h b st0 u ch false) by (cbn; lia).
      unsc. rewrite all_nil. unsc. rewrite all_cons, ex_return. unfold trim_locs. evs. unfold str_call. evs.
      pose proof (end_le u ch (List.length u)) as A. change (Z.of_nat 0) with 0.
      replace (0 <=? 0) with true by reflexivity. replace (0 <=? Z.of_nat (end_loop _ _ _)) with true by (symmetry; apply Z.leb_le; lia).
      replace (Z.of_nat (end_loop _ _ _) <=? _) with true by (symmetry; apply Z.leb_le; lia). rewrite Nat2Z.id. reflexivity.
  Qed.

  Lemma min_len (bs : list Z) len : (Z.min (Z.of_nat (List.length bs)) len <=? Z.of_nat (List.length bs)) = true.
  Proof. apply Z.leb_le. lia. Qed.
  Lemma class_not (s : st) x : s_stat s = stat -> is_class P stat c x x -> is_class P (s_stat s) c x x. Proof. now intros ->. Qed.
  Definition w5_locs (v : option (list Z)) len ch lft W : list (string * (ty * jval)) :=
    [("writedLen", (Ty "int" [], jint W)); ("padLeft", (Ty "boolean" [], JB lft)); ("padChar", (Ty "char" [], JT (Ty "char" []) (HInt ch))); ("len", (Ty "int" [], jint len));
     ("value", (Ty "String" [], JT (Ty "String" []) (match v with Some u => HStr u | None => HNull end))); ("byteBuf", (Ty "ByteBuf" [], JBuf))]%string.
  Lemma pad_if k this h b v len ch (lft q : bool) W more e : Z.max 0 len < Z.of_nat k -> 0 <= len < 2 ^ 31 -> 0 <= W <= len ->
    (forall s, s_loc s = more ++ w5_locs v len ch lft W -> eval P pr vcall (run P pr vcall (S k)) {| x_this := this; x_class := c |} e s = Ret (JB q) s) ->
    (more = [] \/ exists bs, more = [("bytes", (TyArr (Ty "byte" []), JBytes bs))]%string) ->
    let s b := {| s_h := h; s_b := b; s_loc := more ++ w5_locs v len ch lft W; s_stat := stat |} in
    exec P pr vcall (run P pr vcall (S k)) (S k) {| x_this := this; x_class := c |}
      (SIf (EBin OAnd e (EBin OLt (EName "writedLen") (EName "len"))) (SBlock [SExpr (ECallU "padChar" [EName "byteBuf"; EBin OSub (EName "len") (EName "writedLen"); EName "padChar"])]) None) (s b)
    = let '(x, b') := if q && (W <? len) then pad_char (len - W) ch b else (None, b) in ends x None (s b').
  Proof.
    intros Hk Hl HW He Hm s. rewrite ex_if. cbn [eval bind]. fold (eval P pr vcall (run P pr vcall (S k)) {| x_this := this; x_class := c |}). rewrite He by reflexivity.
    destruct q; cbn [bind andb]; [|reflexivity].
    unfold s. unfold w5_locs. unfold name_val.
    destruct Hm as [->|(bs & ->)]; evs; (destruct (W <? len) eqn:Q; [|reflexivity]); rewrite ex_block, all_cons, ex_expr; evs; rewrite run_pad by (rewrite wrap_small; lia); rewrite wrap_small by lia; cbn [s_b];
      unfold back; (destruct (pad_char _ _ _) as [[x|] b']); cbn [fst snd ends bind]; unfold set_b; cbn [s_h s_loc s_stat]; unsc; rewrite ?all_nil; unsc; rewrite ?leave_same by reflexivity; reflexivity.
  Qed.
  Ltac dpad := match goal with |- context [if ?q then pad_char ?l ?x ?y else ?e] => destruct (if q then pad_char l x y else e) as [[?|] ?] end.
  Lemma run_write5 k this t t' t2 v len ch lft s : s_stat s = stat -> Z.max 0 len < Z.of_nat k -> 0 <= len < 2 ^ 31 ->
    run P pr vcall (S (S k)) this c "writeFixedString" [JBuf; JT t (match v with Some u => HStr u | None => HNull end); JT t' (HInt len); JT t2 (HInt ch); JB lft] s = back s (write_fixed v len ch lft (s_b s)).
  Proof.
    intros Hs Hk Hl. meth "writeFixedString"%string 5%nat.
    assert (B : forall s, bind_params [(Ty "ByteBuf" [], "byteBuf"); (Ty "String" [], "value"); (Ty "int" [], "len"); (Ty "char" [], "padChar"); (Ty "boolean" [], "padLeft")]%string
      [JBuf; JT t (match v with Some u => HStr u | None => HNull end); JT t' (HInt len); JT t2 (HInt ch); JB lft] s [] =
      Ret (tl (w5_locs v len ch lft 0)) s) by (intros; destruct v; reflexivity).
    rewrite B. clear B. cbn [bind]. destruct s as [h b L st0]. cbn [s_stat] in Hs. subst st0. unfold set_loc. cbn [s_loc s_b s_h s_stat].
    rewrite all_cons, ex_local. cbn [eval jint bind declare conv T1]. unfold declare, set_loc. cbn [conv s_loc s_h s_b s_stat seq_st bind].
    match goal with |- context [exec_all _ _ _ _ _ _ _ {| s_h := h; s_b := b; s_loc := ?X; s_stat := stat |}] => change X with (w5_locs v len ch lft 0) end.
    assert (Tail : forall b W, 0 <= W <= len -> exec_all P pr vcall (run P pr vcall (S k)) (S k) {| x_this := this; x_class := c |}
      [SIf (EBin OAnd (ENot (EName "padLeft")) (EBin OLt (EName "writedLen") (EName "len"))) (SBlock [SExpr (ECallU "padChar" [EName "byteBuf"; EBin OSub (EName "len") (EName "writedLen"); EName "padChar"])]) None]
      {| s_h := h; s_b := b; s_loc := w5_locs v len ch lft W; s_stat := stat |} =
      let '(x, b') := if negb lft && (W <? len) then pad_char (len - W) ch b else (None, b) in ends x None {| s_h := h; s_b := b'; s_loc := w5_locs v len ch lft W; s_stat := stat |}).
    { intros b0 W HW. rewrite all_cons. pose proof (pad_if k this h b0 v len ch lft (negb lft) W [] (ENot (EName "padLeft")) Hk Hl HW) as A.
      cbn [List.app] in A. rewrite A; [|intros s E; cbn [eval]; unfold name_val; rewrite E; reflexivity|now left].
      dpad; reflexivity. }
    assert (Cond : eval P pr vcall (run P pr vcall (S k)) {| x_this := this; x_class := c |} (ENot (ECall (EName "StringUtil") "isNullOrEmpty" [EName "value"]))
      {| s_h := h; s_b := b; s_loc := w5_locs v len ch lft 0; s_stat := stat |} =
      Ret (JB (match v with Some (_ :: _) => true | _ => false end)) {| s_h := h; s_b := b; s_loc := w5_locs v len ch lft 0; s_stat := stat |}).
    { cbn [eval]. rewrite name_class with (q := "StringUtil"%string) by (assumption || reflexivity). unfold w5_locs. evs. rewrite Lutil. destruct v as [[|z u]|]; reflexivity. }
    rewrite all_cons, ex_if, Cond. cbn [bind]. clear Cond.
    unfold back, write_fixed. destruct v as [[|z u]|].
    - cbn [seq_st bind]. rewrite Tail by lia. dpad; reflexivity.
    - rewrite ex_block, all_cons, ex_local. cbn [eval]. unfold name_val at 1. cbn [s_loc w5_locs assoc String.eqb Ascii.eqb Bool.eqb bind]. rewrite name_class with (q := "StandardCharsets"%string) by (assumption || reflexivity).
      cbn [bind field_val String.eqb Ascii.eqb Bool.eqb andb dispatch]. unfold str_call. cbn [String.eqb Ascii.eqb Bool.eqb bind]. unfold declare. cbn [conv s_h s_b s_loc s_stat seq_st bind]. unfold set_loc. cbn [s_h s_b s_loc s_stat].
      set (bytes := utf8_encode (z :: u)).
      rewrite all_cons, ex_expr. cbn [eval]. rewrite name_class with (q := "Math"%string) by (assumption || reflexivity). unfold w5_locs. evs. rewrite Lmath. unfold lib_call. evs. 
      set (W := Z.min (Z.of_nat (List.length bytes)) len). assert (HW : 0 <= W <= len) by lia.
      match goal with |- context [exec_all _ _ _ _ _ _ _ {| s_h := h; s_b := b; s_loc := ?X; s_stat := stat |}] =>
        change X with ([("bytes", (TyArr (Ty "byte" []), JBytes bytes))]%string ++ w5_locs (Some (z :: u)) len ch lft W) end.
      rewrite all_cons. pose proof (pad_if k this h b (Some (z :: u)) len ch lft lft W [("bytes", (TyArr (Ty "byte" []), JBytes bytes))]%string (EName "padLeft") Hk Hl HW) as A. cbn zeta in A.
      rewrite A; [|intros s E; cbn [eval]; unfold name_val; rewrite E; reflexivity|right; eexists; reflexivity]. clear A.
      dpad.
      { reflexivity. }
      cbn [ends seq_st bind]. rewrite all_cons, ex_expr. unfold w5_locs. evs. unfold jint. rewrite buf_prefix by (unfold W; lia). evs.
      destruct (write_prefix bytes W b0) as [[x|] b1]; [reflexivity|]. cbn [done]. unfold set_b. cbn [bind s_h s_b s_loc s_stat seq_st]. rewrite all_nil. cbn [scoped]. rewrite leave_b by reflexivity. rewrite leave_same by reflexivity.
      cbn [seq_st bind].
      match goal with |- context [exec_all _ _ _ _ _ _ _ {| s_h := h; s_b := _; s_loc := ?X; s_stat := stat |}] => change X with (w5_locs (Some (z :: u)) len ch lft W) end.
      rewrite Tail by exact HW. dpad; reflexivity.
    - cbn [seq_st bind]. rewrite Tail by lia. dpad; reflexivity.
  Qed.
  Lemma run_write3 k this t t' v len s : s_stat s = stat -> Z.max 0 len < Z.of_nat k -> 0 <= len < 2 ^ 31 ->
    run P pr vcall (S (S (S k))) this c "writeFixedString" [JBuf; JT t (match v with Some u => HStr u | None => HNull end); JT t' (HInt len)] s = back s (write_fixed_default v len (s_b s)).
  Proof.
    intros Hs Hk Hl. meth "writeFixedString"%string 3%nat.
    assert (B : forall s, bind_params [(Ty "ByteBuf" [], "byteBuf"); (Ty "String" [], "value"); (Ty "int" [], "len")]%string [JBuf; JT t (match v with Some u => HStr u | None => HNull end); JT t' (HInt len)] s [] =
      Ret (skipn 3 (w5_locs v len 32 false 0)) s) by (intros; destruct v; reflexivity).
    rewrite B. clear B. cbn [bind skipn w5_locs]. destruct s as [h b L st0]. cbn [s_stat] in Hs. subst st0. unfold set_loc. cbn [s_loc s_b s_h s_stat].
    rewrite all_cons, ex_expr. evs. unfold jint. rewrite run_write5 by (auto || lia). unfold write_fixed_default, back. cbn [s_b]. destruct (write_fixed _ _ _ _ _) as [[x|] b']; reflexivity.
  Qed.

  Definition backs (s : st) (r : (exn + list Z) * bytebuf) : res jval := match r with (inr u, b) => Ret (jstr u) (set_b s b) | (inl e, b) => Exc e (set_b s b) end.
  Lemma run_read4 k this t t' len ch lft s : s_stat s = stat -> Z.max 0 len < Z.of_nat k -> 0 <= len < 2 ^ 31 ->
    run P pr vcall (S (S k)) this c "readFixedString" [JBuf; JT t (HInt len); JT t' (HInt ch); JB lft] s = backs s (read_fixed len ch lft (s_b s)).
  Proof.
    intros Hs Hk Hl. meth "readFixedString"%string 4%nat. cbn [bind_params conv bind is_prim]. destruct s as [h b L st0]. cbn [s_stat] in Hs. subst st0. unfold set_loc. cbn [s_loc s_b s_h s_stat].
    rewrite all_cons, ex_local. cbn [eval]. erewrite name_loc by reflexivity. cbn [bind]. erewrite name_loc by reflexivity. cbn [bind]. rewrite name_class with (q := "StandardCharsets"%string) by (assumption || reflexivity). evs.
    unfold buf_call. cbn [strip String.eqb Ascii.eqb Bool.eqb]. evs. unfold read_fixed. destruct (read_chars len b) as [[e|bs] b'] eqn:R; [reflexivity|].
    unfold jint. evs. unfold str_call. evs. assert (Lbs : (List.length bs <= Z.to_nat len)%nat).
    { revert R. unfold read_chars. destruct (len =? 0); [intros R; injection R as <- _; cbn; lia|]. destruct (_ || _); [discriminate|]. intros R; injection R as <- _.
      unfold slice. rewrite firstn_length. lia. }
    pose proof (decode_length bs) as D.
    rewrite all_cons, ex_if. destruct lft; evs; rewrite ex_block, all_cons, ex_return; evs; rewrite run_trim by lia; reflexivity.
  Qed.
  Lemma run_read2 k this t len s : s_stat s = stat -> Z.max 0 len < Z.of_nat k -> 0 <= len < 2 ^ 31 ->
    run P pr vcall (S (S (S k))) this c "readFixedString" [JBuf; JT t (HInt len)] s = backs s (read_fixed_default len (s_b s)).
  Proof.
    intros Hs Hk Hl. meth "readFixedString"%string 2%nat. cbn [bind_params conv bind is_prim]. destruct s as [h b L st0]. cbn [s_stat] in Hs. subst st0. unfold set_loc. cbn [s_loc s_b s_h s_stat].
    rewrite all_cons, ex_return. evs. rewrite run_read4 by (auto || lia). unfold read_fixed_default, backs. cbn [s_b]. destruct (read_fixed _ _ _ _) as [[x|x] b']; reflexivity.
  Qed.
End Codec.
