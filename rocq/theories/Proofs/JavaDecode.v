(* Running the Java of decode: it does what hdecode says. *)
From Coq Require Import ZArith List Bool String Lia.
From Verif.Model Require Import JavaPrim ByteBuf Utf8 Codec Ast Interp Show Heap.
From Verif.Spec Require Import Bytes Wire Sharing JavaState.
From Verif.Proofs Require Import BytesFacts DecodeFacts HeapFacts HeapOwn HeapEq HeapFrame HeapTypes HeapEncTypes HeapCycle DecodeInv JavaSem JavaEncode.
From Verif.Java Require Import Lex Syntax Source Sem CodecTrees.
Import ListNotations.
Open Scope Z_scope.
Open Scope list_scope.

(* ---------- what has to be checked of a class ---------- *)
Definition classes_named (cd : class_def) : list string := flat_map (fun s => match s with DCreate f _ => [factory_name f] | _ => [] end) (c_dec cd).
(* a local that hides nothing *)
Definition fresh_local (R : list string) (x : string) : bool := negb (mem x ("byteBuf" :: "i" :: reserved ++ R)%string).
Definition known (P : program) (E : env) (c c' : string) : bool := String.eqb (resolve P c (simple c')) c' && match find_class E c' with Some _ => true | None => false end.
Definition length_width (n : nat) : bool := existsb (Nat.eqb n) [1; 2; 4]%nat.
Definition jfine_delem (P : program) (E : env) (R : list string) (c f : string) (y : delem) : bool :=
  match y with
  | YInt n _ => widthb n | YFlt n _ => fwidthb n | YFix len _ _ => lenb len
  | YDyn n _ => widthb n && fresh_local R (f ++ "Len")
  | YObj c' => fresh_local R (f ++ "_") && known P E c c'
  end.
Definition jfine_dstmt (P : program) (E : env) (R : list string) (c : string) (F : list (string * ftype)) (s : dstmt) : bool :=
  match s with
  | DRead n _ _ => widthb n
  | DReadF n _ _ => fwidthb n
  | DFix _ len _ _ => lenb len
  | DDyn f n _ => widthb n && fresh_local R (f ++ "Len")
  | DList f n _ y => length_width n && fresh_local R (f ++ "Size") && jfine_delem P E R c f y
  | DNewIfNull f c' => known P E c c'
  | DObj f => match assoc f F with Some t => is_obj t | None => false end
  | DCreate f k => mem (factory_name f) R && match assoc k F with Some (TByte | TShort | TInt | TLong | TStr) => true | _ => false end
  end.
Definition create_body (mp k : string) : list stmt := match j_create [] "" (T0 "") mp k with MMethod _ _ _ _ _ _ (Some b) => b | _ => [] end.
(* the map of the factory holds the constructors the model says it holds *)
Definition holds (E : env) (P : program) (stat : list (string * jval)) (c q mp : string) : Prop :=
  exists m, assoc (q ++ "." ++ mp)%string stat = Some (JMap m) /\ m MNull = None /\ (forall kk, m (MKey kk) = option_map JSup (factory E c kk)).
Definition creates (E : env) (P : program) (stat : list (string * jval)) (c : string) (own : bool) (f k : string) : Prop :=
  let mp := (f ++ "Map")%string in
  (mp <> k /\ mp <> "supplier"%string /\ k <> "supplier"%string) /\ (forall kk c', factory E c kk = Some c' -> find_class E c' <> None) /\
  if own then field_ty P c mp = None /\ holds E P stat c c mp /\ exists kt, is_prim kt = false /\ find_method P c ("create" ++ capital f) 1 = Some ([(kt, k)], create_body mp k)
  else exists q d kt, is_class P stat c (factory_name f) q /\ assoc q P = Some d /\ find_method P q "getInstance" 0 = Some ([], [SReturn (Some (EName "INSTANCE"))])
       /\ assoc (q ++ ".INSTANCE")%string stat = None /\ existsb (fun e => String.eqb "INSTANCE" (fst e)) (consts d) = true /\ holds E P stat c q mp
       /\ is_prim kt = false /\ find_method P q "create" 1 = Some ([(kt, k)], create_body mp k).
(* new C() makes an object with the fields the model gives it *)
Definition makes (E : env) (P : program) : Prop :=
  forall c cd, find_class E c = Some cd -> exists d, assoc c P = Some d /\ supers d = [T0 "BinaryCodec"] /\ map (fun f => (fst f, default_of (snd f))) (instance_fields (members d)) = map (fun ft => (fst ft, hdefault (snd ft))) (c_fields cd).


Lemma length_width_ok n : length_width n = true -> width n.
Proof. unfold length_width, width. cbn [existsb]. rewrite !orb_true_iff, !Nat.eqb_eq. intuition discriminate. Qed.

Section Statements.
  Variable E : env.
  Let C := classes E.
  Variable P : program.
  Variable pr : printers.
  Variable vcall : string -> nat -> list jval -> st -> res jval.
  Variable k : nat.
  Variable stat : list (string * jval).
  Variable dec : heap -> hval -> bytebuf -> option exn * heap * bytebuf.
  Hypothesis Hk : 2 ^ 31 <= Z.of_nat k.
  Hypothesis BE_ : base_env E P stat.
  Hypothesis MK : makes E P.
  Notation mk := (mk stat).
  Hypothesis Hv : forall h l b L, heap_ok C h -> bk b -> (exists c fs, nth_error h l = Some (CObj c fs)) ->
    vcall "decode" l [JBuf] (mk h b L) = (let '(e, h', b') := dec h (HRef l) b in ends e JVoid (mk h' b' L)).
  Hypothesis Hnull : forall h b, dec h HNull b = (Some NPE, h, b).
  Hypothesis TY : typing E dec.
  Hypothesis FR : framed dec.
  Hypothesis flat_classes : forall c cd, find_class E c = Some cd -> forallb (fun ft => flat_type (snd ft)) (c_fields cd) = true.
  Hypothesis nodup_classes : forall c cd, find_class E c = Some cd -> NoDup (map fst (c_fields cd)).
  Hypothesis fine_decs : forall c cd, find_class E c = Some cd -> forallb (fine_dstmt (c_fields cd)) (c_dec cd) = true.

  Variable c : string.
  Variable cd : class_def.
  Variable this : nat.
  Variable own : bool.
  Hypothesis CE : class_env P stat c cd.
  Hypothesis Hc : assoc c C = Some cd.
  Let x0 := {| x_this := Some this; x_class := c |}.
  Let call := run P pr vcall (S (S (S k))).
  Let ev_ := eval P pr vcall call x0.
  Let ex := exec P pr vcall call (S (S (S k))) x0.
  Let exa := exec_all P pr vcall call (S (S (S k))) x0.
  Let R := classes_named cd.
  Definition dlocs (L : locals) : Prop := base_locs L /\ forall x, In x R -> assoc x L = None.
  Lemma mem_in_false x l : mem x l = false -> ~ In x l.
  Proof. intros H I0. apply mem_in in I0. congruence. Qed.
  Lemma fresh_inv x : fresh_local R x = true -> x <> "byteBuf"%string /\ x <> "i"%string /\ ~ In x reserved /\ ~ In x R.
  Proof. unfold fresh_local. intros H. apply negb_true_iff in H. apply mem_in_false in H. cbn [In] in H. rewrite in_app_iff in H. intuition. Qed.
  Lemma dlocs_cons x v L : dlocs L -> x <> "byteBuf"%string -> ~ In x reserved -> ~ In x R -> dlocs ((x, v) :: L).
  Proof.
    intros [A B] N1 N2 N3. split; [apply base_cons; [exact A|intros [H|H]; [congruence|contradiction]]|]. intros y Hy. cbn [assoc]. destruct (String.eqb_spec y x) as [->|D]; [contradiction|auto].
  Qed.
  Lemma dlocs_i i L : dlocs L -> ~ In "i"%string R -> dlocs (i_loc i :: L).
  Proof. intros D N. apply dlocs_cons; auto; cbn; intuition discriminate. Qed.

  Lemma ev_read n o h b L : base_locs L -> width n -> ev_ (ECall buf ("read" ++ int_name n o) []) (mk h b L) =
    match read_bytes n b with (inr bs, b') => Ret (JT (type_of_width n) (HInt (get_int o bs))) (mk h b' L) | (inl e, b') => Exc e (mk h b' L) end.
  Proof.
    intros B W. unfold ev_. rewrite ev_call. unfold call, x0. rewrite (ev_buf P pr vcall k stat c this h b L B). cbn [bind]. rewrite args_nil. cbn [bind dispatch]. rewrite buf_read by exact W. unfold got. cbn [JavaEncode.mk s_b]. destruct (read_bytes n b) as [[e|bs] b']; reflexivity.
  Qed.
  Lemma ev_readf n o h b L : base_locs L -> fwidth n -> ev_ (ECall buf ("read" ++ flt_name n o) []) (mk h b L) =
    match read_bytes n b with (inr bs, b') => Ret (JT (type_of_fwidth n) (HFlt (get_bits o bs))) (mk h b' L) | (inl e, b') => Exc e (mk h b' L) end.
  Proof.
    intros B W. unfold ev_. rewrite ev_call. unfold call, x0. rewrite (ev_buf P pr vcall k stat c this h b L B). cbn [bind]. rewrite args_nil. cbn [bind dispatch]. rewrite buf_read_f by exact W. unfold got. cbn [JavaEncode.mk s_b]. destruct (read_bytes n b) as [[e|bs] b']; reflexivity.
  Qed.
  Lemma ev_fix len pad lft h b L : base_locs L -> 0 <= len < 2 ^ 31 -> ev_ (ECallU "readFixedString" ([buf; lit len] ++ pad_args pad lft)) (mk h b L) =
    match read_fixed len pad lft b with (inr u, b') => Ret (jstr u) (mk h b' L) | (inl e, b') => Exc e (mk h b' L) end.
  Proof.
    intros B Hl. pose proof (fun V ch => run_read4 P pr V c stat (ce_two _ _ _ _ CE) (ce_utf _ _ _ _ CE) (S k) ch) as W4.
    pose proof (fun V ch => run_read2 P pr V c stat (ce_two _ _ _ _ CE) (ce_utf _ _ _ _ CE) k ch) as W2.
    unfold ev_, call, x0. unfold pad_args. destruct ((pad =? 32) && negb lft) eqn:Q.
    - apply andb_true_iff in Q. destruct Q as [Q1 Q2]. apply Z.eqb_eq in Q1. subst pad. destruct lft; [discriminate|]. cbn [List.app]. rewrite ev_callu by reflexivity. rewrite args_cons. rewrite (ev_buf P pr vcall k stat c this h b L B). cbn [bind].
      rewrite args_cons. cbn [eval lit bind]. rewrite args_nil. cbn [bind]. cbn [x_this x_class]. unfold jint. rewrite W2 by (auto || lia). unfold backs, read_fixed_default. cbn [JavaEncode.mk s_b]. destruct (read_fixed len 32 false b) as [[e|u] b']; reflexivity.
    - cbn [List.app]. rewrite ev_callu by reflexivity. rewrite args_cons. rewrite (ev_buf P pr vcall k stat c this h b L B). cbn [bind].
      rewrite args_cons. cbn [eval lit bind]. rewrite args_cons. cbn [eval bind]. rewrite args_cons. cbn [eval bind]. rewrite args_nil. cbn [bind]. cbn [x_this x_class]. unfold jint. rewrite W4 by (auto || lia). unfold backs. cbn [JavaEncode.mk s_b]. destruct (read_fixed len pad lft b) as [[e|u] b']; reflexivity.
  Qed.
  Lemma ev_chars x t len h b L : base_locs L -> assoc x L = Some (t, JT t (HInt len)) -> ev_ (read_cs x) (mk h b L) =
    match read_chars len b with (inr bs, b') => Ret (jstr (utf8_decode bs)) (mk h b' L) | (inl e, b') => Exc e (mk h b' L) end.
  Proof.
    intros B A. unfold ev_, read_cs. rewrite !ev_call. unfold call, x0. rewrite (ev_buf P pr vcall k stat c this h b L B). cbn [bind]. rewrite args_cons. cbn [eval]. erewrite name_loc by exact A. cbn [bind]. rewrite args_cons. rewrite (ev_utf P pr vcall k stat c cd this CE h b L B). cbn [bind]. rewrite args_nil. cbn [bind dispatch].
    change (buf_call "readCharSequence" [JT t (HInt len); JCharset] (mk h b L)) with (got (mk h b L) (read_chars len b) (fun bs => JT (T1 "CharSequence") (HStr (utf8_decode bs)))).
    unfold got. destruct (read_chars len b) as [[e|bs] b']; reflexivity.
  Qed.
  Lemma set_exc f e s0 x s1 : ev_ e s0 = Exc x s1 -> ex (set_s (this_f f) e) s0 = Exc x s1.
  Proof. intros H. unfold ex, set_s. rewrite ex_expr. change (eval P pr vcall call x0 (EAsg ASet (this_f f) e) s0) with (bind (ev_ e s0) (fun v s' => assign_field P x0 f v s')). rewrite H. reflexivity. Qed.
  Lemma ex_new h b L c' : known P E c c' = true -> ev_ (ENew (T0 (simple c')) []) (mk h b L) = (let '(h1, x) := hnew E h c' in Ret (JT (T1 c') x) (mk h1 b L)).
  Proof.
    unfold known. rewrite andb_true_iff, String.eqb_eq. intros [A B]. unfold ev_. cbn [eval bind T0]. cbn [x_class x0]. rewrite A. unfold new_object, hnew. destruct (find_class E c') as [cd'|] eqn:F; [|discriminate]. destruct (MK c' cd' F) as (d & D & Sd & M). rewrite D, Sd, M. reflexivity.
  Qed.
  (* v.decode(byteBuf) *)
  Lemma ex_decode e t v h b L : base_locs L -> heap_ok C h -> bk b -> fits h v TCodec -> ev_ e (mk h b L) = Ret (JT t v) (mk h b L) ->
    ex (call_s e "decode" [buf]) (mk h b L) = (let '(x, h', b') := dec h v b in ends x None (mk h' b' L)).
  Proof.
    intros B OK HB F He. unfold ex, call_s. rewrite ex_expr, ev_call. fold ev_. rewrite He. cbn [bind]. rewrite args_cons. unfold call, x0. rewrite (ev_buf P pr vcall k stat c this h b L B). cbn [bind]. rewrite args_nil. cbn [bind].
    destruct v as [|z|z|s|l]; cbn [fits] in F; try contradiction.
    - rewrite Hnull. reflexivity.
    - cbn [dispatch]. unfold JavaEncode.mk at 1. cbn [s_h]. destruct F as (c' & fs & F). rewrite F. change (String.eqb "decode" "getClass") with false. cbv iota. rewrite Hv by eauto.
      destruct (dec h (HRef l) b) as [[[x|] h'] b']; reflexivity.
  Qed.
  (* this.f.add(e) *)
  Lemma ex_add e f u l fs h b L h' b' t v vs : nth_error h this = Some (CObj c fs) -> assoc f (c_fields cd) = Some (TList u) -> field h this f = HRef l -> ev_ e (mk h b L) = Ret (JT t v) (mk h' b' L) ->
    nth_error h' l = Some (CList vs) -> ex (call_s (this_f f) "add" [e]) (mk h b L) = Ret None (mk (list_add h' (HRef l) v) b' L).
  Proof.
    intros Ht A Hf He Hl. unfold ex, call_s. rewrite ex_expr, ev_call. unfold call, x0. rewrite (ev_this_f P pr vcall k stat c cd this CE h b L f _ fs Ht A). cbn [bind]. rewrite args_cons. fold x0. fold call. fold ev_. rewrite He. cbn [bind]. rewrite args_nil. cbn [bind]. rewrite Hf. cbn [dispatch]. unfold JavaEncode.mk at 1. cbn [s_h]. rewrite Hl. reflexivity.
  Qed.
  Lemma add_exc e f u fs h b L s1 x : nth_error h this = Some (CObj c fs) -> assoc f (c_fields cd) = Some (TList u) -> ev_ e (mk h b L) = Exc x s1 -> ex (call_s (this_f f) "add" [e]) (mk h b L) = Exc x s1.
  Proof.
    intros Ht A He. unfold ex, call_s. rewrite ex_expr, ev_call. unfold call, x0. rewrite (ev_this_f P pr vcall k stat c cd this CE h b L f _ fs Ht A). cbn [bind]. rewrite args_cons. fold x0. fold call. fold ev_. rewrite He. reflexivity.
  Qed.
  Lemma ev_bin' o a e s : match o with OAnd | OOr => false | _ => true end = true -> ev_ (EBin o a e) s = bind (ev_ a s) (fun v s' => bind (ev_ e s') (fun w s'' => binary pr vcall o v w s'')).
  Proof. destruct o; intros H; try discriminate; reflexivity. Qed.
  Lemma ev_name' x s : ev_ (EName x) s = name_val P x0 x s. Proof. reflexivity. Qed.
  Lemma blk ss h b L new e h' b' : exa ss (mk h b L) = ends e None (mk h' b' (new ++ L)) -> scoped (mk h b L) (ex (SBlock ss) (mk h b L)) = ends e None (mk h' b' L).
  Proof.
    intros H. unfold ex. rewrite ex_block. fold exa. rewrite H. unfold JavaEncode.mk. destruct e; cbn [ends scoped s_loc]; rewrite leave_app; cbn [scoped]; rewrite leave_same by reflexivity; reflexivity.
  Qed.
  Lemma one s s0 r : ex s s0 = r -> exa [s] s0 = r.
  Proof. intros H. unfold exa. rewrite all_cons. fold ex. rewrite H. destruct r as [[v|] s1|e s1|]; reflexivity. Qed.
  (* int x = byteBuf.readX(); if (x > 0) { ... } *)
  Lemma ex_counted x n o ss h b L (D : base_locs L) (W : width n) (e : option exn) h' b' :
    match read_bytes n b with
    | (inl y, b1) => (e, h', b') = (Some y, h, b1)
    | (inr bs, b1) => let L' := (x, (local_type n, JT (local_type n) (HInt (get_int o bs)))) :: L in
        if get_int o bs >? 0 then scoped (mk h b1 L') (ex (SBlock ss) (mk h b1 L')) = ends e None (mk h' b' L') else (e, h', b') = (None, h, b1)
    end ->
    exists L', (L' = L \/ exists v, L' = (x, v) :: L) /\
    exa [SLocal (local_type n) x (Some (ECall buf ("read" ++ int_name n o) [])); SIf (EBin OGt (EName x) (lit 0)) (SBlock ss) None] (mk h b L) = ends e None (mk h' b' L').
  Proof.
    intros H. unfold exa. rewrite all_cons, ex_local. fold ev_. rewrite ev_read by assumption. destruct (read_bytes n b) as [[y|bs] b1].
    - injection H as -> -> ->. exists L. split; [now left|]. reflexivity.
    - cbn [bind]. unfold declare. cbn [conv seq_st bind]. unfold set_loc. cbn [JavaEncode.mk s_h s_b s_loc s_stat]. cbv zeta in H. set (L' := (x, (local_type n, JT (local_type n) (HInt (get_int o bs)))) :: L) in *.
      change {| s_h := h; s_b := b1; s_loc := L'; s_stat := stat |} with (mk h b1 L'). exists L'. split; [right; eexists; reflexivity|].
      fold exa. assert (Cnd : ev_ (EBin OGt (EName x) (lit 0)) (mk h b1 L') = Ret (JB (get_int o bs >? 0)) (mk h b1 L')).
      { rewrite ev_bin' by reflexivity. rewrite ev_name'. erewrite name_loc; [|unfold L'; cbn [JavaEncode.mk s_loc assoc]; rewrite String.eqb_refl; reflexivity]. cbn [bind]. change (ev_ (lit 0) (mk h b1 L')) with (Ret (jint 0) (mk h b1 L')). cbn [bind].
        unfold binary, jint. cbn [num arith]. rewrite Z.gtb_ltb. reflexivity. }
      apply one. unfold ex. rewrite ex_if. fold ev_. rewrite Cnd. cbn [bind]. destruct (get_int o bs >? 0); [exact H|]. injection H as -> -> ->. reflexivity.
  Qed.

  Lemma ex_delem f u l fs y h b L : building E this c fs f l h -> assoc f (c_fields cd) = Some (TList u) -> hget f fs = HRef l -> fine_delem u y = true -> jfine_delem P E R c f y = true -> bk b -> dlocs L ->
    scoped (mk h b L) (ex (SBlock (j_delem f y)) (mk h b L)) = (let '(e, (h', b')) := hdec_elem dec (hnew E) this f y (h, b) in ends e None (mk h' b' L)).
  Proof.
    intros BD A Hg Fy Jy HB D. destruct (BD) as [OK Ht (vs & Hl) _]. pose proof (proj1 D) as B. assert (FL : field h this f = HRef l) by (rewrite (field_at _ _ _ _ _ Ht); exact Hg).
    destruct y; cbn [j_delem hdec_elem fine_delem jfine_delem] in *.
    - pose proof (ev_read n o h b L B (widthb_ok _ Jy)) as EV. destruct (read_bytes n b) as [[e|bs] b']; apply blk with (new := []); apply one.
      + eapply add_exc; eauto.
      + rewrite FL. eapply ex_add; eauto.
    - pose proof (ev_readf n o h b L B (fwidthb_ok _ Jy)) as EV. destruct (read_bytes n b) as [[e|bs] b']; apply blk with (new := []); apply one.
      + eapply add_exc; eauto.
      + rewrite FL. eapply ex_add; eauto.
    - unfold lenb in Jy. rewrite andb_true_iff, Z.leb_le, Z.ltb_lt in Jy. pose proof (ev_fix len pad left h b L B Jy) as EV. destruct (read_fixed len pad left b) as [[e|bs] b']; apply blk with (new := []); apply one.
      + eapply add_exc; eauto.
      + rewrite FL. eapply ex_add; eauto.
    - apply andb_true_iff in Jy. destruct Jy as [Jn Jx]. apply fresh_inv in Jx. destruct Jx as (N1 & N2 & N3 & N4).
      match goal with |- ?lhs = _ => change (lhs = let '(e, (h', b')) := hdec_elem dec (hnew E) this f (YDyn n o) (h, b) in ends e None (mk h' b' L)) end. set (r := hdec_elem dec (hnew E) this f (YDyn n o) (h, b)).
      destruct (ex_counted (f ++ "Len") n o [call_s (this_f f) "add" [read_cs (f ++ "Len")]] h b L B (widthb_ok _ Jn) (fst r) (fst (snd r)) (snd (snd r))) as (L' & HL & EQ).
      { unfold r. cbn [hdec_elem]. destruct (read_bytes n b) as [[e|bs] b']; [reflexivity|]. cbv zeta. destruct (get_int o bs >? 0); [|reflexivity]. set (L' := _ :: L).
        assert (B' : base_locs L') by (apply base_cons; [exact B|intros [H|H]; [congruence|contradiction]]).
        pose proof (ev_chars (f ++ "Len") (local_type n) (get_int o bs) h b' L' B') as EV. unfold L' in EV at 1. cbn [assoc] in EV. rewrite String.eqb_refl in EV. specialize (EV eq_refl).
        destruct (read_chars (get_int o bs) b') as [[e|cs] b'']; apply blk with (new := []); apply one.
        - eapply add_exc; eauto.
        - rewrite FL. cbn [fst snd]. eapply ex_add; eauto. }
      destruct r as [e [h' b']]. cbn [fst snd] in EQ. destruct HL as [-> |(v & ->)]; [apply blk with (new := [])|apply blk with (new := [((f ++ "Len")%string, v)])]; exact EQ.
    - apply andb_true_iff in Jy. destruct Jy as [Jx Jk]. apply fresh_inv in Jx. destruct Jx as (N1 & N2 & N3 & N4). destruct u; try discriminate Fy. apply String.eqb_eq in Fy. subst c1.
      destruct (new_ok E h c0 OK) as (OK1 & K1 & F1). pose proof (ex_new h b L c0 Jk) as EN.
      assert (CQ : closed (fun m => (List.length h <= m)%nat) h) by (intros i k0 m L0 Hi; apply nth_lt in Hi; lia).
      destruct (new_moves E _ h c0 CQ (fun i L => L)) as [MQ IQ]. destruct (hnew E h c0) as [h1 x] eqn:HN. cbn [fst snd] in *.
      pose proof (has_new_later _ _ _ K1 (fun i L => L : (fun m => (List.length h <= m)%nat) i)) as NQ.
      pose proof (FR _ h1 x b (mv_closed _ _ _ MQ) NQ IQ) as DQ. destruct (TY h1 x b OK1 HB) as [OK2 K2].
      assert (XR : exists i, x = HRef i) by (unfold hnew in HN; unfold known in Jk; apply andb_true_iff in Jk; destruct Jk as [_ Jk]; destruct (find_class E c0); [|discriminate]; injection HN as _ <-; eexists; reflexivity).
      destruct XR as (i & ->).
      set (L' := ((f ++ "_")%string, (T0 (simple c0), JT (T0 (simple c0)) (HRef i))) :: L).
      assert (S1 : exa (j_delem f (YObj c0)) (mk h b L) = exa [call_s (EName (f ++ "_")) "decode" [buf]; call_s (this_f f) "add" [EName (f ++ "_")]] (mk h1 b L')).
      { unfold exa. cbn [j_delem]. rewrite all_cons, ex_local. fold ev_. rewrite EN. reflexivity. }
      cbn [j_delem] in S1. assert (B' : base_locs L') by (apply base_cons; [exact B|intros [H|H]; [congruence|contradiction]]).
      assert (EV : forall h' b', ev_ (EName (f ++ "_")) (mk h' b' L') = Ret (JT (T0 (simple c0)) (HRef i)) (mk h' b' L')).
      { intros h' b'. rewrite ev_name'. eapply name_loc. unfold L'. cbn [JavaEncode.mk s_loc assoc]. rewrite String.eqb_refl. reflexivity. }
      assert (FC : fits h1 (HRef i) TCodec) by (cbn [fits] in F1 |- *; destruct F1 as (gs & F1); eauto).
      pose proof (ex_decode (EName (f ++ "_")) _ (HRef i) h1 b L' B' OK1 HB FC (EV h1 b)) as ED. destruct (dec h1 (HRef i) b) as [[e h2] b'] eqn:DE. cbn [fst snd] in *.
      assert (B2 : building E this c fs f l h2) by (eapply building_later; [exact flat_classes|exact nodup_classes|exact BD|exact (moves_trans _ _ _ _ MQ DQ)|exact OK2]). destruct (B2) as [_ Ht2 (vs2 & Hl2) _]. assert (FL2 : field h2 this f = HRef l) by (rewrite (field_at _ _ _ _ _ Ht2); exact Hg).
      destruct e as [e|]; apply blk with (new := [((f ++ "_")%string, (T0 (simple c0), JT (T0 (simple c0)) (HRef i)))]); rewrite S1; unfold exa; rewrite all_cons; fold ex; rewrite ED; cbn [ends seq_st bind]; [reflexivity|]. fold exa.
      apply one. rewrite FL2. eapply ex_add; eauto.
  Qed.

  Lemma loop_delems f u l fs y x t len L0 : assoc f (c_fields cd) = Some (TList u) -> hget f fs = HRef l -> fine_delem u y = true -> jfine_delem P E R c f y = true -> ~ In "i"%string R ->
    x <> "i"%string -> let L := (x, (t, JT t (HInt len))) :: L0 in dlocs L -> len < 2 ^ 31 ->
    forall n m h b i, Z.of_nat i + Z.of_nat n = len -> (n < m)%nat -> building E this c fs f l h -> bk b ->
    exists j, loop m (ev_ (EBin OLt (EName "i") (EName x))) (fun s => scoped s (ex (SBlock (j_delem f y)) s)) (ev_ (EInc (EName "i"))) (mk h b (i_loc (Z.of_nat i) :: L))
      = (let '(e, (h', b')) := iter n (hdec_elem dec (hnew E) this f y) (h, b) in ends e None (mk h' b' (i_loc j :: L))).
  Proof.
    intros A Hg Fy Jy NI NX L D Hlen. 
    assert (Cond : forall h b i, ev_ (EBin OLt (EName "i") (EName x)) (mk h b (i_loc (Z.of_nat i) :: L)) = Ret (JB (Z.of_nat i <? len)) (mk h b (i_loc (Z.of_nat i) :: L))).
    { intros h b i. rewrite ev_bin' by reflexivity. rewrite !ev_name'. erewrite name_loc by reflexivity. cbn [bind]. rewrite ev_name'. erewrite name_loc with (t := t) (v := JT t (HInt len)); [reflexivity|]. unfold L, i_loc. cbn [JavaEncode.mk s_loc assoc].
      destruct (String.eqb_spec x "i"); [contradiction|]. rewrite String.eqb_refl. reflexivity. }
    induction n as [|n IH]; intros m h b i Hi Hm BD HB; (destruct m as [|m]; [lia|]); cbn [iter].
    - exists (Z.of_nat i). apply loop_stop. rewrite Cond. replace (Z.of_nat i <? len) with false by (symmetry; apply Z.ltb_ge; lia). reflexivity.
    - pose proof (ex_delem f u l fs y h b (i_loc (Z.of_nat i) :: L) BD A Hg Fy Jy HB (dlocs_i _ _ D NI)) as W.
      destruct (building_elem E flat_classes nodup_classes dec this c fs cd f l u y h b TY FR BD Hc A Hg Fy HB) as [B1 K1].
      assert (Cd : ev_ (EBin OLt (EName "i") (EName x)) (mk h b (i_loc (Z.of_nat i) :: L)) = Ret (JB true) (mk h b (i_loc (Z.of_nat i) :: L))).
      { rewrite Cond. replace (Z.of_nat i <? len) with true by (symmetry; apply Z.ltb_lt; lia). reflexivity. }
      destruct (hdec_elem dec (hnew E) this f y (h, b)) as [[e|] [h1 b1]]; cbn [fst snd ends] in *.
      + exists (Z.of_nat i). eapply loop_exc; [exact Cd|exact W].
      + destruct (IH m h1 b1 (S i) ltac:(lia) ltac:(lia) B1 K1) as (j & IHj). exists j. refine (eq_trans _ IHj). eapply loop_go; [exact Cd|exact W|].
        unfold ev_. cbn [eval]. erewrite name_loc by reflexivity. cbn [bind num jint]. unfold assign, JavaEncode.mk, i_loc. cbn [s_loc assoc String.eqb Ascii.eqb Bool.eqb conv bind]. unfold set_loc. cbn [s_h s_b s_loc s_stat put_assoc String.eqb Ascii.eqb Bool.eqb].
        unfold cast_z. cbn [T1 T0 is_name String.eqb Ascii.eqb Bool.eqb]. rewrite wrap_small by lia. replace (Z.of_nat (S i)) with (Z.of_nat i + 1) by lia. reflexivity.
  Qed.

  (* create(key) *)
  Lemma run_create this' q m kt mp kk t v j h b L : find_method P q m 1 = Some ([(kt, kk)], create_body mp kk) -> is_prim kt = false -> mp <> kk -> kk <> "supplier"%string ->
    (forall L', assoc mp L' = None -> name_val P {| x_this := this'; x_class := q |} mp (mk h b L') = Ret (JMap j) (mk h b L')) ->
    j MNull = None -> (v = HNull \/ exists x, hkey_of v = Some x) ->
    (forall x, match j (MKey x) with Some w => exists c', w = JSup c' | None => True end) ->
    run P pr vcall (S (S (S k))) this' q m [JT t v] (mk h b L) =
      match v with HNull => Exc IAE (mk h b L) | _ => match hkey_of v with Some x => match j (MKey x) with Some (JSup c') => new_object P c' (mk h b L) | _ => Exc IAE (mk h b L) end | None => Bad end end.
  Proof.
    intros FM Hp N1 N2 Hmp Hn V Hj. erewrite run_eq by exact FM. unfold bind_params. replace (conv kt (JT t v) (mk h b L)) with (fun g : jval -> res (list (string * (ty * jval))) => g (JT kt v)) by (unfold conv; destruct v; rewrite ?Hp; reflexivity).
    cbn [bind]. unfold create_body, j_create. unfold set_loc. cbn [JavaEncode.mk s_h s_b s_loc s_stat]. set (L1 := [(kk, (kt, JT kt v))]). change {| s_h := h; s_b := b; s_loc := L1; s_stat := stat |} with (mk h b L1).
    assert (M1 : assoc mp L1 = None) by (unfold L1; cbn [assoc]; destruct (String.eqb_spec mp kk); [contradiction|reflexivity]).
    assert (KV : forall h b, name_val P {| x_this := this'; x_class := q |} kk (mk h b L1) = Ret (JT kt v) (mk h b L1)) by (intros; eapply name_loc; unfold L1; cbn [JavaEncode.mk s_loc assoc]; rewrite String.eqb_refl; reflexivity).
    assert (G : exists y, mkey_of (JT kt v) = Some y /\ or_null (j y) = match v with HNull => jnull | _ => match hkey_of v with Some x => or_null (j (MKey x)) | None => jnull end end).
    { destruct V as [->|(x & V)]; [exists MNull; rewrite Hn; split; reflexivity|]. destruct v; try discriminate V; injection V as <-; eexists; split; reflexivity. }
    destruct G as (y & G1 & G2). rewrite all_cons, ex_local, ev_call. cbn [eval]. rewrite Hmp by exact M1. cbn [bind]. rewrite args_cons. cbn [eval]. rewrite KV. cbn [bind]. rewrite args_nil. cbn [bind dispatch]. unfold map_call. rewrite G1. cbn [String.eqb Ascii.eqb Bool.eqb bind]. rewrite G2.
    assert (SH : exists w, forall s, jshow pr vcall (JT kt v) s = Ret w s).
    { unfold jshow, jshow_item. destruct V as [->|(x & V)]; [eexists; reflexivity|]. destruct v; try discriminate V; eexists; reflexivity. }
    destruct SH as (w & SH).
    assert (Thr : forall L2, assoc kk L2 = Some (kt, JT kt v) -> assoc "supplier" L2 = Some (supplier_t, JT supplier_t HNull) ->
      exec_all P pr vcall (run P pr vcall (S (S k))) (S (S k)) {| x_this := this'; x_class := q |}
        [SIf (EBin OEq ENull (EName "supplier")) (SBlock [SThrow (ENew (T0 "IllegalArgumentException") [EBin OAdd (EStr ("Unsupported " ++ key_label kk ++ ":")) (EName kk)])]) None; SReturn (Some (ECall (EName "supplier") "get" []))] (mk h b L2) = Exc IAE (mk h b L2)).
    { intros L2 A1 A2. rewrite all_cons, ex_if. cbn [eval bind]. erewrite name_loc by exact A2. cbn [bind jnull binary is_numeric orb same].
      cbn [exec]. cbn [T0 String.eqb Ascii.eqb Bool.eqb eval bind]. erewrite name_loc by exact A1. cbn [bind binary is_stringy jstr T1 is_name String.eqb Ascii.eqb Bool.eqb orb]. change (jshow pr vcall (jstr (chars ("Unsupported " ++ key_label kk ++ ":"))) (mk h b L2)) with (Ret (chars ("Unsupported " ++ key_label kk ++ ":")) (mk h b L2)).
      cbn [bind]. rewrite SH. cbn [bind scoped seq_st]. unfold JavaEncode.mk. cbn [s_loc]. rewrite !leave_same by reflexivity. reflexivity. }
    destruct V as [->|(x & V)].
    - unfold declare, jnull. cbn [conv]. change (is_prim supplier_t) with false. cbv iota. cbn [seq_st bind]. unfold set_loc. cbn [JavaEncode.mk s_h s_b s_loc s_stat]. fold exec_all.
      change {| s_h := h; s_b := b; s_loc := ?l; s_stat := stat |} with (mk h b l). rewrite Thr; [reflexivity| |reflexivity]. unfold L1. cbn [assoc]. destruct (String.eqb_spec kk "supplier"); [contradiction|]. rewrite String.eqb_refl. reflexivity.
    - rewrite V. replace (match v with HNull => Exc IAE (mk h b L) | _ => match j (MKey x) with Some (JSup c') => new_object P c' (mk h b L) | _ => Exc IAE (mk h b L) end end) with (match j (MKey x) with Some (JSup c') => new_object P c' (mk h b L) | _ => Exc IAE (mk h b L) end) by (destruct v; [discriminate V|..]; reflexivity).
      replace (match v with HNull => jnull | _ => or_null (j (MKey x)) end) with (or_null (j (MKey x))) by (destruct v; [discriminate V|..]; reflexivity).
      specialize (Hj x). destruct (j (MKey x)) as [w'|].
      + destruct Hj as (c' & ->). cbn [or_null]. unfold declare. cbn [conv seq_st bind]. unfold set_loc. cbn [JavaEncode.mk s_h s_b s_loc s_stat]. change {| s_h := h; s_b := b; s_loc := ?l; s_stat := stat |} with (mk h b l). set (L2 := _ :: L1).
        rewrite all_cons, ex_if. cbn [eval bind]. erewrite name_loc by reflexivity. cbn [bind jnull binary is_numeric orb same is_object negb seq_st].
        rewrite all_cons, ex_return, ev_call. cbn [eval bind]. erewrite name_loc by reflexivity. cbn [bind]. rewrite args_nil. cbn [bind dispatch String.eqb Ascii.eqb Bool.eqb]. unfold new_object. destruct (assoc c' P) as [d'|]; [|reflexivity]. destruct (existsb _ (supers d')); reflexivity.
      + cbn [or_null]. unfold declare, jnull. cbn [conv]. change (is_prim supplier_t) with false. cbv iota. cbn [seq_st bind]. unfold set_loc. cbn [JavaEncode.mk s_h s_b s_loc s_stat].
        change {| s_h := h; s_b := b; s_loc := ?l; s_stat := stat |} with (mk h b l). rewrite Thr; [reflexivity| |reflexivity]. unfold L1. cbn [assoc]. destruct (String.eqb_spec kk "supplier"); [contradiction|]. rewrite String.eqb_refl. reflexivity.
  Qed.
  Definition key_ty (t : ftype) : bool := match t with TByte | TShort | TInt | TLong | TStr => true | _ => false end.
  Lemma ev_create f kf t fs h b L : heap_ok C h -> nth_error h this = Some (CObj c fs) -> assoc kf (c_fields cd) = Some t -> key_ty t = true -> creates E P stat c own f kf -> dlocs L -> In (factory_name f) R ->
    ev_ (create_call own f kf) (mk h b L) =
    match hkey_of (field h this kf) with
    | Some x => match factory E c x with Some c' => let '(h1, y) := hnew E h c' in Ret (JT (T1 c') y) (mk h1 b L) | None => Exc IAE (mk h b L) end
    | None => Exc IAE (mk h b L)
    end.
  Proof.
    intros OK Ht A KT ((N1 & N2 & N3) & FK & CR) [D1 D2] HR. pose proof (known_field E h this c cd fs kf t OK Ht Hc A) as FV. rewrite <- (field_at _ _ kf _ _ Ht) in FV.
    assert (V : field h this kf = HNull \/ exists x, hkey_of (field h this kf) = Some x).
    { destruct t; try discriminate KT; destruct (field h this kf); cbn [fits] in FV; try contradiction; try (now left); right; eexists; reflexivity. }
    assert (NW : forall x c', factory E c x = Some c' -> forall L0, new_object P c' (mk h b L0) = (let '(h1, y) := hnew E h c' in Ret (JT (T1 c') y) (mk h1 b L0))).
    { intros x c' F L0. unfold new_object, hnew. pose proof (FK x c' F) as K. destruct (find_class E c') as [cd'|] eqn:FC; [|congruence]. destruct (MK c' cd' FC) as (d & Hd & Sd & M). rewrite Hd, Sd, M. reflexivity. }
    assert (Fin : forall j : mkey -> option jval, (forall x, j (MKey x) = option_map JSup (factory E c x)) -> 
      match field h this kf with HNull => Exc IAE (mk h b L) | _ => match hkey_of (field h this kf) with Some x => match j (MKey x) with Some (JSup c') => new_object P c' (mk h b L) | _ => Exc IAE (mk h b L) end | None => Bad end end =
      match hkey_of (field h this kf) with
      | Some x => match factory E c x with Some c' => let '(h1, y) := hnew E h c' in Ret (JT (T1 c') y) (mk h1 b L) | None => Exc IAE (mk h b L) end
      | None => Exc IAE (mk h b L)
      end).
    { intros j Hj. destruct V as [->|(x & V)]; [reflexivity|]. rewrite V, Hj. destruct (field h this kf); [discriminate V|..]; (destruct (factory E c x) as [c'|] eqn:F; cbn [option_map]; [eapply NW; eauto|reflexivity]). }
    pose proof (ev_this_f P pr vcall k stat c cd this CE h b L kf t fs Ht A) as EV. unfold create_call. destruct own.
    - destruct CR as (FT & (j & Hj & Hn & Hm) & kt & Hp & FM). unfold ev_, call, x0. rewrite ev_callu by reflexivity. rewrite args_cons. rewrite EV. cbn [bind]. rewrite args_nil. cbn [bind x_this x_class].
      rewrite (run_create (Some this) c _ kt (f ++ "Map")%string kf _ _ j h b L FM); auto.
      + intros L' A0. unfold name_val. cbn [JavaEncode.mk s_loc x_this x_class s_stat]. rewrite A0, FT, Hj. reflexivity.
      + intros x. rewrite Hm. destruct (factory E c x); cbn [option_map]; eauto.
    - destruct CR as (q & d & kt & IC & Hd & GI & NI & HI & (j & Hj & Hn & Hm) & Hp & FM). unfold ev_, call, x0. rewrite !ev_call. rewrite ev_name.
      rewrite name_class with (q := q); [|exact IC|apply D2; exact HR]. cbn [bind]. rewrite args_nil. cbn [bind dispatch]. rewrite Hd.
      erewrite (run_eq _ _ _ _ _ q "getInstance") by exact GI. cbn [bind_params bind]. rewrite all_cons, ex_return. cbn [eval]. unfold name_val. cbn [set_loc s_loc assoc x_this x_class s_stat JavaEncode.mk].
      change ("." ++ "INSTANCE")%string with ".INSTANCE"%string. rewrite NI, Hd, HI. cbn [bind seq_st result]. unfold set_loc. cbn [s_h s_b s_loc s_stat]. change {| s_h := h; s_b := b; s_loc := L; s_stat := stat |} with (mk h b L).
      rewrite args_cons. change (eval P pr vcall (run P pr vcall (S (S (S k)))) {| x_this := Some this; x_class := c |} (this_f kf) _) with (eval P pr vcall (run P pr vcall (S (S (S k)))) {| x_this := Some this; x_class := c |} (this_f kf) (mk h b L)). rewrite EV. cbn [bind]. rewrite args_nil. cbn [bind dispatch].
      rewrite (run_create None q _ kt (f ++ "Map")%string kf _ _ j h b L FM); auto.
      + intros L' A0. unfold name_val. cbn [JavaEncode.mk s_loc x_this x_class s_stat]. rewrite A0, Hj. reflexivity.
      + intros x. rewrite Hm. destruct (factory E c x); cbn [option_map]; eauto.
  Qed.

  Definition lands_d (e : option exn) (h : heap) (b : bytebuf) (r : res (option jval)) : Prop :=
    match e with None => exists L, r = Ret None (mk h b L) /\ dlocs L | Some x => exists L, r = Exc x (mk h b L) end.
  Lemma lands_one_d L e h b s s0 : ex s s0 = ends e None (mk h b L) -> dlocs L -> lands_d e h b (exa [s] s0).
  Proof. intros H K. rewrite (one s s0 _ H). destruct e; cbn [ends lands_d]; eauto. Qed.
  Lemma lands_counted x n o ss h b L e h' b' : dlocs L -> fresh_local R x = true -> width n ->
    match read_bytes n b with
    | (inl y, b1) => (e, h', b') = (Some y, h, b1)
    | (inr bs, b1) => let L' := (x, (local_type n, JT (local_type n) (HInt (get_int o bs)))) :: L in
        if get_int o bs >? 0 then scoped (mk h b1 L') (ex (SBlock ss) (mk h b1 L')) = ends e None (mk h' b' L') else (e, h', b') = (None, h, b1)
    end ->
    lands_d e h' b' (exa [SLocal (local_type n) x (Some (ECall buf ("read" ++ int_name n o) [])); SIf (EBin OGt (EName x) (lit 0)) (SBlock ss) None] (mk h b L)).
  Proof.
    intros D F W H. destruct (ex_counted x n o ss h b L (proj1 D) W e h' b' H) as (L' & HL & ->). apply fresh_inv in F. destruct F as (N1 & N2 & N3 & N4).
    destruct e; cbn [ends lands_d]; [eauto|]. exists L'. split; [reflexivity|]. destruct HL as [-> |(v & ->)]; [exact D|]. apply dlocs_cons; auto.
  Qed.
  Hypothesis NI : ~ In "i"%string R.
  Lemma ex_dstmt s h b L fs : heap_ok C h -> bk b -> nth_error h this = Some (CObj c fs) -> fine_dstmt (c_fields cd) s = true -> jfine_dstmt P E R c (c_fields cd) s = true -> dlocs L ->
    match s with DCreate f kf => creates E P stat c own f kf | _ => True end ->
    let '(e, (h', b')) := hexec_dstmt dec (hnew E) (factory E c) this s (h, b) in lands_d e h' b' (exa (j_dstmt own s) (mk h b L)).
  Proof.
    intros OK HB Ht F J D CR. pose proof (proj1 D) as B. assert (KF := fun f t => known_field E h this c cd fs f t OK Ht Hc). pose proof (fun f => field_at h this f c fs Ht) as FA.
    destruct s; cbn [fine_dstmt jfine_dstmt hexec_dstmt j_dstmt] in *.
    - destruct (assoc f (c_fields cd)) as [t|] eqn:A; [|discriminate]. pose proof (ev_read n o h b L B (widthb_ok _ J)) as EV. destruct (read_bytes n b) as [[e|bs] b']; (eapply lands_one_d; [|exact D]).
      + eapply set_exc; eauto.
      + eapply ex_set; [exact CE|exact EV|exact A|left; discriminate].
    - destruct (assoc f (c_fields cd)) as [t|] eqn:A; [|discriminate]. pose proof (ev_readf n o h b L B (fwidthb_ok _ J)) as EV. destruct (read_bytes n b) as [[e|bs] b']; (eapply lands_one_d; [|exact D]).
      + eapply set_exc; eauto.
      + eapply ex_set; [exact CE|exact EV|exact A|left; discriminate].
    - destruct (assoc f (c_fields cd)) as [t|] eqn:A; [|discriminate]. unfold lenb in J. rewrite andb_true_iff, Z.leb_le, Z.ltb_lt in J. pose proof (ev_fix len pad left h b L B J) as EV. destruct (read_fixed len pad left b) as [[e|bs] b']; (eapply lands_one_d; [|exact D]).
      + eapply set_exc; eauto.
      + eapply ex_set; [exact CE|exact EV|exact A|left; discriminate].
    - destruct (assoc f (c_fields cd)) as [t|] eqn:A; [|discriminate]. apply andb_true_iff in J. destruct J as [Jn Jx]. pose proof (fresh_inv _ Jx) as (N1 & N2 & N3 & N4).
      set (r := hexec_dstmt dec (hnew E) (factory E c) this (DDyn f n o) (h, b)). change (let '(e, (h', b')) := r in lands_d e h' b' (exa (j_dstmt own (DDyn f n o)) (mk h b L))).
      cut (lands_d (fst r) (fst (snd r)) (snd (snd r)) (exa (j_dstmt own (DDyn f n o)) (mk h b L))); [destruct r as [e [h' b']]; auto|]. cbn [j_dstmt]. apply lands_counted; auto; [apply widthb_ok; exact Jn|]. unfold r. cbn [hexec_dstmt].
      destruct (read_bytes n b) as [[e|bs] b']; [reflexivity|]. cbv zeta. destruct (get_int o bs >? 0); [|reflexivity]. set (L' := _ :: L).
      assert (B' : base_locs L') by (apply base_cons; [exact B|intros [H|H]; [congruence|contradiction]]).
      pose proof (ev_chars (f ++ "Len") (local_type n) (get_int o bs) h b' L' B') as EV. unfold L' in EV at 1. cbn [assoc] in EV. rewrite String.eqb_refl in EV. specialize (EV eq_refl).
      destruct (read_chars (get_int o bs) b') as [[e|cs] b'']; apply blk with (new := []); apply one.
      + eapply set_exc; eauto.
      + eapply ex_set; [exact CE|exact EV|exact A|left; discriminate].
    - destruct (assoc f (c_fields cd)) as [[| | | | | | |u| |]|] eqn:A; try discriminate F. apply andb_true_iff in F. destruct F as [_ Fy]. rewrite !andb_true_iff in J. destruct J as [[Jn Jx] Jy]. pose proof (fresh_inv _ Jx) as (N1 & N2 & N3 & N4).
      set (r := hexec_dstmt dec (hnew E) (factory E c) this (DList f n o y) (h, b)). change (let '(e, (h', b')) := r in lands_d e h' b' (exa (j_dstmt own (DList f n o y)) (mk h b L))).
      cut (lands_d (fst r) (fst (snd r)) (snd (snd r)) (exa (j_dstmt own (DList f n o y)) (mk h b L))); [destruct r as [e [h' b']]; auto|]. cbn [j_dstmt]. apply lands_counted; auto; [apply length_width_ok; exact Jn|]. unfold r. cbn [hexec_dstmt].
      pose proof (read_bytes_good n b HB) as RG. destruct (read_bytes n b) as [[e|bs] b']; [reflexivity|]. destruct RG as (LB & QB & KB). cbv zeta. destruct (get_int o bs >? 0) eqn:GT; [|reflexivity]. set (L' := _ :: L).
      assert (D' : dlocs L') by (apply dlocs_cons; auto). cbn [alloc_cell]. rewrite repeat_z_iter. destruct (building_start E flat_classes nodup_classes fine_decs this c fs cd f u h OK Ht Hc A) as [BD Hg].
      rewrite Z.gtb_ltb in GT. apply Z.ltb_lt in GT. assert (LT : get_int o bs < 2 ^ 31).
      { unfold length_width in Jn. cbn [existsb] in Jn. rewrite !orb_true_iff, !Nat.eqb_eq in Jn.
        assert (W : exists t, int_type n t = true /\ (t = TByte \/ t = TShort \/ t = TInt)) by (destruct Jn as [->|[->|[->|Jn]]]; [exists TByte|exists TShort|exists TInt|discriminate Jn]; auto).
        destruct W as (t & W & T). pose proof (int_fits h n t o bs W LB) as IF. destruct T as [->|[->| ->]]; cbn [fits] in IF; lia. }
      set (h1 := put_field (h ++ [CList []]) this f (HRef (List.length h))) in *.
      destruct (loop_delems f u (List.length h) _ y (f ++ "Size") (local_type n) (get_int o bs) L A Hg Fy Jy NI N2 D' LT (Z.to_nat (get_int o bs)) (S (S (S k))) h1 b' O) as (i & LE); auto; [cbn [Z.of_nat]; rewrite Z2Nat.id by lia; lia|apply Nat2Z.inj_lt; rewrite Z2Nat.id by lia; lia|].
      destruct (iter (Z.to_nat (get_int o bs)) (hdec_elem dec (hnew E) this f y) (h1, b')) as [e [h' b'']]. cbn [fst snd].
      apply blk with (new := []). unfold exa. rewrite all_cons. fold ex. 
      assert (S1 : ex (set_s (this_f f) (ENew (TyDia "ArrayList") [])) (mk h b' L') = Ret None (mk h1 b' L')).
      { eapply ex_set; [exact CE| |exact A|left; discriminate]. reflexivity. }
      rewrite S1. cbn [seq_st bind]. fold exa. apply one. unfold for_i, ex. rewrite ex_for. fold ex ev_. change (ev_ (lit 0) (mk h1 b' L')) with (Ret (jint 0) (mk h1 b' L')). cbn [bind]. unfold declare at 1. cbn [jint conv bind]. unfold set_loc. cbn [s_h s_b s_loc s_stat JavaEncode.mk].
      change {| s_h := h1; s_b := b'; s_loc := _; s_stat := stat |} with (mk h1 b' (i_loc (Z.of_nat 0) :: L')). unfold L' in *. rewrite LE. destruct e; cbn [ends scoped]; unfold JavaEncode.mk, i_loc; cbn [s_loc]; rewrite leave_b by reflexivity; reflexivity.
    - destruct (assoc f (c_fields cd)) as [t|] eqn:A; [|discriminate]. destruct t; try discriminate F. apply String.eqb_eq in F. subst c1. pose proof (KF _ _ A) as FV. rewrite <- FA in FV.
      pose proof (fits_ref h _ (TObj c0) eq_refl FV) as VR. pose proof (ex_new h b L c0 J) as EN. pose proof (ev_null_test P pr vcall k stat c cd this CE OEq f _ h b L fs false Ht A VR (or_introl eq_refl)) as NT. cbn [negb] in NT.
      assert (X : ex (SIf (EBin OEq ENull (this_f f)) (SBlock [set_s (this_f f) (ENew (T0 (simple c0)) [])]) None) (mk h b L) =
        match field h this f with HNull => let '(h1, x) := hnew E h c0 in Ret None (mk (put_field h1 this f x) b L) | _ => Ret None (mk h b L) end).
      { unfold ex. rewrite ex_if. fold x0 in NT. fold call in NT. rewrite NT. cbn [bind]. destruct VR as [VR|(l & VR)]; rewrite VR; [|reflexivity]. destruct (hnew E h c0) as [h1 x] eqn:HN. fold ex.
        assert (XN : x <> HNull) by (unfold hnew in HN; unfold known in J; apply andb_true_iff in J; destruct J as [_ J]; destruct (find_class E c0); [|discriminate]; injection HN as _ <-; discriminate).
        apply (blk _ h b L [] None). apply one. eapply ex_set; [exact CE|exact EN|exact A|left; exact XN]. }
      destruct (field h this f); try (eapply lands_one_d; [exact X|exact D]). destruct (hnew E h c0) as [h1 x]. eapply lands_one_d; [exact X|exact D].
    - destruct (assoc f (c_fields cd)) as [t|] eqn:A; [|discriminate]. pose proof (KF _ _ A) as FV. rewrite <- FA in FV.
      pose proof (ex_decode (this_f f) _ _ h b L B OK HB (fits_obj _ _ _ J FV) (ev_this_f P pr vcall k stat c cd this CE h b L f t fs Ht A)) as W. destruct (dec h (field h this f) b) as [[e h'] b']. eapply lands_one_d; eauto.
    - destruct (assoc f (c_fields cd)) as [t|] eqn:A; [|discriminate]. apply andb_true_iff in J. destruct J as [J1 J2]. destruct (assoc key (c_fields cd)) as [tk|] eqn:AK; [|discriminate].
      pose proof (ev_create f key tk fs h b L OK Ht AK) as EV. destruct CR as (CR1 & CR2 & CR3). specialize (EV ltac:(destruct tk; auto) (conj CR1 (conj CR2 CR3)) D ltac:(apply mem_in; exact J1)).
      destruct (hkey_of (field h this key)) as [x|]; [|eapply lands_one_d; [eapply set_exc; exact EV|exact D]]. destruct (factory E c x) as [c'|] eqn:FX; [|eapply lands_one_d; [eapply set_exc; exact EV|exact D]].
      destruct (hnew E h c') as [h1 y] eqn:HN. assert (YN : y <> HNull) by (unfold hnew in HN; pose proof (CR2 _ _ FX); destruct (find_class E c'); [|congruence]; injection HN as _ <-; discriminate).
      eapply lands_one_d; [|exact D]. eapply ex_set; [exact CE|exact EV|exact A|left; exact YN].
  Qed.
  Lemma all_app_d l m s : exa (l ++ m) s = seq_st (exa l s) (exa m).
  Proof.
    revert s. induction l as [|x l IH]; intros s; unfold exa; cbn [List.app]; [reflexivity|]. rewrite !all_cons. destruct (exec P pr vcall call (S (S (S k))) x0 x s) as [[v|] s'|e s'|]; cbn [seq_st bind]; try reflexivity. apply IH.
  Qed.
  Lemma ex_dstmts : forall ss h b L fs, heap_ok C h -> bk b -> nth_error h this = Some (CObj c fs) -> forallb (fine_dstmt (c_fields cd)) ss = true -> forallb (jfine_dstmt P E R c (c_fields cd)) ss = true -> dlocs L ->
    (forall f kf, In (DCreate f kf) ss -> creates E P stat c own f kf) ->
    let '(e, (h', b')) := hexec_dec dec (hnew E) (factory E c) this ss (h, b) in lands_d e h' b' (exa (flat_map (j_dstmt own) ss) (mk h b L)).
  Proof.
    induction ss as [|s ss IH]; intros h b L fs OK HB Ht F J D CR; cbn [hexec_dec flat_map forallb] in *; [exists L; auto|]. apply andb_true_iff in F, J. destruct F as [F1 F2], J as [J1 J2].
    assert (CR1 : match s with DCreate f kf => creates E P stat c own f kf | _ => True end) by (destruct s; auto; apply CR; now left).
    pose proof (ex_dstmt s h b L fs OK HB Ht F1 J1 D CR1) as W. rewrite all_app_d. destruct (typed_dstmt E flat_classes nodup_classes dec (factory E c) this c fs cd s h b TY FR OK Ht Hc F1 HB) as [OK1 K1].
    pose proof (keeps_dstmt E dec (factory E c) this s h b FR (nth_lt _ _ _ Ht)) as KP.
    destruct (hexec_dstmt dec (hnew E) (factory E c) this s (h, b)) as [[e|] [h1 b1]]; cbn [lands_d fst snd] in *.
    - destruct W as (L1 & ->). cbn [seq_st bind]. eexists; reflexivity.
    - destruct W as (L1 & -> & D1). cbn [seq_st bind]. destruct (keeps_object _ _ _ _ _ KP Ht) as (gs & Hg & _). eapply IH; eauto. intros f kf I0. apply CR. now right.
  Qed.
End Statements.

(* ---------- the method ---------- *)
Section Decode.
  Variable E : env.
  Variable P : program.
  Variable pr : printers.
  Variable k : nat.
  Variable stat : list (string * jval).
  Hypothesis Hk : 2 ^ 31 <= Z.of_nat k.
  Hypothesis BE_ : base_env E P stat.
  Hypothesis MK : makes E P.
  Hypothesis flat_classes : forall c cd, find_class E c = Some cd -> forallb (fun ft => flat_type (snd ft)) (c_fields cd) = true.
  Hypothesis nodup_classes : forall c cd, find_class E c = Some cd -> NoDup (map fst (c_fields cd)).
  Hypothesis fine_decs : forall c cd, find_class E c = Some cd -> forallb (fine_dstmt (c_fields cd)) (c_dec cd) = true.
  Hypothesis fine_classes : forall c cd, find_class E c = Some cd -> forallb (jfine_dstmt P E (classes_named cd) c (c_fields cd)) (c_dec cd) = true
    /\ mem "byteBuf" (classes_named cd) = false /\ mem "i" (classes_named cd) = false /\ class_env P stat c cd /\
    exists own, (forall f kf, In (DCreate f kf) (c_dec cd) -> creates E P stat c own f kf)
                /\ find_method P c "decode" 1 = Some ([(T0 "ByteBuf", "byteBuf")], flat_map (j_dstmt own) (c_dec cd)).
  Theorem java_decode d : forall h l b L, heap_ok (classes E) h -> bk b -> (exists c fs, nth_error h l = Some (CObj c fs)) ->
    vcalls P pr (S (S (S (S k)))) d "decode" l [JBuf] (mk stat h b L) = (let '(e, h', b') := hdecode E d h (HRef l) b in ends e JVoid (mk stat h' b' L)).
  Proof.
    induction d as [|d IH]; intros h l b L OK HB (c & fs & Hl); [reflexivity|]. cbn [vcalls hdecode]. cbn [mk s_h]. rewrite Hl.
    destruct (OK l c fs Hl) as (cd & Hc & _). unfold find_class. rewrite Hc. destruct (fine_classes c cd Hc) as (J & M1 & M2 & CE & own & CR & FM).
    erewrite run_eq by exact FM. cbn [bind_params conv bind].
    assert (LO : dlocs cd [("byteBuf"%string, (T0 "ByteBuf", JBuf))]).
    { split; [split; [reflexivity|cbn; intuition subst; reflexivity]|]. intros x Hx. cbn [assoc]. destruct (String.eqb_spec x "byteBuf") as [->|N]; [|reflexivity]. exfalso. apply (mem_in_false _ _ M1 Hx). }
    pose proof (ex_dstmts E P pr (vcalls P pr (S (S (S (S k)))) d) k stat (hdecode E d) Hk MK IH (fun h b => match d with O => eq_refl | S _ => eq_refl end) (typing_decode E flat_classes nodup_classes fine_decs d) (frame_decode E d) flat_classes nodup_classes fine_decs
      c cd l own CE Hc (mem_in_false _ _ M2) (c_dec cd) h b _ fs OK HB Hl (fine_decs c cd Hc) J LO CR) as W.
    destruct (hexec_dec (hdecode E d) (hnew E) (factory E c) l (c_dec cd) (h, b)) as [e [h' b']]. unfold set_loc. cbn [s_h s_b s_loc s_stat mk]. cbn [map List.rev List.app].
    change {| s_h := h; s_b := b; s_loc := _; s_stat := stat |} with (mk stat h b [("byteBuf"%string, (T0 "ByteBuf", JBuf))]).
    destruct e as [e|]; cbn [lands_d] in W; [destruct W as (L' & ->)|destruct W as (L' & -> & _)]; reflexivity.
  Qed.
End Decode.
