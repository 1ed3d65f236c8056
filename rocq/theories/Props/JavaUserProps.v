(* C90: messages of the library with bodies of classes that users write, run as Java. *)
From Coq Require Import ZArith List Bool String Ascii Lia.
From Verif.Model Require Import JavaPrim ByteBuf Checksum Ast Interp Factory Show Heap HeapOpen Open GenSse Library.
From Verif.Spec Require Import Bytes Buffers Wire Reading Layouts Access Sharing JavaState JavaRun JavaWorld JavaUser Open.
From Verif.Java Require Import Lex Syntax Source Sources Sem Init Program.
From Verif.Proofs Require Import BytesFacts BufFacts HeapFacts HeapCheck HeapTypes HeapEncTypes JavaSem JavaEncode JavaClasses JavaLibrary JavaRegistry JavaNames JavaEmbed JavaEmbedInit HeapOpenFacts CodecFacts JavaUser.
From Verif.Props Require Import Samples MessageProps HeapProps HeapMoreProps OpenProps TextProps JavaStaticProps JavaMessageProps JavaWorldProps.
Import ListNotations.
Open Scope Z_scope.
Open Scope list_scope.

(* ---- the static state of the larger program ---- *)
Theorem C90_running : forall ext f stat R W V h b t, running stat R W V -> inside ext f (at_rest h b stat) t -> exists own, s_stat t = own ++ ext /\ running own R W V.
Proof.
  intros ext f stat R W V h b t [AG SU] (_ & _ & _ & own & Q & F). exists own. split; [exact Q|]. split; [eapply agrees_named; eauto|exact SU].
Qed.

(* ---- encode of any object of the library or of a user ---- *)
Definition open_env (us : list body_class) (R : cache) (W : factories) : env := {| classes := with_users us; factory := factory (holding R W); checksum := checksum (holding R W) |}.
Lemma user_worlds U E c : option_map u_enc (users (user_world U E) c) = option_map lifted (U c). Proof. cbn. destruct (U c); reflexivity. Qed.
Lemma encode_open_runs P ext pr k d stat R W V us h l b L : enough k -> agrees stat R W V -> extends P -> foreign ext -> written_for P pr k (stat ++ ext) us ->
  heap_ok (with_users us) h -> small h -> okb b -> (exists c fs, nth_error h l = Some (CObj c fs)) ->
  vcalls P pr k d "encode"%string l [JBuf] {| s_h := h; s_b := b; s_loc := L; s_stat := stat ++ ext |}
  = (let '(e, h', b') := hencode_open (encode_of us) (holding R W) d h (HRef l) b in ends e JVoid {| s_h := h'; s_b := b'; s_loc := L; s_stat := stat ++ ext |}).
Proof.
  intros K Rn EX FO WF OK S OB H. destruct (enough_S k K) as (k' & -> & K').
  exact (java_encode_open P ext EX FO stat R W V Rn us (agrees_world stat R W V Rn) pr k' K' WF d h l b L OK S OB H).
Qed.
Lemma users_sane P ext stat us pr k : written_for P pr k (stat ++ ext) us -> forall c u fs b, encode_of us c = Some u -> okb b -> okb (snd (u fs b)).
Proof. intros WF c u fs b. unfold encode_of. destruct (find_user us c) as [x|] eqn:F; [|discriminate]. intros [= <-] OB. exact (wf_sane _ _ _ _ _ WF x fs b (proj1 (find_user_in us c x F)) OB). Qed.
Lemma shown_in h vs ts t : shows_all h vs ts -> In t ts -> exists v, In v vs /\ shows h v t.
Proof. induction 1 as [|v t' vs ts Sh SA IH]; intros I; [destruct I|]. destruct I as [->|I]; [exists v; cbn; auto|]. destruct (IH I) as (w & Iw & Sw). exists w. cbn. auto. Qed.
Lemma find_user_some us u : NoDup (map bc_name us) -> In u us -> find_user us (bc_name u) = Some u.
Proof.
  unfold find_user. induction us as [|x us IH]; intros N I; [destruct I|]. cbn in *. inversion N as [|y l Nx N']; subst. destruct (String.eqb_spec (bc_name x) (bc_name u)) as [Q|Q].
  - destruct I as [->|I]; [reflexivity|]. exfalso. apply Nx. rewrite Q. exact (List.in_map bc_name us u I).
  - destruct I as [->|I]; [congruence|auto].
Qed.
Lemma evolved_touched us R W k k' : cell_evolves (open_env us R W) k k' -> touched Y k k'.
Proof.
  intros H. apply (evolves_touched (holding R W) k k' eq_refl). unfold cell_evolves in *. destruct k as [c fs|vs], k' as [c' gs|ws]; [|exact H|exact H|exact H]. destruct H as [-> H]. split; [reflexivity|].
  assert (Q : replaced (open_env us R W) c = replaced (holding R W) c); [clear H|rewrite <- Q; exact H].
  destruct (find_class (holding R W) c) as [cd|] eqn:F.
  - pose proof (user_base R W us c cd F) as F2. unfold replaced. change (find_class (open_env us R W) c = Some cd) in F2. rewrite F, F2. reflexivity.
  - rewrite (replaced_user (holding R W) (open_env us R W) (user_rest R W us) c F). unfold replaced. rewrite F. reflexivity.
Qed.

(* whatever the objects refer to, encode comes to an end and leaves a heap of the same classes *)
Theorem C90_any_graph : forall P ext pr k d stat R W V us h l b, enough k -> agrees stat R W V -> extends P -> foreign ext -> written_for P pr k (stat ++ ext) us ->
  heap_ok (with_users us) h -> small h -> sane b -> Sharing.fits h (HRef l) TCodec ->
  exists e h1 b1, vcalls P pr k d "encode"%string l [JBuf] (at_rest h b (stat ++ ext)) = match e with None => Ret JVoid (at_rest h1 b1 (stat ++ ext)) | Some x => Exc x (at_rest h1 b1 (stat ++ ext)) end
  /\ heap_ok (with_users us) h1 /\ List.length h1 = List.length h /\ sane b1.
Proof.
  intros P ext pr k d stat R W V us h l b K Rn EX FO WF OK S OB F.
  assert (Hl : exists c fs, nth_error h l = Some (CObj c fs)) by exact F. unfold at_rest at 1. rewrite (encode_open_runs P ext pr k d stat R W V us h l b [] K Rn EX FO WF OK S OB Hl).
  assert (HE : classes (holding R W) = lib_classes) by reflexivity.
  pose proof (calm_open (holding R W) (open_env us R W) (encode_of us) (user_base R W us) (lib_fine_enc (holding R W) HE) d h (HRef l) b OK F) as CA.
  pose proof (still_open (holding R W) (open_env us R W) (encode_of us) (user_base R W us) (lib_fine_enc (holding R W) HE) d h (HRef l) b OK F) as ST.
  pose proof (okb_open (holding R W) (encode_of us) d (users_sane P ext stat us pr k WF) h (HRef l) b OB) as SB.
  destruct (hencode_open (encode_of us) (holding R W) d h (HRef l) b) as [[e h1] b1]. cbn [fst snd] in *. exists e, h1, b1. split; [destruct e; reflexivity|]. split; [apply CA|]. split; [apply ST|exact SB].
Qed.

(* the fields of the body hold numbers and strings *)
Lemma not_ours P pr k st R W us u : written_for P pr k st us -> In u us -> find_class (holding R W) (bc_name u) = None.
Proof. intros WF Iu. destruct (find_class (holding R W) (bc_name u)) as [cd|] eqn:F; [|reflexivity]. pose proof (wf_foreign _ _ _ _ _ WF u Iu) as KN. unfold known in KN. rewrite (lib_names_known _ _ F) in KN. discriminate KN. Qed.
Lemma body_flat P pr k st R W us u h l c fs A M bf kf B ufs v : written_for P pr k st us -> In u us -> heap_ok (with_users us) h -> shows h (HRef l) v ->
  object_of (holding R W) c (VObj c fs) = true -> find c Y = Some (A ++ M ++ (bf, WBody kf) :: B) -> call_set (holding R W) (VObj c fs) (setter bf) (VObj (bc_name u) ufs) = Some v -> forallb (fun fv => is_flat_val (snd fv)) ufs = true.
Proof.
  intros WF Iu OK Sh Ob FL Cs. set (E := holding R W) in *. set (E2 := open_env us R W). assert (HE : classes E = lib_classes) by reflexivity.
  destruct (set_body E c fs A M bf kf B _ v HE Ob FL Cs) as (Qv & Nf & Nd). pose proof (not_ours P pr k st R W us u WF Iu) as Fu. fold E in Fu.
  rewrite Qv in Sh. inversion Sh as [| | | | |l0 c0 hfs gs Hc Nm SA]; subst. assert (I : In (VObj (bc_name u) ufs) (map snd (set bf (VObj (bc_name u) ufs) fs))).
    { assert (Ib : In bf (map fst fs)) by (rewrite Nf, !map_app; apply in_or_app; right; apply in_or_app; right; left; reflexivity). clear - Ib. induction fs as [|[f x] fs IH]; [destruct Ib|]. cbn [set]. destruct (String.eqb_spec bf f) as [->|]; [left; reflexivity|]. right. apply IH. destruct Ib as [Q|Ib]; [cbn in Q; congruence|exact Ib]. }
    destruct (shown_in _ _ _ _ SA I) as (w & _ & Sw). pose proof (proj1 (shows_near E2 h) _ _ Sw) as Nr. inversion Nr as [| | | | |m c1 hus gs1 Hm NF]; subst.
    rewrite (replaced_user E E2 (user_rest R W us) _ Fu) in NF. rewrite <- (proj1 (flat_near E2 h _ hus ufs NF eq_refl)). destruct (OK m _ _ Hm) as (cd & Hc1 & FT).
    unfold with_users in Hc1. rewrite assoc_mid in Hc1. unfold find_class in Fu. rewrite HE in Fu. rewrite Fu, find_as_class, (find_user_some us u (wf_names _ _ _ _ _ WF) Iu) in Hc1. injection Hc1 as <-. exact (flat_fields h hus _ FT (wf_simple _ _ _ _ _ WF u Iu)).
Qed.

(* the body of a message is an object of a user's class: when the header has been written, the user's method is called; its bytes become the body, the length field says how many they are
   and the checksum covers them; if it throws, encode throws the same and has written no more.  No object but the message, no list and no static field is changed. *)
Theorem C90_user_body : forall P ext pr k d stat R W V us u h l c fs A M bf kf B ufs v b, enough k -> agrees stat R W V -> extends P -> foreign ext ->
  written_for P pr k (stat ++ ext) us -> In u us -> writes_on u -> heap_ok (with_users us) h -> small h -> shows h (HRef l) v ->
  object_of (holding R W) c (VObj c fs) = true -> find c Y = Some (A ++ M ++ (bf, WBody kf) :: B) -> framing A M B = true -> call_set (holding R W) (VObj c fs) (setter bf) (VObj (bc_name u) ufs) = Some v -> buf_wf b = true ->
  exists e h1 b1, vcalls P pr k d "encode"%string l [JBuf] (at_rest h b (stat ++ ext)) = match e with None => Ret JVoid (at_rest h1 b1 (stat ++ ext)) | Some x => Exc x (at_rest h1 b1 (stat ++ ext)) end
  /\ List.length h1 = List.length h /\ (forall m x x1, nth_error h m = Some x -> nth_error h1 m = Some x1 -> touched Y x x1)
  /\ match e with
     | None => exists body b0 b0' v1, at_body Y v A M b b0 /\ bc_encode u ufs b0 = (None, b0') /\ appended b0 body b0'
         /\ (let frame := bytes_of Y v A ++ length_bytes M (List.length body) ++ body in
             appended b (frame ++ bytes_of Y v1 B) b1 /\ buf_wf b1 = true
             /\ (forall sf n o alg, In (sf, WSum n o alg) B -> value sf v1 = match checksum (holding R W) alg with Some s => VInt (wrap 32 (s (readable b ++ frame))) | None => value sf v end)
             /\ (forall g, (forall n o alg, ~ In (g, WSum n o alg) B) -> (forall n o, ~ In (g, WLen n o) M) -> g <> bf -> value g v1 = value g v))
     | Some x => (exists b0, at_body Y v A M b b0 /\ bc_encode u ufs b0 = (Some x, b1))
         \/ (buf_wf b1 = true /\ (exists bs, appended b bs b1)
             /\ (x = NPE /\ (exists g w, In (g, w) A /\ complete Y (value g v) w = false) \/ x = IOOBE \/ x = SOE /\ ((d <= 1)%nat \/ exists g w, In (g, w) A /\ (d <= nesting (value g v))%nat)))
     end.
Proof.
  intros P ext pr k d stat R W V us u h l c fs A M bf kf B ufs v b K Rn EX FO WF Iu Wr OK S Sh Ob FL Fr Cs Hb. set (E := holding R W) in *. set (E2 := open_env us R W). assert (HE : classes E = lib_classes) by reflexivity.
  destruct (set_body E c fs A M bf kf B _ v HE Ob FL Cs) as (Qv & Nf & Nd).
  pose proof (not_ours P pr k (stat ++ ext) R W us u WF Iu) as Fu. fold E in Fu.
  assert (HU : encode_of us (bc_name u) = Some (bc_encode u)) by (unfold encode_of; rewrite (find_user_some us u (wf_names _ _ _ _ _ WF) Iu); reflexivity).
  assert (Hl : exists c' fs', nth_error h l = Some (CObj c' fs')) by (rewrite Qv in Sh; inversion Sh; subst; eauto).
  pose proof (body_flat P pr k (stat ++ ext) R W us u h l c fs A M bf kf B ufs v WF Iu OK Sh Ob FL Cs) as FLT.
  unfold at_rest at 1. rewrite (encode_open_runs P ext pr k d stat R W V us h l b [] K Rn EX FO WF OK S (okb_wf _ (proj1 (buf_wf_iff b) Hb)) Hl). fold E.
  pose proof (sim_open E E2 (encode_of us) (user_base R W us) (user_rest R W us) eq_refl (user_world (encode_of us) E) (user_worlds (encode_of us) E) (fun a => eq_refl) (lib_tidy E HE) d h (HRef l) v b (proj1 (shows_near E2 h) _ _ Sh)) as SM.
  destruct (hencode_open (encode_of us) E d h (HRef l) b) as [[e h1] b1]. destruct (encode_open (user_world (encode_of us) E) E d v b) as [[e2 v1] b2] eqn:EO. destruct SM as (<- & <- & EV & _).
  exists e, h1, b1. split; [destruct e; reflexivity|]. split; [|split].
  - destruct (Nat.lt_trichotomy (List.length h1) (List.length h)) as [L|[L|L]]; auto.
    + pose proof (EV (List.length h1)) as Q. destruct (nth_error h (List.length h1)) eqn:X; [|apply nth_error_None in X; lia]. destruct (nth_error h1 (List.length h1)) eqn:Z; [|contradiction]. apply nth_lt in Z. lia.
    + pose proof (EV (List.length h)) as Q. destruct (nth_error h1 (List.length h)) eqn:X; [|apply nth_error_None in X; lia]. destruct (nth_error h (List.length h)) eqn:Z; [|contradiction]. apply nth_lt in Z. lia.
  - intros m x x1 Hx Hx1. pose proof (EV m) as Q. rewrite Hx, Hx1 in Q. exact (evolved_touched us R W x x1 Q).
  - assert (Ap : appends (lifted (bc_encode u))).
    { intros gs q gs' q' Hq. unfold lifted. destruct (forallb _ gs); [|discriminate]. destruct (bc_encode u gs q) as [e' q1] eqn:Q. intros [= -> _ ->]. exact (Wr gs q q' Hq Q). }
    assert (CO : forall alg, Spec.Open.computes (user_world (encode_of us) E) E alg) by (intros alg; unfold Spec.Open.computes; cbn [user_world services]; destruct (checksum E alg); cbn; auto).
    pose proof (C70_user_body (user_world (encode_of us) E) E d c fs A M bf kf B (bc_name u) {| u_new := []; u_enc := lifted (bc_encode u); u_dec := fun fs b => (Some TYPE, fs, b) |} ufs v b e v1 b1 HE Ob FL Fr Fu ltac:(cbn [user_world users]; rewrite HU; reflexivity) Ap CO Cs Hb EO) as Z.
    cbn [u_enc] in Z. unfold lifted in Z. rewrite FLT in Z. destruct e as [x|].
    + destruct Z as [(b0 & ufs' & AB & Q & _)|Z]; [left|right; exact Z]. exists b0. split; [exact AB|]. destruct (bc_encode u ufs b0) as [e' q]. injection Q as -> _ ->. reflexivity.
    + destruct Z as (body & ufs' & b0 & b0' & AB & Q & AP & Z1 & Z2 & _ & _ & Z3 & Z4). exists body, b0, b0', v1. split; [exact AB|]. split; [destruct (bc_encode u ufs b0) as [e' q]; injection Q as -> _ ->; reflexivity|]. split; [exact AP|]. cbv zeta. split; [exact Z1|]. split; [exact Z2|]. split; [exact Z3|]. intros g G1 G2 G3. apply Z4; auto.
Qed.

(* the classes of the library are initialised as ever in a larger program: what the theorems ask of the static state holds then *)
Theorem C90_start : forall P ext pr k d H b, extends P -> foreign ext -> exists own,
  over (init_class P pr (vcalls P pr k d) 304) (init_order lib_program) (at_rest H b (start_stat lib_program ++ ext)) = Ret tt (at_rest H b (own ++ ext))
  /\ running own initial_cache lib_factories (reverse_map sse_initial).
Proof.
  intros P ext pr k d H b EX FO. destruct (C88_start P ext pr k d H b EX FO) as (stat & own & Q & Rn & I). destruct (C90_running ext [] stat _ _ _ _ _ _ Rn I) as (own' & Q' & Rn').
  cbn [at_rest s_stat] in Q'. apply app_inv_tail in Q'. subst own'. eauto.
Qed.

(* ---- concrete cases ---- *)
(* class Ping implements BinaryCodec { int id; short kind; void encode(ByteBuf byteBuf) { byteBuf.writeInt(this.id); byteBuf.writeShortLE(this.kind); } } *)
Definition ping_class : jclass :=
  Class ["public"%string] "class" "Ping" [] [T1 "BinaryCodec"] []
    [MField ["private"%string] (T1 "int") "id" None; MField ["private"%string] (T1 "short") "kind" None;
     MMethod [("Override"%string, None)] ["public"%string] [] (T1 "void") "encode" [(T1 "ByteBuf", "byteBuf"%string)]
       (Some [SExpr (ECall (EName "byteBuf") "writeInt" [EField EThis "id"]); SExpr (ECall (EName "byteBuf") "writeShortLE" [EField EThis "kind"])])].
Definition ping : body_class :=
  {| bc_name := "user.Ping"; bc_fields := [("id", TInt); ("kind", TShort)]%string;
     bc_encode := fun fs b => match get "id" fs, get "kind" fs with
                              | VInt i, VInt n => match write_int BE 4 i b with (Some e, b') => (Some e, b') | (None, b') => write_int LE 2 n b' end
                              | _, _ => (Some NPE, b)
                              end |}.
Lemma ping_write P pr vcall call j l c h b stat f n o t z fs : width n -> nth_error h l = Some (CObj c fs) -> field_ty P c f = Some t -> hget f fs = HInt z ->
  let s b := {| s_h := h; s_b := b; s_loc := [("byteBuf"%string, (T1 "ByteBuf", JBuf))]; s_stat := stat |} in
  exec P pr vcall call j {| x_this := Some l; x_class := c |} (SExpr (ECall (EName "byteBuf") ("write" ++ int_name n o) [EField EThis f])) (s b)
  = (let '(e, b') := write_int o n z b in ends e None (s b')).
Proof.
  intros Hn Hl Ht Hz s. rewrite ex_expr, ev_call. cbn [eval]. erewrite name_loc by reflexivity. cbn [bind]. rewrite args_cons, ev_field. cbn [eval x_this bind field_val]. cbn [s s_h]. rewrite Hl, Ht. unfold Heap.field. rewrite Hl, Hz. cbn [bind]. rewrite args_nil. cbn [bind dispatch]. rewrite buf_write by exact Hn. cbn [num s_b s]. destruct (write_int o n z b) as [[e|] b']; reflexivity.
Qed.
Lemma ping_like P pr k stat : find_method P "user.Ping" "encode" 1 = Some ([(Sem.T1 "ByteBuf", "byteBuf"%string)], [SExpr (ECall (EName "byteBuf") "writeInt" [EField EThis "id"]); SExpr (ECall (EName "byteBuf") "writeShortLE" [EField EThis "kind"])]) ->
  field_ty P "user.Ping" "id" = Some (Sem.T1 "int") -> field_ty P "user.Ping" "kind" = Some (Sem.T1 "short") -> written_for P pr (S k) stat [ping].
Proof.
  intros FM FI FK. split.
  - repeat constructor. intros [].
  - intros u [<-|[]]. reflexivity.
  - intros u [<-|[]]. reflexivity.
  - intros u fs b [<-|[]] OB. cbn [bc_encode ping]. destruct (get "id" fs) as [|i| | | |]; try exact OB. destruct (get "kind" fs) as [|n| | | |]; try exact OB.
    pose proof (okb_int BE 4 i b OB) as Q. destruct (write_int BE 4 i b) as [[e|] b']; [exact Q|]. apply (okb_int LE 2 n b' Q).
  - intros u d h l fs b L [<-|[]] OK OB Hl. cbn [bc_name ping] in Hl. destruct (OK l _ _ Hl) as (cd & Hc & F).
    assert (Q : assoc "user.Ping"%string (with_users [ping]) = Some (snd (as_class ping))) by (vm_compute; reflexivity). rewrite Q in Hc. injection Hc as <-. cbn [as_class snd c_fields ping bc_fields] in F. clear Q.
    inversion F as [|[f1 x1] y1 fs1 ys1 [N1 T1] F1]; subst. inversion F1 as [|[f2 x2] y2 fs2 ys2 [N2 T2] F2]; subst. inversion F2; subst. cbn [fst snd] in *. subst f1 f2.
    destruct x1; try contradiction. destruct x2; try contradiction. clear F F1 F2 T1 T2.
    cbn [vcalls s_h]. rewrite Hl. erewrite run_eq by exact FM. cbn [bind_params conv bind].
    unfold set_loc. cbn [s_h s_b s_loc s_stat]. rewrite all_cons. change "writeInt"%string with ("write" ++ int_name 4 BE)%string. change "writeShortLE"%string with ("write" ++ int_name 2 LE)%string.
    erewrite ping_write; [|right; right; left; reflexivity|exact Hl|exact FI|reflexivity]. cbn [bc_encode ping own_fields map flat_val fst snd get String.eqb Ascii.eqb Bool.eqb].
    destruct (write_int BE 4 z b) as [[e|] b']; cbn [ends seq_st bind]; [reflexivity|]. rewrite all_cons.
    erewrite ping_write; [|right; left; reflexivity|exact Hl|exact FK|reflexivity].
    destruct (write_int LE 2 z0 b') as [[e|] b2]; cbn [ends seq_st bind]; reflexivity.
Qed.
Lemma ping_java P pr k stat : assoc "user.Ping"%string P = Some ping_class -> written_for P pr (S k) stat [ping].
Proof. intros AP. apply ping_like; [unfold find_method|unfold field_ty|unfold field_ty]; rewrite AP; reflexivity. Qed.
Lemma ping_writes : writes_on ping.
Proof.
  intros fs b b' Hb H. cbn [bc_encode ping] in H. destruct (get "id" fs) as [|i| | | |]; try discriminate H. destruct (get "kind" fs) as [|n| | | |]; try discriminate H. apply buf_wf_iff in Hb.
  pose proof (wrote_int BE 4 i b Hb) as Q1. destruct (write_int BE 4 i b) as [[e|] b1]; [discriminate H|]. destruct Q1 as [A1 W1]. pose proof (wrote_int LE 2 n b1 W1) as Q2. rewrite H in Q2. destruct Q2 as [A2 W2].
  split; [apply buf_wf_iff; exact W2|]. eexists. eapply appended_trans; eassumption.
Qed.
Definition ping_program : program := [("user.Ping"%string, ping_class)] ++ lib_program.
Definition ping_ufs : list (string * val) := [("id", VInt 258); ("kind", VInt (-2))]%string.
Definition root_fields : list (string * val) := match build "sample.RootPacket" [("msgType", VInt 77); ("payloadLen", VInt 1); ("checksum", VInt 99)]%string with VObj _ fs => fs | _ => [] end.
Definition root_head : layout := [("msgType", WInt 2 LE)]%string.
Definition root_len : layout := [("payloadLen", WLen 4 LE)]%string.
Definition root_tail : layout := [("checksum", WSum 4 LE "CRC32")]%string.
Definition ping_msg : val := VObj "sample.RootPacket" (set "payload" (VObj "user.Ping" ping_ufs) root_fields).
Definition ping_heap : heap := [CObj "sample.RootPacket" [("msgType", HInt 77); ("payloadLen", HInt 1); ("payload", HRef 1); ("checksum", HInt 99)]; CObj "user.Ping" [("id", HInt 258); ("kind", HInt (-2))]]%string.
Example C90_meets : extends ping_program /\ foreign [] /\ assoc "user.Ping"%string ping_program = Some ping_class /\ In ping [ping] /\ writes_on ping
  /\ heap_ok (with_users [ping]) ping_heap /\ small ping_heap /\ shows ping_heap (HRef 0) ping_msg
  /\ object_of (holding initial_cache lib_factories) "sample.RootPacket" (VObj "sample.RootPacket" root_fields) = true
  /\ find "sample.RootPacket" Y = Some (root_head ++ root_len ++ ("payload"%string, WBody "msgType") :: root_tail) /\ framing root_head root_len root_tail = true
  /\ call_set (holding initial_cache lib_factories) (VObj "sample.RootPacket" root_fields) (setter "payload") (VObj (bc_name ping) ping_ufs) = Some ping_msg /\ buf_wf empty_buf = true
  /\ (exists k stat, enough k /\ running stat initial_cache lib_factories (reverse_map sse_initial) /\ forall pr, written_for ping_program pr k (stat ++ []) [ping])
  /\ (let '(e, h1, b1) := hencode_open (encode_of [ping]) (holding initial_cache lib_factories) 2 ping_heap (HRef 0) empty_buf in
      e = None /\ readable b1 = [77;0; 6;0;0;0; 0;0;1;2;254;255; 131;144;2;196] /\ nth_error h1 1 = nth_error ping_heap 1).
Proof.
  assert (EX : extends ping_program) by (apply C88_extends; constructor; [reflexivity|constructor]). assert (FO : foreign []) by (apply C88_foreign; constructor).
  split; [exact EX|]. split; [exact FO|]. split; [reflexivity|]. split; [left; reflexivity|]. split; [exact ping_writes|].
  split.
  { intros l c fs Hl. destruct l as [|[|l]]; cbn in Hl; [injection Hl as <- <-|injection Hl as <- <-|destruct l; discriminate Hl]; (eexists; split; [vm_compute; reflexivity|]); cbn [c_fields]; repeat (constructor; [cbn; split; [reflexivity|]; try lia; try (eexists; eexists; reflexivity)|]); constructor. }
  split. { intros l vs Hl. destruct l as [|[|l]]; cbn in Hl; try discriminate Hl. destruct l; discriminate Hl. }
  split. { unfold ping_msg. eapply shows_obj; [reflexivity|vm_compute; reflexivity|]. vm_compute. repeat constructor. eapply shows_obj; [reflexivity|reflexivity|]. repeat constructor. }
  split; [vm_compute; reflexivity|]. split; [vm_compute; reflexivity|]. split; [vm_compute; reflexivity|]. split; [vm_compute; reflexivity|]. split; [reflexivity|]. split.
  - destruct C74_meets as (_ & _ & _ & _ & _ & K). revert K. generalize (Z.to_nat (2 ^ 31 + 4)). intros k K. destruct (C90_start ping_program [] some_printers 9 9 [] empty_buf EX FO) as (own & _ & Rn).
    exists k, own. split; [exact K|]. split; [exact Rn|]. intros pr. destruct (enough_S k K) as (k' & -> & _). apply ping_java. reflexivity.
  - vm_compute. repeat split.
Qed.

Print Assumptions C90_running.
Print Assumptions C90_any_graph.
Print Assumptions C90_user_body.
Print Assumptions C90_start.
