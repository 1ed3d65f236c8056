(* C91: classes that users write, registered with a factory of the library: decode makes objects of them and calls their methods, as Java. *)
From Coq Require Import ZArith List Bool String Ascii Lia.
From Verif.Model Require Import JavaPrim ByteBuf Checksum Ast Interp Factory Show Heap HeapOpen Open GenSse Library.
From Verif.Java Require Import Lex Syntax Source Sources Sem Init Program FilesSample.
From Verif.Proofs Require Import BytesFacts BufFacts DecodeFacts HeapFacts HeapFrame HeapEq HeapOwn HeapCheck HeapTypes HeapEncTypes DecodeInv JavaSem JavaEncode JavaDecode JavaClasses JavaLibrary RegistryFacts JavaState JavaRegistry JavaFactories JavaNames JavaEmbed JavaEmbedInit JavaBitmaps HeapOpenFacts CodecFacts JavaSseRegister.
From Verif.Spec Require Import Bytes Buffers Wire Reading Layouts Access Sharing JavaState JavaRun JavaWorld JavaUser Open.
From Verif.Proofs Require Import JavaUser.
From Verif.Props Require Import Samples MessageProps HeapProps HeapMoreProps OpenProps TextProps JavaStaticProps JavaMessageProps JavaWorldProps JavaUserProps.
Import ListNotations.
Open Scope Z_scope.
Open Scope list_scope.

(* ---- register ---- *)
Lemma same_place f h H H' : heap_in f h H -> heap_in f h H' -> List.length H' = List.length H -> (forall m, (m < List.length H)%nat -> ~ In m f -> nth_error H' m = nth_error H m) -> H' = H.
Proof.
  intros (Le & ND & A) (_ & _ & B) Q N. assert (X : forall m, nth_error H' m = nth_error H m).
  { intros m. destruct (in_dec Nat.eq_dec m f) as [I|I].
    - apply In_nth_error in I as (l & I). destruct (A l m I) as (a & x & Ha & Hx & C1). destruct (B l m I) as (a' & y & Ha' & Hy & C2). rewrite Ha in Ha'. injection Ha' as <-. rewrite Hx, Hy. f_equal.
      assert (V : forall v w w', hval_in f v w -> hval_in f v w' -> w' = w) by (intros v w w' V1 V2; destruct v, w, w'; cbn in *; try contradiction; try congruence).
      destruct a as [c fs|vs], x as [c1 gs|ws], y as [c2 ks|us]; cbn in C1, C2; try contradiction.
      + destruct C1 as (-> & _ & C1), C2 as (-> & _ & C2). f_equal. clear - V C1 C2. revert ks C2. induction C1 as [|[a v] [a1 v1] fs gs [P1 P2] _ IH]; intros ks C2; inversion C2 as [|? [a2 v2] ? ? [P3 P4] C3]; subst; [reflexivity|]. cbn [fst snd] in *. rewrite (IH _ C3). f_equal. f_equal; [congruence|eapply V; eauto].
      + f_equal. clear - V C1 C2. revert us C2. induction C1 as [|v v1 fs gs P _ IH]; intros ks C2; inversion C2 as [|? v2 ? ? P2 C3]; subst; [reflexivity|]. rewrite (IH _ C3). f_equal. eapply V; eauto.
    - destruct (Nat.lt_ge_cases m (List.length H)) as [L|L]; [apply N; auto|]. rewrite (proj2 (nth_error_None H m) L). apply nth_error_None. lia. }
  clear - X. revert H X. induction H' as [|a H' IH]; intros [|b H] X; [reflexivity|specialize (X O); discriminate X|specialize (X O); discriminate X|]. pose proof (X O) as Y0. injection Y0 as ->. f_equal. apply IH. intros m. exact (X (S m)).
Qed.
Lemma place_known sc : factory_like sc -> known (map_place sc) = true.
Proof. intros F. pose proof (factory_there sc (maker sc F) (proj2 (proj2 F))) as T. apply name_is_known. exact (proj1 (library_class _ _ T)). Qed.
(* Factory.register(key, C::new) with any class C, in the larger program: the factory has C under that key, and nothing else is different *)
Theorem C91_register : forall P ext pr k d f stat R W V sc es x y c h b t, extends P -> foreign ext -> agrees stat R W V -> factory_like sc -> sc_form sc = FEnum es -> hkey_of x = Some y -> inside ext f (at_rest h b stat) t ->
  exists stat' own', run P pr (vcalls P pr (S k) d) (S k) None (map_place sc) "register" [JT (key_type_of sc) x; JSup c] t = Ret JVoid (at_rest (s_h t) (s_b t) (own' ++ ext))
  /\ inside ext f (at_rest h b stat') (at_rest (s_h t) (s_b t) (own' ++ ext)) /\ agrees own' R (on_factory W (c_name (sc_def sc)) (fun M => register M y c)) V.
Proof.
  intros P ext pr k d f stat R W V sc es x y c h b t EX FO AG F Fm Hx I. pose proof F as (_ & _ & Own).
  destruct (java_register pr (vcalls lib_program pr (S k) d) stat R W V AG sc (maker sc F) Own h b [] k es (key_type_of sc) x y c Fm Hx) as (stat' & E & H).
  assert (A : Forall2 (jval_in f) [JT (key_type_of sc) x; JSup c] [JT (key_type_of sc) x; JSup c]).
  { constructor; [apply in_t; destruct x; try discriminate Hx; reflexivity|]. constructor; [apply in_sup|constructor]. }
  pose proof (C88_static P ext pr (S k) d f (map_place sc) "register" _ _ _ t EX FO I (place_known sc F) A) as Q. unfold invoke_on, at_rest in Q. rewrite E in Q. destruct Q as (f' & a' & t1 & Q & G & I1 & Ja). inversion Ja; subst.
  pose proof I as (HI & HB & HL & _). pose proof I1 as (HI1 & HB1 & HL1 & own' & Qs & FS). cbn [at_rest s_h s_b s_loc] in HI, HB, HL, HI1, HB1, HL1. destruct G as (G1 & G2 & G3).
  assert (LEN : List.length (s_h t1) = List.length (s_h t)).
  { pose proof (proj1 HI) as L1. pose proof (proj1 HI1) as L2. rewrite G1, app_length, seq_length, <- L1 in L2. lia. }
  assert (Qf : f' = f) by (rewrite G1, LEN, Nat.sub_diag; cbn; apply app_nil_r). clear G1. subst f'.
  pose proof (same_place f h _ _ HI HI1 LEN G3) as SH. inversion HL1 as [HL1'|]. destruct t1 as [h1 b1 L1 st1]. cbn [s_h s_b s_loc s_stat] in *. subst h1 L1 st1 b1. rewrite <- HB in *. exists stat', own'. split; [exact Q|]. split; [exact I1|]. cbn [s_stat] in FS. eapply agrees_named; eauto.
Qed.
(* SseBinary's factory: register(C.class, type, C::new) with any class C, and getMsgType(C.class) *)
Theorem C91_register_sse : forall P ext pr k d f stat R W V z c clazz h b t, extends P -> agrees stat R W V -> inside ext f (at_rest h b stat) t ->
  exists stat' own' V', run P pr (vcalls P pr (S k) d) (S k) None sse_place "register" [JCls clazz; JT (T1 "Integer") (HInt z); JSup c] t = Ret JVoid (at_rest (s_h t) (s_b t) (own' ++ ext))
  /\ inside ext f (at_rest h b stat') (at_rest (s_h t) (s_b t) (own' ++ ext)) /\ agrees own' R (on_factory W sse_owner (fun M => register M (KInt z) c)) V'
  /\ forall x, assoc x V' = if String.eqb x clazz then Some z else assoc x V.
Proof.
  intros P ext pr k d f stat R W V z c clazz h b t EX AG I. destruct I as (HI & HB & HL & own & Qs & FS). cbn [at_rest s_h s_b s_loc s_stat] in HI, HB, HL, FS.
  pose proof (agrees_named f stat own R W V FS AG) as AO. destruct (sse_agrees stat R W V clazz z c AG) as (m & mr & Qm & Qr & _). destruct (sse_agrees own R W V clazz z c AO) as (m' & mr' & Qm' & Qr' & AO').
  inversion HL as [HL'|]. destruct t as [h1 b1 L1 st1]. cbn [s_h s_b s_loc s_stat] in *. subst L1 st1 b1.
  exists (put_assoc reverse_key (JMap (m_set mr (MCls clazz) (Some (JT (T1 "Integer") (HInt z))))) (put_assoc body_key (JMap (m_set m (MKey (KInt z)) (Some (JSup c)))) stat)), (put_assoc reverse_key (JMap (m_set mr' (MCls clazz) (Some (JT (T1 "Integer") (HInt z))))) (put_assoc body_key (JMap (m_set m' (MKey (KInt z)) (Some (JSup c)))) own)), (r_put V clazz z).
  split; [|split; [|split]].
  - rewrite (sse_register_runs P EX pr _ (own ++ ext) m' mr' (assoc_app _ _ _ _ Qm') (assoc_app _ _ _ _ Qr')). unfold at_rest. rewrite put_app by (eapply in_names; exact Qm'). rewrite put_app; [reflexivity|]. eapply in_names. rewrite put_other by (exact (fun Q => keys_apart (eq_sym Q))). exact Qr'.
  - split; [exact HI|]. split; [reflexivity|]. split; [exact HL|]. eexists. split; [reflexivity|]. cbn [at_rest s_stat]. apply put_named; [apply set_in; [eapply named_at; eauto|apply in_t; reflexivity]|]. apply put_named; [|exact FS]. apply set_in; [eapply named_at; eauto|apply in_sup].
  - exact AO'.
  - intros x. apply assoc_r_put.
Qed.
Theorem C91_sse_type : forall P ext pr k d f stat R W V clazz h b t, extends P -> agrees stat R W V -> inside ext f (at_rest h b stat) t ->
  exists v, run P pr (vcalls P pr (S k) d) (S k) None sse_place "getMsgType" [JCls clazz] t = Ret v t /\ match assoc clazz V with Some z => exists q, v = JT q (HInt z) | None => exists q, v = JT q HNull end.
Proof.
  intros P ext pr k d f stat R W V clazz h b t EX AG I. destruct I as (_ & _ & _ & own & Qs & FS). cbn [at_rest s_stat] in FS. pose proof (agrees_named f stat own R W V FS AG) as AO. destruct (ag_reverse _ _ _ _ AO) as (mr & Qr & Hr).
  destruct t as [h1 b1 L1 st1]. cbn [s_stat] in Qs. subst st1. rewrite (sse_type_runs P EX pr _ (own ++ ext) mr (assoc_app _ _ _ _ Qr)). eexists. split; [reflexivity|]. rewrite Hr. destruct (assoc clazz V); cbn [option_map or_null jnull result]; eexists; reflexivity.
Qed.
Theorem C91_supplied : forall us W o x u, supplied us W -> In u us -> supplied us (on_factory W o (fun M => register M x (bc_name (cc_body u)))).
Proof.
  intros us W o x u H Iu o' k' c'. rewrite lookup_on. destruct (String.eqb o' o); [|apply H]. destruct (assoc o W) as [M|] eqn:Q; [|discriminate]. unfold register. rewrite f_get_put. destruct (key_eqb k' x).
  - intros [= <-]. unfold with_users. rewrite assoc_mid. destruct (assoc _ lib_classes); [discriminate|]. rewrite find_as_class. destruct (find_user (bodies us) (bc_name (cc_body u))) eqn:F; [discriminate|]. exfalso.
    pose proof (List.find_none _ _ F (cc_body u) (List.in_map cc_body us u Iu)) as X. cbn in X. rewrite String.eqb_refl in X. discriminate X.
  - intros E. apply (H o k'). unfold lookup_factory. now rewrite Q.
Qed.
Lemma running_supplied us stat R W V : running stat R W V -> supplied us W.
Proof. intros [_ SU] o kk c H. pose proof (SU o kk c H) as N. unfold with_users. rewrite assoc_mid. destruct (assoc c lib_classes); [discriminate|contradiction]. Qed.

(* ---- decode into any object of the library or of a user ---- *)
Lemma decode_open_runs P ext pr k d stat R W V us h l b L : enough k -> agrees stat R W V -> extends P -> foreign ext -> read_for P pr k (stat ++ ext) us -> supplied us W ->
  heap_ok (with_users (bodies us)) h -> bk b -> (exists c fs, nth_error h l = Some (CObj c fs)) ->
  vcalls P pr k d "decode"%string l [JBuf] {| s_h := h; s_b := b; s_loc := L; s_stat := stat ++ ext |}
  = (let '(e, h', b') := hdecode_open (decode_of us) (holding R W) (open_env (bodies us) R W) d h (HRef l) b in ends e JVoid {| s_h := h'; s_b := b'; s_loc := L; s_stat := stat ++ ext |}).
Proof.
  intros K AG EX FO RF SU OK HB H. destruct (enough_S k K) as (k' & -> & K').
  exact (java_decode_open P ext EX FO stat R W us (agrees_world stat R W V AG) pr k' K' RF SU d h l b L OK HB H).
Qed.
Theorem C91_any_graph : forall P ext pr k d stat R W V us h l b, enough k -> agrees stat R W V -> extends P -> foreign ext -> read_for P pr k (stat ++ ext) us -> supplied us W ->
  heap_ok (with_users (bodies us)) h -> intact b -> Sharing.fits h (HRef l) TCodec ->
  exists e h1 b1, vcalls P pr k d "decode"%string l [JBuf] (at_rest h b (stat ++ ext)) = match e with None => Ret JVoid (at_rest h1 b1 (stat ++ ext)) | Some x => Exc x (at_rest h1 b1 (stat ++ ext)) end
  /\ heap_ok (with_users (bodies us)) h1 /\ intact b1
  /\ (forall m q, nth_error h m = Some q -> exists q', nth_error h1 m = Some q' /\ preserved q q' /\ (~ reach h (HRef l) m -> q' = q))
  /\ (forall m, reach h1 (HRef l) m -> reach h (HRef l) m \/ (List.length h <= m)%nat).
Proof.
  intros P ext pr k d stat R W V us h l b K AG EX FO RF SU OK HB F. apply intact_bk in HB. destruct (enough_S k K) as (k' & Qk & K').
  assert (Hl : exists c fs, nth_error h l = Some (CObj c fs)) by exact F. unfold at_rest at 1. rewrite (decode_open_runs P ext pr k d stat R W V us h l b [] K AG EX FO RF SU OK HB Hl).
  subst k. pose proof (typing_open (holding R W) (open_env (bodies us) R W) (decode_of us) (user_base R W (bodies us)) (users_typed P ext stat R W us pr k' RF) (flat_open P ext stat R W us pr k' RF) (nodup_open P ext stat R W us pr k' RF) (fine_open R W us) d h (HRef l) b OK HB) as TY.
  pose (Pr := fun m => reach h (HRef l) m \/ (List.length h <= m)%nat).
  assert (M : moves Pr h (snd (fst (hdecode_open (decode_of us) (holding R W) (open_env (bodies us) R W) d h (HRef l) b)))).
  { apply frame_open.
    - intros m q i Pm Hm Hi. destruct Pm as [Rm|Lm]; [left; eapply reach_points; eauto|]. apply nth_lt in Hm. lia.
    - intros m Lm. right. exact Lm.
    - intros m [= <-]. left. constructor. }
  destruct (hdecode_open (decode_of us) (holding R W) (open_env (bodies us) R W) d h (HRef l) b) as [[e h1] b1]. cbn [fst snd] in *. destruct TY as [T1 T2]. exists e, h1, b1. split; [destruct e; reflexivity|]. split; [exact T1|]. split; [apply intact_bk, T2|]. split.
  - intros m q Hm. destruct (mv_keeps _ _ _ M m q Hm) as (q' & Hq & Pq). exists q'. split; [exact Hq|]. split; [exact Pq|]. intros N. pose proof (mv_off _ _ _ M m) as O. rewrite O in Hq; [congruence|]. intros [Rm|L]; [contradiction|]. apply nth_lt in Hm. lia.
  - intros m Rm. apply (closed_reach _ h1 (HRef l) m (mv_closed _ _ _ M)); [|exact Rm]. intros j [= ->]. left. constructor.
Qed.

(* ---- a message whose type is registered with a user's class ---- *)
(* new C() *)
Definition fresh_fields (u : body_class) : list (string * val) := map (fun ft => (fst ft, default_val (snd ft))) (bc_fields u).
Definition codec_world (us : list user_codec) (E : env) : Open.world :=
  {| users := fun c => option_map (fun u => {| u_new := fresh_fields (cc_body u); u_enc := lifted (bc_encode (cc_body u)); u_dec := lifted_dec (cc_decode u) |}) (find_codec us c);
     services := fun a => option_map (fun g b => (inr (g (readable b)), b)) (checksum E a) |}.
Lemma codec_enc us E c : option_map u_enc (users (codec_world us E) c) = option_map lifted (encode_of (bodies us) c).
Proof. cbn [codec_world users]. unfold encode_of. rewrite find_bodies. destruct (find_codec us c); reflexivity. Qed.
Lemma codec_dec us E c : option_map u_dec (users (codec_world us E) c) = option_map lifted_dec (decode_of us c).
Proof. cbn [codec_world users]. unfold decode_of. destruct (find_codec us c); reflexivity. Qed.
Lemma codec_new us R W c : new_open (codec_world us (holding R W)) (holding R W) c = new_obj (open_env (bodies us) R W) c.
Proof.
  unfold new_open, new_obj. destruct (find_class (holding R W) c) as [cd|] eqn:F.
  - assert (Q : find_class (open_env (bodies us) R W) c = Some cd) by exact (user_base R W (bodies us) c cd F). rewrite Q. reflexivity.
  - assert (Q : find_class (open_env (bodies us) R W) c = option_map (fun u => snd (as_class (cc_body u))) (find_codec us c)).
    { unfold find_class in *. cbn [open_env classes]. change (assoc c lib_classes = None) in F. unfold with_users. rewrite assoc_mid, F, find_as_class, find_bodies. destruct (find_codec us c); reflexivity. }
    rewrite Q. cbn [codec_world users]. destruct (find_codec us c) as [u|]; reflexivity.
Qed.
Lemma find_codec_some us u : NoDup (map bc_name (bodies us)) -> In u us -> find_codec us (bc_name (cc_body u)) = Some u.
Proof.
  unfold find_codec. induction us as [|x us IH]; intros N I; [destruct I|]. cbn in *. inversion N as [|y l Nx N']; subst. destruct (String.eqb_spec (bc_name (cc_body x)) (bc_name (cc_body u))) as [Q|Q].
  - destruct I as [->|I]; [reflexivity|]. exfalso. apply Nx. rewrite Q. unfold bodies. rewrite map_map. exact (List.in_map (fun u => bc_name (cc_body u)) us u I).
  - destruct I as [->|I]; [congruence|auto].
Qed.
Lemma fresh_typed fts : forallb (fun ft : string * ftype => simple_type (snd ft)) fts = true -> typed_values fts (map (fun ft => (fst ft, default_val (snd ft))) fts).
Proof.
  unfold typed_values. induction fts as [|[f t] fts IH]; cbn; intros H; [constructor|]. apply andb_true_iff in H. destruct H as [H1 H2]. constructor; [|apply IH, H2]. cbn. split; [reflexivity|].
  destruct t; try discriminate H1; cbn; split; auto; try (split; reflexivity); try lia.
Qed.
Lemma decode_fresh P pr k st us u b : read_for P pr k st us -> In u us -> intact b -> lifted_dec (cc_decode u) (fresh_fields (cc_body u)) b = cc_decode u (fresh_fields (cc_body u)) b.
Proof.
  intros RF Iu Hb. pose proof (fresh_typed _ (wf_simple _ _ _ _ _ (rf_written _ _ _ _ _ RF) (cc_body u) (List.in_map cc_body us u Iu))) as T. fold (fresh_fields (cc_body u)) in T. pose proof (rf_typed _ _ _ _ _ RF u _ b Iu Hb T) as Q.
  unfold lifted_dec. rewrite (proj1 (typed_flat _ _ T)). destruct (cc_decode u (fresh_fields (cc_body u)) b) as [[e gs] b']. destruct Q as [Q _]. rewrite (typed_same _ _ _ T Q). reflexivity.
Qed.
Lemma intact_after b n : buf_wf b = true -> intact (set_ridx b n).
Proof. intros H. apply intact_bk. destruct (bk_wf b (proj1 (buf_wf_iff b) H)). constructor; auto. Qed.

(* decode of bytes that begin with a header whose tag a user's class is registered with: a new object of that class becomes the body, its decode is called on the
   bytes after the header and the length field, and the checksum is read from where that leaves off.  The object decoded into must have no part that other objects refer to;
   then nothing but it is changed, and what it consists of afterwards was its own or is new. *)
Theorem C91_user_body_decoded : forall P ext pr k d stat R W V us u h l fp c fs os y A M bf kf w B t r lb rest, enough k -> agrees stat R W V -> extends P -> foreign ext ->
  read_for P pr k (stat ++ ext) us -> supplied us W -> In u us -> heap_ok (with_users (bodies us)) h -> owns h (HRef l) (VObj c (set bf y os)) fp ->
  object_of (holding R W) c (VObj c fs) = true -> object_of (holding R W) c (VObj c os) = true -> find c Y = Some (A ++ M ++ (bf, WBody kf) :: B) -> framing A M B = true ->
  (forall g w', In (g, w') A -> parsable Y (factory (holding R W)) (get g fs) w' = true /\ (nesting (get g fs) <= S d)%nat) ->
  In (kf, w) A -> tag_of (get kf fs) w = Some t -> lookup_factory W c t = Some (bc_name (cc_body u)) ->
  buf_wf r = true -> List.length lb = List.length (Open.blank M) -> readable r = bytes_of Y (VObj c fs) A ++ lb ++ rest ->
  exists e h1 r1 v1 fp1, vcalls P pr k (S (S d)) "decode"%string l [JBuf] (at_rest h r (stat ++ ext)) = match e with None => Ret JVoid (at_rest h1 r1 (stat ++ ext)) | Some x => Exc x (at_rest h1 r1 (stat ++ ext)) end
  /\ owns h1 (HRef l) v1 fp1 /\ unchanged h h1 fp /\ (forall m, In m fp1 -> In m fp \/ (List.length h <= m)%nat)
  /\ exists r0 e2 ufs r2, advanced r (List.length (bytes_of Y (VObj c fs) A) + List.length lb) r0 /\ readable r0 = rest /\ cc_decode u (fresh_fields (cc_body u)) r0 = (e2, ufs, r2)
    /\ value bf v1 = VObj (bc_name (cc_body u)) ufs
    /\ (forall g w', In (g, w') A -> value g v1 = absorb Y (get g os) (get g fs) w')
    /\ (forall lf n o, In (lf, WLen n o) M -> value lf v1 = VInt (get_int o lb))
    /\ match e2, B with
       | Some e2, _ => e = Some e2 /\ r1 = r2 /\ forall sf w', In (sf, w') B -> value sf v1 = get sf os
       | None, [] => e = None /\ r1 = r2
       | None, (sf, WSum n o _) :: _ | None, (sf, WInt n o) :: _ =>
           match read_bytes n r2 with
           | (inr bs, r3) => e = None /\ r1 = r3 /\ value sf v1 = VInt (get_int o bs)
           | (inl e3, r3) => e = Some e3 /\ r1 = r3 /\ value sf v1 = get sf os
           end
       | None, _ => False
       end.
Proof.
  intros P ext pr k d stat R W V us u h l fp c fs os y A M bf kf w B t r lb rest K AG EX FO RF SU Iu OK Ow Of Oo FL Fr HA Ik Tg Lk Hr Ll Er.
  set (E := holding R W) in *. set (E2 := open_env (bodies us) R W). assert (HE : classes E = lib_classes) by reflexivity.
  pose proof (not_ours P pr k (stat ++ ext) R W (bodies us) (cc_body u) (rf_written _ _ _ _ _ RF) (List.in_map cc_body us u Iu)) as Fu. fold E in Fu.
  pose proof (find_codec_some us u (wf_names _ _ _ _ _ (rf_written _ _ _ _ _ RF)) Iu) as FC.
  assert (Hl : exists c' fs', nth_error h l = Some (CObj c' fs')) by (inversion Ow; subst; eauto).
  unfold at_rest at 1. rewrite (decode_open_runs P ext pr k (S (S d)) stat R W V us h l r [] K AG EX FO RF SU OK (bk_wf _ (proj1 (buf_wf_iff r) Hr)) Hl). fold E E2.
  pose proof (own_open E E2 (decode_of us) (codec_world us E) (codec_dec us E) (codec_new us R W) (S (S d)) h (HRef l) _ r fp Ow) as SM.
  destruct (hdecode_open (decode_of us) E E2 (S (S d)) h (HRef l) r) as [[e h1] r1]. destruct (decode_open (codec_world us E) E (S (S d)) (VObj c (set bf y os)) r) as [[e2 v1] r2] eqn:ED. destruct SM as (<- & <- & fp1 & Ow1 & G1 & G2 & G3).
  exists e, h1, r1, v1, fp1. split; [destruct e; reflexivity|]. split; [exact Ow1|]. split; [split; [exact G1|exact G2]|]. split; [exact G3|].
  destruct (C70_user_body_decoded (codec_world us E) E d c fs os y A M bf kf w B (bc_name (cc_body u)) {| u_new := fresh_fields (cc_body u); u_enc := lifted (bc_encode (cc_body u)); u_dec := lifted_dec (cc_decode u) |} t r lb rest e v1 r1
    HE Of Oo FL Fr HA Ik Tg Lk Fu ltac:(cbn [codec_world users]; rewrite FC; reflexivity) Hr Ll Er ED) as (r0 & e2 & ufs & r2 & Z1 & Z2 & Z3 & Z4).
  exists r0, e2, ufs, r2. split; [exact Z1|]. split; [exact Z2|]. cbn [u_dec u_new] in Z3. rewrite (decode_fresh P pr k (stat ++ ext) us u r0 RF Iu) in Z3 by (rewrite Z1; apply intact_after, Hr). split; [exact Z3|exact Z4].
Qed.

(* what a user's body was encoded to, decoded by the same program: the bytes encode appended are read, no more and no less, and the object has the body, the length and the checksum that encode wrote *)
Theorem C91_round_trip : forall P ext pr k d d' stat R W V us u h l c fs A M bf kf w B t ufs v b h1 b1 bs h2 l2 fp os y r rest, enough k -> agrees stat R W V -> extends P -> foreign ext ->
  read_for P pr k (stat ++ ext) us -> supplied us W -> In u us -> writes_on (cc_body u) ->
  (forall b1 b2 body r rest, buf_wf b1 = true -> bc_encode (cc_body u) ufs b1 = (None, b2) -> appended b1 body b2 -> buf_wf r = true -> readable r = body ++ rest ->
     exists r', cc_decode u (fresh_fields (cc_body u)) r = (None, ufs, r') /\ advanced r (List.length body) r') ->
  heap_ok (with_users (bodies us)) h -> small h -> shows h (HRef l) v ->
  object_of (holding R W) c (VObj c fs) = true -> find c Y = Some (A ++ M ++ (bf, WBody kf) :: B) -> framing A M B = true ->
  (forall g w', In (g, w') A -> parsable Y (factory (holding R W)) (get g fs) w' = true /\ (nesting (get g fs) <= S d')%nat) ->
  In (kf, w) A -> tag_of (get kf fs) w = Some t -> lookup_factory W c t = Some (bc_name (cc_body u)) ->
  call_set (holding R W) (VObj c fs) (setter bf) (VObj (bc_name (cc_body u)) ufs) = Some v -> buf_wf b = true ->
  vcalls P pr k d "encode"%string l [JBuf] (at_rest h b (stat ++ ext)) = Ret JVoid (at_rest h1 b1 (stat ++ ext)) -> appended b bs b1 ->
  heap_ok (with_users (bodies us)) h2 -> owns h2 (HRef l2) (VObj c (set bf y os)) fp -> object_of (holding R W) c (VObj c os) = true -> buf_wf r = true -> readable r = bs ++ rest ->
  exists h3 r1 v2 fp2, vcalls P pr k (S (S d')) "decode"%string l2 [JBuf] (at_rest h2 r (stat ++ ext)) = Ret JVoid (at_rest h3 r1 (stat ++ ext)) /\ advanced r (List.length bs) r1
  /\ owns h3 (HRef l2) v2 fp2 /\ unchanged h2 h3 fp
  /\ value bf v2 = VObj (bc_name (cc_body u)) ufs /\ (forall g w', In (g, w') A -> value g v2 = absorb Y (get g os) (get g fs) w')
  /\ exists body b0 b0', at_body Y v A M b b0 /\ bc_encode (cc_body u) ufs b0 = (None, b0') /\ appended b0 body b0'
     /\ (forall lf n o, In (lf, WLen n o) M -> value lf v2 = VInt (Z.of_nat (List.length body)))
     /\ (forall sf n o alg, In (sf, WSum n o alg) B -> value sf v2 = match checksum (holding R W) alg with Some s => VInt (wrap 32 (s (readable b ++ bytes_of Y v A ++ length_bytes M (List.length body) ++ body))) | None => value sf v end).
Proof.
  intros P ext pr k d d' stat R W V us u h l c fs A M bf kf w B t ufs v b h1 b1 bs h2 l2 fp os y r rest K AG EX FO RF SU Iu Wr RT OK S Sh Of FL Fr HA Ik Tg Lk Cs Hb En Ab OK2 Ow Oo Hr Er.
  set (E := holding R W) in *. set (E2 := open_env (bodies us) R W). assert (HE : classes E = lib_classes) by reflexivity. pose proof (rf_written _ _ _ _ _ RF) as WF. pose proof (List.in_map cc_body us u Iu) as Ib.
  pose proof (not_ours P pr k (stat ++ ext) R W (bodies us) (cc_body u) WF Ib) as Fu. fold E in Fu. pose proof (find_codec_some us u (wf_names _ _ _ _ _ WF) Iu) as FC.
  pose proof (body_flat P pr k (stat ++ ext) R W (bodies us) (cc_body u) h l c fs A M bf kf B ufs v WF Ib OK Sh Of FL Cs) as FLT.
  destruct (set_body E c fs A M bf kf B _ v HE Of FL Cs) as (Qv & Nf & Nd).
  assert (Hl : exists c' fs', nth_error h l = Some (CObj c' fs')) by (rewrite Qv in Sh; inversion Sh; subst; eauto).
  assert (Hl2 : exists c' fs', nth_error h2 l2 = Some (CObj c' fs')) by (inversion Ow; subst; eauto).
  unfold at_rest at 1 in En. rewrite (encode_open_runs P ext pr k d stat R W V (bodies us) h l b [] K AG EX FO WF OK S (okb_wf _ (proj1 (buf_wf_iff b) Hb)) Hl) in En. fold E in En.
  pose proof (sim_open E E2 (encode_of (bodies us)) (user_base R W (bodies us)) (user_rest R W (bodies us)) eq_refl (codec_world us E) (codec_enc us E) (fun a => eq_refl) (lib_tidy E HE) d h (HRef l) v b (proj1 (shows_near E2 h) _ _ Sh)) as SM.
  destruct (hencode_open (encode_of (bodies us)) E d h (HRef l) b) as [[e h1'] b1']. destruct (encode_open (codec_world us E) E d v b) as [[e2 v1] b2] eqn:EO. destruct SM as (<- & <- & _). destruct e as [x|]; [discriminate En|]. injection En as -> ->.
  set (U := {| u_new := fresh_fields (cc_body u); u_enc := lifted (bc_encode (cc_body u)); u_dec := lifted_dec (cc_decode u) |}).
  assert (HU : users (codec_world us E) (bc_name (cc_body u)) = Some U) by (cbn [codec_world users]; rewrite FC; reflexivity).
  assert (Ap : appends (u_enc U)).
  { intros gs q gs' q' Hq. cbn [U u_enc]. unfold lifted. destruct (forallb _ gs); [|discriminate]. destruct (bc_encode (cc_body u) gs q) as [e' q1] eqn:Q. intros [= -> _ ->]. exact (Wr gs q q' Hq Q). }
  assert (CO : forall alg, Spec.Open.computes (codec_world us E) E alg) by (intros alg; unfold Spec.Open.computes; cbn [codec_world services]; destruct (checksum E alg); cbn; auto).
  assert (LE : forall q, u_enc U ufs q = (let '(e, q') := bc_encode (cc_body u) ufs q in (e, ufs, q'))) by (intros q; cbn [U u_enc]; unfold lifted; rewrite FLT; reflexivity).
  assert (RT' : forall b1 ufs' b2 body r rest, buf_wf b1 = true -> u_enc U ufs b1 = (None, ufs', b2) -> appended b1 body b2 -> buf_wf r = true -> readable r = body ++ rest -> exists r', u_dec U (u_new U) r = (None, ufs', r') /\ advanced r (List.length body) r').
  { intros q1 ufs' q2 body q rest' Hq1 Eq Aq Hq Rq. rewrite LE in Eq. destruct (bc_encode (cc_body u) ufs q1) as [e' q1'] eqn:Q. injection Eq as -> <- ->. destruct (RT q1 q2 body q rest' Hq1 Q Aq Hq Rq) as (r' & D & Ad). exists r'. split; [|exact Ad].
    cbn [U u_dec u_new]. rewrite (decode_fresh P pr k (stat ++ ext) us u q RF Iu); [exact D|]. apply intact_bk, bk_wf, buf_wf_iff, Hq. }
  destruct (C70_user_round_trip (codec_world us E) E d d' c fs os y A M bf kf w B (bc_name (cc_body u)) U ufs t v b v1 b1 bs r rest HE Of Oo FL Fr HA Ik Tg Lk Fu HU Ap CO RT' Cs Hb EO Ab Hr Er) as (v2 & r1 & ED & Ad & X1 & X2).
  destruct (C70_user_body (codec_world us E) E d c fs A M bf kf B (bc_name (cc_body u)) U ufs v b None v1 b1 HE Of FL Fr Fu HU Ap CO Cs Hb EO) as (body & ufs' & b0 & b0' & AB & EB & A0 & Z). cbv zeta in Z. destruct Z as (_ & _ & Z1 & Z2 & Z3 & Z4).
  rewrite LE in EB. destruct (bc_encode (cc_body u) ufs b0) as [e' q] eqn:EQ. injection EB as -> <- ->.
  unfold at_rest at 1. rewrite (decode_open_runs P ext pr k (Datatypes.S (Datatypes.S d')) stat R W V us h2 l2 r [] K AG EX FO RF SU OK2 (bk_wf _ (proj1 (buf_wf_iff r) Hr)) Hl2). fold E E2.
  pose proof (own_open E E2 (decode_of us) (codec_world us E) (codec_dec us E) (codec_new us R W) (Datatypes.S (Datatypes.S d')) h2 (HRef l2) _ r fp Ow) as SM.
  destruct (hdecode_open (decode_of us) E E2 (Datatypes.S (Datatypes.S d')) h2 (HRef l2) r) as [[e h3] r1']. rewrite ED in SM. destruct SM as (-> & -> & fp2 & Ow1 & G1 & G2 & _).
  assert (Nd2 : NoDup (map fst (A ++ M ++ (bf, WBody kf) :: B))) by (rewrite <- Nf; exact Nd).
  exists h3, r1, v2, fp2. split; [reflexivity|]. split; [exact Ad|]. split; [exact Ow1|]. split; [split; [exact G1|exact G2]|].
  split; [rewrite (X1 bf (WBody kf)); [exact Z1|apply in_or_app; right; left; reflexivity]|]. split.
  - intros g w' Ig. rewrite (X2 g w' Ig). f_equal.
    assert (NA : forall g' w'', In (g', w'') (M ++ (bf, WBody kf) :: B) -> g <> g').
    { intros g' w'' I' <-. clear - Nd2 Ig I'. rewrite map_app in Nd2. induction A as [|[i q0] A IH]; [contradiction|]. cbn [map fst app] in Nd2. inversion Nd2 as [|a0 b0 N1 N2]. subst a0 b0. destruct Ig as [[= -> ->]|Ig]; [apply N1; apply in_or_app; right; apply (List.in_map fst) in I'; exact I'|auto]. }
    assert (Nb : g <> bf) by (apply (NA bf (WBody kf)); apply in_or_app; right; left; reflexivity).
    rewrite (Z4 g Nb); [|intros n o I'; exact (NA g _ (in_or_app _ _ _ (or_introl I')) eq_refl)|intros n o alg I'; refine (NA g (WSum n o alg) _ eq_refl); apply in_or_app; right; right; exact I']. rewrite Qv. cbn [value]. rewrite set_get_other by exact Nb. reflexivity.
  - exists body, b0, b0'. split; [exact AB|]. split; [exact EQ|]. split; [exact A0|]. split.
    + intros lf n o I'. rewrite (X1 lf (WLen n o)); [exact (Z2 lf n o I')|apply in_or_app; left; exact I'].
    + intros sf n o alg I'. rewrite (X1 sf (WSum n o alg)); [exact (Z3 sf n o alg I')|apply in_or_app; right; right; exact I'].
Qed.

(* ---- concrete cases ---- *)
(* Ping of JavaUserProps.v, with void decode(ByteBuf byteBuf) { this.id = byteBuf.readInt(); this.kind = byteBuf.readShortLE(); } *)
Definition ping_reads : list stmt := [set_s (this_f "id") (ECall (EName "byteBuf") "readInt" []); set_s (this_f "kind") (ECall (EName "byteBuf") "readShortLE" [])].
Definition ping_decode_class : jclass :=
  match ping_class with
  | Class ms kd n ts is cs mem => Class ms kd n ts is cs (mem ++ [MMethod [("Override"%string, None)] ["public"%string] [] (T1 "void") "decode" [(T1 "ByteBuf", "byteBuf"%string)] (Some ping_reads)])
  end.
Definition ping_codec : user_codec :=
  {| cc_body := ping;
     cc_decode := fun fs b => match read_bytes 4 b with
                              | (inl e, b1) => (Some e, fs, b1)
                              | (inr bs, b1) => let fs1 := set "id" (VInt (get_int BE bs)) fs in
                                                match read_bytes 2 b1 with (inl e, b2) => (Some e, fs1, b2) | (inr cs, b2) => (None, set "kind" (VInt (get_int LE cs)) fs1, b2) end
                              end |}.
Lemma ping_read P pr vcall call j l c h b stat f n o t fs : width n -> nth_error h l = Some (CObj c fs) -> field_ty P c f = Some t ->
  let s h b := {| s_h := h; s_b := b; s_loc := [("byteBuf"%string, (T1 "ByteBuf", JBuf))]; s_stat := stat |} in
  exec P pr vcall call j {| x_this := Some l; x_class := c |} (set_s (this_f f) (ECall (EName "byteBuf") ("read" ++ int_name n o) [])) (s h b)
  = match read_bytes n b with (inl e, b') => Exc e (s h b') | (inr bs, b') => Ret None (s (upd h l (CObj c (hset f (HInt (get_int o bs)) fs))) b') end.
Proof.
  intros Hn Hl Ht s. unfold set_s, this_f. rewrite ex_expr.
  change (eval P pr vcall call {| x_this := Some l; x_class := c |} (EAsg ASet (EField EThis f) (ECall (EName "byteBuf") ("read" ++ int_name n o) [])) (s h b))
    with (bind (eval P pr vcall call {| x_this := Some l; x_class := c |} (ECall (EName "byteBuf") ("read" ++ int_name n o) []) (s h b)) (fun v s' => assign_field P {| x_this := Some l; x_class := c |} f v s')).
  rewrite ev_call. cbn [eval]. erewrite name_loc by reflexivity. cbn [bind]. rewrite args_nil. cbn [bind dispatch]. rewrite buf_read by exact Hn. cbn [s s_b]. destruct (read_bytes n b) as [[e|bs] b']; cbn [got bind]; [reflexivity|].
  unfold assign_field. cbn [x_this x_class]. rewrite Ht. cbn [conv hval_of]. unfold put_field, set_h, set_b, s. cbn [s_h s_b s_loc s_stat]. rewrite Hl. reflexivity.
Qed.
Lemma typed_two x y : typed_values (bc_fields ping) [("id", VInt x); ("kind", VInt y)]%string <-> - 2 ^ 31 <= x < 2 ^ 31 /\ - 2 ^ 15 <= y < 2 ^ 15.
Proof.
  split.
  - intros H. inversion H as [|a b c d (_ & _ & H1) H2]; subst. inversion H2 as [|a b c d (_ & _ & H3) _]; subst. cbn [fits heap_val snd] in *. auto.
  - intros [A B]. constructor; [|constructor; [|constructor]]; cbn [fst snd is_flat_val heap_val fits]; auto.
Qed.
Lemma typed_shape fs : typed_values (bc_fields ping) fs -> exists x y, fs = [("id", VInt x); ("kind", VInt y)]%string.
Proof.
  intros H. inversion H as [|[f v] b c d (N1 & F1 & H1) H2]; subst. inversion H2 as [|[g w] b c' d' (N2 & F2 & H3) H4]; subst. inversion H4; subst. cbn [fits heap_val fst snd] in *. subst f g.
  destruct v; try contradiction; try discriminate F1. destruct w; try contradiction; try discriminate F2. eauto.
Qed.
Lemma read_range n o b bs b' : width n -> bk b -> read_bytes n b = (inr bs, b') -> - 2 ^ (8 * Z.of_nat n - 1) <= get_int o bs < 2 ^ (8 * Z.of_nat n - 1) /\ bk b'.
Proof.
  intros Hn Hb H. pose proof (read_bytes_good n b Hb) as G. rewrite H in G. destruct G as (L & _ & K). split; [|exact K]. assert (NE : bs <> []) by (intros ->; cbn in L; destruct Hn as [->|[->|[->| ->]]]; discriminate L).
  pose proof (get_int_range o bs NE) as Q. rewrite L in Q. apply in_signed_spec in Q. exact Q.
Qed.
Lemma ping_codec_java P pr k stat : assoc "user.Ping"%string P = Some ping_decode_class -> read_for P pr (S k) stat [ping_codec].
Proof.
  intros AP. assert (FI : field_ty P "user.Ping" "id" = Some (T1 "int")) by (unfold field_ty; rewrite AP; reflexivity). assert (FK : field_ty P "user.Ping" "kind" = Some (T1 "short")) by (unfold field_ty; rewrite AP; reflexivity). split.
  - apply ping_like; [unfold find_method; rewrite AP; reflexivity|exact FI|exact FK].
  - intros u [<-|[]]. exists ping_decode_class. split; [exact AP|]. split; reflexivity.
  - intros u [<-|[]]. cbn. repeat constructor; cbn; intuition discriminate.
  - intros u fs b [<-|[]] Hb T. apply intact_bk in Hb. destruct (typed_shape fs T) as (x & y & ->). apply typed_two in T. cbn [ping_codec cc_decode cc_body].
    pose proof (read_bytes_good 4 b Hb) as G1. destruct (read_bytes 4 b) as [[e|bs] b1] eqn:R1; [split; [apply typed_two, T|apply intact_bk, G1]|]. destruct (read_range 4 BE b bs b1 ltac:(right; right; left; reflexivity) Hb R1) as [X1 K1].
    pose proof (read_bytes_good 2 b1 K1) as G2. destruct (read_bytes 2 b1) as [[e|cs] b2] eqn:R2; cbv zeta; cbn [set String.eqb Ascii.eqb Bool.eqb].
    + split; [apply typed_two; split; [exact X1|apply T]|apply intact_bk, G2].
    + destruct (read_range 2 LE b1 cs b2 ltac:(right; left; reflexivity) K1 R2) as [X2 K2]. split; [apply typed_two; split; [exact X1|exact X2]|apply intact_bk, K2].
  - intros u d h l fs b L [<-|[]] OK Hb Hl. cbn [bc_name ping ping_codec cc_body] in Hl. destruct (OK l _ _ Hl) as (cd & Hc & F).
    assert (Q : assoc "user.Ping"%string (with_users (bodies [ping_codec])) = Some (snd (as_class ping))) by (vm_compute; reflexivity). rewrite Q in Hc. injection Hc as <-. cbn [as_class snd c_fields ping bc_fields] in F. clear Q.
    inversion F as [|[f1 x1] y1 fs1 ys1 [N1 Ty1] F1]; subst. inversion F1 as [|[f2 x2] y2 fs2 ys2 [N2 Ty2] F2]; subst. inversion F2; subst. cbn [fst snd] in *. subst f1 f2.
    destruct x1; try contradiction. destruct x2; try contradiction. clear F F1 F2 Ty1 Ty2.
    cbn [vcalls s_h]. rewrite Hl. assert (FM : find_method P "user.Ping" "decode" (List.length [JBuf]) = Some ([(Sem.T1 "ByteBuf", "byteBuf"%string)], ping_reads)) by (unfold find_method; rewrite AP; reflexivity).
    erewrite run_eq by exact FM. cbn [bind_params conv bind]. unfold ping_reads, set_loc. cbn [s_h s_b s_loc s_stat]. rewrite all_cons. change "readInt"%string with ("read" ++ int_name 4 BE)%string. change "readShortLE"%string with ("read" ++ int_name 2 LE)%string.
    erewrite ping_read; [|right; right; left; reflexivity|exact Hl|exact FI]. cbn [ping_codec cc_decode cc_body bc_name ping own_fields map flat_val fst snd].
    destruct (read_bytes 4 b) as [[e|bs] b1]; cbn [seq_st bind].
    + cbn [heap_fields map fst snd heap_val]. rewrite (upd_id h l _ Hl). reflexivity.
    + rewrite all_cons. cbn [hset String.eqb Ascii.eqb Bool.eqb]. erewrite ping_read; [|right; left; reflexivity|apply upd_at; eapply nth_lt; exact Hl|exact FK]. cbv zeta. cbn [set hset String.eqb Ascii.eqb Bool.eqb].
      destruct (read_bytes 2 b1) as [[e|cs] b2]; cbn [seq_st bind heap_fields map fst snd heap_val]; rewrite ?upd_upd; reflexivity.
Qed.
Lemma ping_round b1 b2 body r rest : buf_wf b1 = true -> bc_encode ping ping_ufs b1 = (None, b2) -> appended b1 body b2 -> buf_wf r = true -> readable r = body ++ rest ->
  exists r', cc_decode ping_codec (fresh_fields ping) r = (None, ping_ufs, r') /\ advanced r (List.length body) r'.
Proof.
  intros Hb H A Hr Er. cbn [bc_encode ping ping_ufs get String.eqb Ascii.eqb Bool.eqb] in H. apply buf_wf_iff in Hb. apply buf_wf_iff in Hr.
  pose proof (wrote_int BE 4 258 b1 Hb) as Q1. destruct (write_int BE 4 258 b1) as [[e|] b1']; [discriminate H|]. destruct Q1 as [A1 W1]. pose proof (wrote_int LE 2 (-2) b1' W1) as Q2. rewrite H in Q2. destruct Q2 as [A2 W2].
  pose proof (app_content _ _ _ A) as C1. rewrite (app_content _ _ _ (appended_trans _ _ _ _ _ A1 A2)) in C1. apply app_inv_head in C1. subst body. rewrite <- app_assoc in Er.
  assert (N1 : List.length (number BE 4 258) = 4%nat) by apply number_length. assert (N2 : List.length (number LE 2 (-2)) = 2%nat) by apply number_length.
  pose proof (read_bytes_ok r _ _ Hr Er) as R1. rewrite N1 in R1. destruct (adv_ok r _ _ Hr Er) as [Wr Er1]. rewrite N1 in Wr, Er1. pose proof (read_bytes_ok _ _ _ Wr Er1) as R2. rewrite N2 in R2.
  cbn [ping_codec cc_decode]. rewrite R1. unfold adv in R2 |- *. rewrite R2. rewrite !get_int_number_id by (lia || reflexivity). rewrite app_length, N1, N2. eexists. split; [reflexivity|]. unfold advanced, set_ridx. cbn. f_equal. lia.
Qed.
Definition ping_decode_program : program := [("user.Ping"%string, ping_decode_class)] ++ lib_program.
(* the factories once Ping is registered with RootPacket's *)
Definition ping_factories : factories := on_factory lib_factories "sample.RootPacket" (fun M => register M (KInt 77) "user.Ping").
Definition root_new : list (string * val) := match new_obj lib_env "sample.RootPacket" with VObj _ fs => fs | _ => [] end.
Definition ping_target : heap := [CObj "sample.RootPacket" [("msgType", HInt 0); ("payloadLen", HInt 0); ("payload", HNull); ("checksum", HInt 0)]]%string.
Example C91_meets : extends ping_decode_program /\ foreign [] /\ assoc "user.Ping"%string ping_decode_program = Some ping_decode_class
  /\ heap_ok (with_users (bodies [ping_codec])) ping_target /\ owns ping_target (HRef 0) (VObj "sample.RootPacket" (set "payload" VNull root_new)) [0%nat]
  /\ (forall pr d, exists k stat own, enough k
      /\ over (init_class ping_decode_program pr (vcalls ping_decode_program pr k d) 304) (init_order lib_program) (at_rest [] empty_buf (start_stat lib_program ++ [])) = Ret tt (at_rest [] empty_buf (stat ++ []))
      /\ run ping_decode_program pr (vcalls ping_decode_program pr k d) k None "sample.RootPacket.PayloadMessageFactory" "register" [JT (T1 "Short") (HInt 77); JSup "user.Ping"] (at_rest [] empty_buf (stat ++ [])) = Ret JVoid (at_rest [] empty_buf (own ++ []))
      /\ agrees own initial_cache ping_factories (reverse_map sse_initial) /\ supplied [ping_codec] ping_factories /\ read_for ping_decode_program pr k (own ++ []) [ping_codec])
  /\ (forall g w', In (g, w') root_head -> parsable Y (factory (holding initial_cache ping_factories)) (get g root_fields) w' = true /\ (nesting (get g root_fields) <= 1)%nat)
  /\ In ("msgType", WInt 2 LE)%string root_head /\ tag_of (get "msgType" root_fields) (WInt 2 LE) = Some (KInt 77) /\ lookup_factory ping_factories "sample.RootPacket" (KInt 77) = Some (bc_name (cc_body ping_codec))
  /\ (let '(e, h1, b1) := hencode_open (encode_of [ping]) (holding initial_cache ping_factories) 2 ping_heap (HRef 0) empty_buf in e = None
      /\ let '(e2, h2, b2) := hdecode_open (decode_of [ping_codec]) (holding initial_cache ping_factories) (open_env [ping] initial_cache ping_factories) 2 ping_target (HRef 0) b1 in
         e2 = None /\ readable b2 = [] /\ h2 = [CObj "sample.RootPacket" [("msgType", HInt 77); ("payloadLen", HInt 6); ("payload", HRef 1); ("checksum", HInt (-1006464893))]; CObj "user.Ping" [("id", HInt 258); ("kind", HInt (-2))]]%string).
Proof.
  assert (EX : extends ping_decode_program) by (apply C88_extends; constructor; [reflexivity|constructor]). assert (FO : foreign []) by (apply C88_foreign; constructor).
  split; [exact EX|]. split; [exact FO|]. split; [reflexivity|]. split.
  { intros l c fs Hl. destruct l as [|l]; cbn in Hl; [injection Hl as <- <-|destruct l; discriminate Hl]; (eexists; split; [vm_compute; reflexivity|]); cbn [c_fields]; repeat (constructor; [cbn; split; [reflexivity|]; try lia; try exact Logic.I|]); constructor. }
  split.
  { assert (Q : set "payload" VNull root_new = [("msgType", VInt 0); ("payloadLen", VInt 0); ("payload", VNull); ("checksum", VInt 0)]%string) by (vm_compute; reflexivity). rewrite Q.
    eapply owns_obj; [reflexivity|reflexivity| |intros []]. cbn [map snd]. do 4 (apply (owns_cons _ _ _ _ _ [] []); [constructor| |intros ? []]). constructor. }
  split.
  { intros pr d. destruct C74_meets as (F & _ & _ & _ & _ & K). revert K. generalize (Z.to_nat (2 ^ 31 + 4)). intros k K. destruct (C88_start ping_decode_program [] pr k d [] empty_buf EX FO) as (stat & own & Q & [AG SU] & I).
    destruct (enough_S k K) as (k' & -> & _). exists (S (S (S (S k')))), own.
    destruct (C91_register ping_decode_program [] pr (S (S (S k'))) d [] stat _ _ _ main_sample_RootPacket _ (HInt 77) (KInt 77) "user.Ping" [] empty_buf _ EX FO AG F eq_refl eq_refl I) as (stat' & own' & RG & _ & AG').
    exists own'. split; [exact K|]. split; [exact Q|]. split; [exact RG|]. split; [exact AG'|]. split; [|apply ping_codec_java; reflexivity].
    apply (C91_supplied [ping_codec] lib_factories "sample.RootPacket" (KInt 77) ping_codec); [|left; reflexivity]. eapply running_supplied. split; [exact AG|exact SU]. }
  split; [intros g w' [[= <- <-]|[]]; vm_compute; (split; [reflexivity|lia])|]. split; [left; reflexivity|]. split; [vm_compute; reflexivity|]. split; [vm_compute; reflexivity|]. vm_compute. repeat split.
Qed.

Lemma inside_self h b stat own ext : inside ext [] (at_rest h b stat) (at_rest h b (own ++ ext)) -> inside ext [] (at_rest h b own) (at_rest h b (own ++ ext)).
Proof.
  intros I'.
  destruct I' as (A1 & A2 & A3 & own2 & Q2 & F2). cbn [at_rest s_h s_b s_loc s_stat] in *. apply app_inv_tail in Q2. subst own2. split; [exact A1|]. split; [exact A2|]. split; [exact A3|]. exists own. split; [reflexivity|]. clear - F2. cbn [at_rest s_stat].
  assert (X : forall v w, jval_in [] v w -> jval_in [] w w). { fix IH 3. intros v w J. destruct J as [v H|t a a' H|c H|c x H|c|c H|vs ws H|m n H1 H2]; [now constructor| |now constructor|now constructor|now constructor|now constructor| |]. 
    - apply in_t. destruct a, a'; cbn in H |- *; try contradiction; auto. match type of H with nth_error _ ?n = _ => destruct n; discriminate H end.
    - apply in_vals. clear - IH H. induction H; constructor; eauto.
    - apply in_map; [tauto|]. intros k v w Hv Hw. rewrite Hv in Hw. injection Hw as <-. destruct (m k) as [u|] eqn:M; [exact (IH _ _ (H2 k u v M Hv))|]. apply H1 in M. congruence. }
  induction F2 as [|x y l l' [Q J] F IH]; constructor; auto. split; [reflexivity|]. eapply X, J.
Qed.
(* Ping registered with SseBinary's factory under 77, then getMsgType(Ping.class) *)
Example C91_meets_sse : forall pr d, exists k stat own v q, over (init_class ping_decode_program pr (vcalls ping_decode_program pr k d) 304) (init_order lib_program) (at_rest [] empty_buf (start_stat lib_program ++ [])) = Ret tt (at_rest [] empty_buf (stat ++ []))
  /\ run ping_decode_program pr (vcalls ping_decode_program pr k d) k None sse_place "register" [JCls "user.Ping"; JT (T1 "Integer") (HInt 77); JSup "user.Ping"] (at_rest [] empty_buf (stat ++ [])) = Ret JVoid (at_rest [] empty_buf (own ++ []))
  /\ run ping_decode_program pr (vcalls ping_decode_program pr k d) k None sse_place "getMsgType" [JCls "user.Ping"] (at_rest [] empty_buf (own ++ [])) = Ret v (at_rest [] empty_buf (own ++ [])) /\ v = JT q (HInt 77).
Proof.
  intros pr d. assert (EX : extends ping_decode_program) by (apply C88_extends; constructor; [reflexivity|constructor]). assert (FO : foreign []) by (apply C88_foreign; constructor).
  destruct (C88_start ping_decode_program [] pr 4 d [] empty_buf EX FO) as (stat & own & Q & [AG SU] & I).
  destruct (C91_register_sse ping_decode_program [] pr 3 d [] stat _ _ _ 77 "user.Ping" "user.Ping" [] empty_buf _ EX AG I) as (stat' & own' & V' & RG & I' & AG' & HV).
  assert (I2 : inside [] [] (at_rest [] empty_buf own') (at_rest [] empty_buf (own' ++ []))) by (eapply inside_self; exact I').
  destruct (C91_sse_type ping_decode_program [] pr 3 d [] own' _ _ V' "user.Ping" [] empty_buf _ EX AG' I2) as (v & G & Hv).
  rewrite HV, String.eqb_refl in Hv. destruct Hv as (q & Hv).
  exists 4%nat, own, own', v, q. split; [exact Q|]. split; [exact RG|]. split; [exact G|exact Hv].
Qed.

Print Assumptions C91_register_sse.
Print Assumptions C91_sse_type.
Print Assumptions C91_register.
Print Assumptions C91_supplied.
Print Assumptions C91_any_graph.
Print Assumptions C91_user_body_decoded.
Print Assumptions C91_round_trip.
