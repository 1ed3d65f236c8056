(* encode on heaps with objects of users' classes: types, buffers, and what it is on trees. *)
From Coq Require Import ZArith List Bool String Lia.
From Verif.Model Require Import JavaPrim ByteBuf Utf8 Codec Ast Interp Show Heap Open HeapOpen.
From Verif.Spec Require Import Bytes Buffers Wire Sharing Open.
From Verif.Proofs Require Import BytesFacts HeapFacts HeapEq HeapOwn HeapFrame HeapTypes HeapEncTypes HeapCycle HeapDecode DecodeInv JavaSem JavaEncode.
Import ListNotations.
Open Scope Z_scope.
Open Scope list_scope.

(* users' functions on trees; a tree that is not flat is not an object of theirs *)
Definition lifted (u : user_encode) : method :=
  fun fs b => if forallb (fun fv => is_flat_val (snd fv)) fs then let '(e, b') := u fs b in (e, fs, b') else (Some TYPE, fs, b).
Definition user_world (U : string -> option user_encode) (E : env) : world :=
  {| users := fun c => option_map (fun u => {| u_new := []; u_enc := lifted u; u_dec := fun fs b => (Some TYPE, fs, b) |}) (U c);
     services := fun a => option_map (fun g b => (inr (g (readable b)), b)) (checksum E a) |}.

Section Open.
  (* E: the library; E2: the library and the users' classes *)
  Variable E E2 : env.
  Variable U : string -> option user_encode.
  Hypothesis base : forall c cd, find_class E c = Some cd -> find_class E2 c = Some cd.
  Hypothesis rest : forall c cd, find_class E2 c = Some cd -> find_class E c = None -> c_enc cd = [].
  Hypothesis sums : checksum E2 = checksum E.
  Let C := classes E2.

  Section Types.
    Hypothesis fine_classes : forall c cd, find_class E c = Some cd -> fine_enc (c_fields cd) [] (c_enc cd) = true.
    Theorem calm_open d : calm E2 (hencode_open U E d).
    Proof.
      induction d as [|d IH]; intros h v b OK Hv; pose proof (keeps_refl h) as KR; (destruct v as [|z|z|s|l]; cbn [fits] in Hv; try contradiction; cbn [hencode_open]; [auto|]); [auto|].
      destruct Hv as (c & fs & Hl). rewrite Hl. destruct (find_class E c) as [cd|] eqn:FC.
      - pose proof (calm_enc E2 (hencode_open U E d) (checksum E) l c cd IH (base _ _ FC) (c_enc cd) h [] b fs OK Hl (fine_classes c cd FC)) as Q.
        destruct (hexec_enc (hencode_open U E d) (checksum E) l (c_enc cd) (h, [], b)) as [e [[h1 loc] b1]]. exact Q.
      - destruct (U c) as [u|]; [|auto]. destruct (forallb _ fs); [|auto]. destruct (u (own_fields fs) b). auto.
    Qed.
    Theorem still_open d : still E2 (hencode_open U E d).
    Proof.
      induction d as [|d IH]; intros h v b OK Hv; pose proof (steady_refl h) as R; (destruct v as [|z|z|s|l]; cbn [fits] in Hv; try contradiction; cbn [hencode_open]; [exact R|]); [exact R|].
      destruct Hv as (c & fs & Hl). rewrite Hl. destruct (find_class E c) as [cd|] eqn:FC.
      - pose proof (still_enc E2 (hencode_open U E d) (checksum E) l c cd (calm_open d) IH (base _ _ FC) (c_enc cd) h [] b fs OK Hl (fine_classes c cd FC)) as Q.
        destruct (hexec_enc (hencode_open U E d) (checksum E) l (c_enc cd) (h, [], b)) as [e [[h1 loc] b1]]. exact Q.
      - destruct (U c) as [u|]; [|exact R]. destruct (forallb _ fs); [|exact R]. destruct (u (own_fields fs) b). exact R.
    Qed.
  End Types.
  Theorem okb_open d : (forall c u fs b, U c = Some u -> okb b -> okb (snd (u fs b))) -> holds_buf (hencode_open U E d).
  Proof.
    intros HU. induction d as [|d IH]; intros h v b OB; (destruct v as [|z|z|s|l]; cbn [hencode_open]; try exact OB).
    destruct (nth_error h l) as [[c fs|vs]|]; try exact OB. destruct (find_class E c) as [cd|].
    - pose proof (okb_enc (hencode_open U E d) (checksum E) l IH (c_enc cd) h [] b OB) as W. destruct (hexec_enc (hencode_open U E d) (checksum E) l (c_enc cd) (h, [], b)) as [e [[h1 loc] b1]]. exact W.
    - destruct (U c) as [u|] eqn:Hu; [|exact OB]. destruct (forallb _ fs); [|exact OB]. pose proof (HU c u (own_fields fs) b Hu OB) as W. destruct (u (own_fields fs) b). exact W.
  Qed.

  (* ---- on trees ---- *)
  Variable W : world.
  Hypothesis user_enc : forall c, option_map u_enc (users W c) = option_map lifted (U c).
  Hypothesis user_sum : forall a, services W a = option_map (fun g b => (inr (g (readable b)), b)) (checksum E a).
  Lemma estmt_world tenc s st : exec_estmt_open tenc W s st = exec_estmt tenc (checksum E) s st.
  Proof.
    destruct st as [[fs loc] b], s; try reflexivity. cbn [exec_estmt_open exec_estmt]. rewrite user_sum. destruct (checksum E alg); reflexivity.
  Qed.
  Lemma stmts_world tenc ss : forall st, exec_enc_open tenc W ss st = exec_enc tenc (checksum E) ss st.
  Proof. induction ss as [|s ss IH]; intros st; cbn [exec_enc_open exec_enc]; [reflexivity|]. rewrite estmt_world. destruct (exec_estmt tenc (checksum E) s st) as [[e|] st']; auto. Qed.
  Lemma replaced_user c : find_class E c = None -> replaced E2 c = [].
  Proof. intros N. unfold replaced. destruct (find_class E2 c) as [cd|] eqn:F; [|reflexivity]. rewrite (rest c cd F N). reflexivity. Qed.
  Lemma flat_near h K fs gs : near_fields E2 h K fs gs -> K = [] -> forallb (fun fv => is_flat (snd fv)) fs = forallb (fun fv => is_flat_val (snd fv)) gs
    /\ (forallb (fun fv => is_flat (snd fv)) fs = true -> own_fields fs = gs).
  Proof.
    induction 1 as [K0|K0 f v t fs gs I0 N IH|K0 f v t fs gs V N IH]; intros ->; [auto|destruct I0|]. destruct (IH eq_refl) as [A B]. cbn [forallb snd own_fields map fst].
    inversion V; subst; cbn [is_flat is_flat_val flat_val andb]; rewrite ?A; (split; [auto|intros Q; try discriminate Q; f_equal; apply B; congruence]).
  Qed.
  Theorem sim_open : (forall c cd, find_class E c = Some cd -> tidy cd = true) -> forall d, sim E2 (hencode_open U E d) (encode_open W E d).
  Proof.
    intros T d. induction d as [|d IH]; intros h v t b N.
    - pose proof (evolves_refl E2 h). inversion N; subst; cbn; repeat split; auto.
    - pose proof (evolves_refl E2 h) as V. destruct N as [|z|z|z|l vs ts Hl NA|l c fs gs Hl NF]; cbn [hencode_open encode_open]; try (repeat split; auto; constructor; fail).
      + rewrite Hl. repeat split; auto. eapply near_lst; eauto.
      + rewrite Hl. destruct (find_class E c) as [cd|] eqn:FC.
        * rewrite stmts_world. pose proof (sim_stmts E2 (hencode_open U E d) (encode_open W E d) l c cd IH (base _ _ FC) (c_enc cd) [] h gs [] b) as H. rewrite sums in H.
          destruct (hexec_enc (hencode_open U E d) (checksum E) l (c_enc cd) (h, [], b)) as [e [[h1 loc1] b1]].
          destruct (exec_enc (encode_open W E d) (checksum E) (c_enc cd) (gs, [], b)) as [e2 [[gs1 loc2] b2]].
          destruct H as (<- & <- & V1 & R1); auto.
          { exists fs. repeat split; auto. intros f []. }
          { apply (T c cd FC). }
          repeat split; auto. destruct R1 as (fs1 & H1 & N1 & _). eapply near_obj; eauto.
        * assert (NO : near E2 h (HRef l) (VObj c gs)) by (eapply near_obj; eauto). pose proof (user_enc c) as UE. destruct (U c) as [u|], (users W c) as [x|]; cbn [option_map] in UE; try discriminate UE; [|auto]. injection UE as UE.
          rewrite (replaced_user c FC) in NF. destruct (flat_near h _ fs gs NF eq_refl) as [Q1 Q2]. rewrite UE. unfold lifted. rewrite <- Q1. destruct (forallb _ fs); [|auto].
          rewrite (Q2 eq_refl). destruct (u gs b) as [e b']. auto.
  Qed.
End Open.

(* ---------- decode ---------- *)
Definition lifted_dec (u : user_decode) : method :=
  fun fs b => if forallb (fun fv => is_flat_val (snd fv)) fs then let '(e, gs, b') := u fs b in if same_fields fs gs then (e, gs, b') else (Some TYPE, fs, b) else (Some TYPE, fs, b).
Lemma same_fields_inv fs gs : same_fields fs gs = true -> forallb (fun gv => is_flat_val (snd gv)) gs = true /\ map fst gs = map fst fs.
Proof. unfold same_fields. intros H. apply andb_true_iff in H. destruct H as [A B]. split; [exact A|]. destruct (list_eq_dec string_dec (map fst gs) (map fst fs)); [assumption|discriminate B]. Qed.
Lemma own_names fs : map fst (own_fields fs) = map fst fs.
Proof. unfold own_fields. rewrite map_map. reflexivity. Qed.
Lemma heap_names gs : map fst (heap_fields gs) = map fst gs.
Proof. unfold heap_fields. rewrite map_map. reflexivity. Qed.
Lemma heap_noref gs f m : ~ In (f, HRef m) (heap_fields gs).
Proof. unfold heap_fields. intros I. apply in_map_iff in I. destruct I as ([g v] & Q & _). cbn in Q. destruct v; discriminate Q. Qed.
Lemma owns_flat h fs gs fp : owns_all h (map snd fs) (map snd gs) fp -> map fst gs = map fst fs ->
  forallb (fun fv : string * hval => is_flat (snd fv)) fs = forallb (fun fv : string * val => is_flat_val (snd fv)) gs /\ (forallb (fun fv : string * hval => is_flat (snd fv)) fs = true -> own_fields fs = gs /\ fp = []).
Proof.
  revert gs fp. induction fs as [|[f v] fs IH]; intros [|[g t] gs] fp O N; cbn [map] in *; try discriminate N; inversion O as [|v0 t0 vs ts fp0 fps O1 O2 AP]; subst; [auto|].
  injection N as -> N. destruct (IH _ _ O2 N) as [A B]. cbn [forallb snd own_fields map fst].
  inversion O1; subst; cbn [is_flat is_flat_val flat_val andb]; rewrite ?A; (split; [reflexivity|]); intros Q; try discriminate Q; rewrite A in B; destruct (B Q) as [<- ->]; auto.
Qed.
Lemma owns_heap h gs : forallb (fun gv : string * val => is_flat_val (snd gv)) gs = true -> owns_all h (map snd (heap_fields gs)) (map snd gs) [].
Proof.
  induction gs as [|[g v] gs IH]; cbn; [constructor|]. intros H. apply andb_true_iff in H. destruct H as [H1 H2]. apply (owns_cons h (heap_val v) v _ _ [] []); [|apply IH, H2|intros i []].
  destruct v; try discriminate H1; constructor.
Qed.

Section OpenDecode.
  Variable E E2 : env.
  Variable U : string -> option user_decode.
  Hypothesis base : forall c cd, find_class E c = Some cd -> find_class E2 c = Some cd.
  Let C := classes E2.

  Lemma own_upd h l c fs gs : nth_error h l = Some (CObj c fs) -> map fst gs = map fst fs -> keeps h (upd h l (CObj c (heap_fields gs))).
  Proof.
    intros Hl N m k Hm. destruct (Nat.eq_dec m l) as [->|D].
    - rewrite upd_at by (eapply nth_lt; eauto). eexists. split; [reflexivity|]. rewrite Hl in Hm. injection Hm as <-. cbn. split; [reflexivity|]. rewrite heap_names. exact N.
    - rewrite upd_off by exact D. exists k. split; [exact Hm|]. apply preserved_refl.
  Qed.
  Theorem frame_open d : framed (hdecode_open U E E2 d).
  Proof.
    induction d as [|d IH]; intros P h v b CL N I; [destruct v; apply moves_refl; exact CL|].
    destruct v as [|z|z|s|l]; try (apply moves_refl; exact CL). cbn [hdecode_open]. destruct (nth_error h l) as [[c fs|vs]|] eqn:Hl; try (apply moves_refl; exact CL).
    destruct (find_class E c) as [cd|].
    - pose proof (frame_dstmts E2 (hdecode_open U E E2 d) (factory E c) P l IH (c_dec cd) h b CL N (I l eq_refl) (nth_lt _ _ _ Hl)) as M.
      destruct (hexec_dec (hdecode_open U E E2 d) (hnew E2) (factory E c) l (c_dec cd) (h, b)) as [e [h1 b1]]. exact M.
    - destruct (U c) as [u|]; [|apply moves_refl; exact CL]. destruct (forallb _ fs); [|apply moves_refl; exact CL]. destruct (u (own_fields fs) b) as [[e gs] b1]. destruct (same_fields (own_fields fs) gs) eqn:SF; [|apply moves_refl; exact CL].
      apply same_fields_inv in SF. destruct SF as [_ SF]. rewrite own_names in SF. cbn [fst snd]. constructor.
      + intros m k i Pm Hm Hi. destruct (Nat.eq_dec m l) as [->|D].
        * rewrite upd_at in Hm by (eapply nth_lt; eauto). injection Hm as <-. destruct Hi as (f & Hi). destruct (heap_noref _ _ _ Hi).
        * rewrite upd_off in Hm by exact D. eapply CL; eauto.
      + eapply own_upd; eauto.
      + intros m Nm. apply upd_off. intros ->. apply Nm, (I l eq_refl).
  Qed.

  (* what users' methods return has the types of the fields *)
  Definition typed_users : Prop := forall c u fs b cd, find_class E c = None -> find_class E2 c = Some cd -> U c = Some u -> bk b ->
    Forall2 (fun fv ft => fst fv = fst ft /\ is_flat_val (snd fv) = true /\ fits [] (heap_val (snd fv)) (snd ft)) fs (c_fields cd) ->
    let '(_, gs, b') := u fs b in Forall2 (fun fv ft => fst fv = fst ft /\ is_flat_val (snd fv) = true /\ fits [] (heap_val (snd fv)) (snd ft)) gs (c_fields cd) /\ bk b'.
  Hypothesis users_typed : typed_users.
  Hypothesis flat_classes : forall c cd, find_class E2 c = Some cd -> forallb (fun ft => flat_type (snd ft)) (c_fields cd) = true.
  Hypothesis nodup_classes : forall c cd, find_class E2 c = Some cd -> NoDup (map fst (c_fields cd)).
  Hypothesis fine_decs : forall c cd, find_class E2 c = Some cd -> forallb (fine_dstmt (c_fields cd)) (c_dec cd) = true.
  Lemma fits_flat h h' v t : is_flat v = true -> fits h v t -> fits h' v t.
  Proof. destruct v, t; cbn; auto; discriminate. Qed.
  Lemma flat_back v : is_flat v = true -> heap_val (flat_val v) = v. Proof. destruct v; auto. discriminate. Qed.
  Lemma heap_flat v : is_flat (heap_val v) = true. Proof. destruct v; reflexivity. Qed.
  Lemma fits_keeps h h' v t : keeps h h' -> (forall l vs, nth_error h l = Some (CList vs) -> nth_error h' l = Some (CList vs)) -> fits h v t -> fits h' v t.
  Proof.
    intros K L. revert v. induction t; intros v F; destruct v; cbn in *; auto.
    - destruct F as (vs & Hl & A). exists vs. split; [apply L, Hl|]. clear Hl. induction vs as [|x vs IH]; [exact A|]. destruct A as [A B]. split; [destruct A as [->|A]; [left; reflexivity|right; apply IHt, A]|apply IH, B].
    - destruct F as (fs & Hl). destruct (keeps_object _ _ _ _ _ K Hl) as (gs & H1 & _). eauto.
    - destruct F as (c & fs & Hl). destruct (keeps_object _ _ _ _ _ K Hl) as (gs & H1 & _). eauto.
  Qed.
  Theorem typing_open d : typing E2 (hdecode_open U E E2 d).
  Proof.
    induction d as [|d IH]; intros h v b OK Hb; [destruct v; auto|]. destruct v as [|z|z|s|l]; auto. cbn [hdecode_open].
    destruct (nth_error h l) as [[c fs|vs]|] eqn:Hl; auto. destruct (find_class E c) as [cd|] eqn:Hc.
    - pose proof (base c cd Hc) as Hc2. destruct (typed_dstmts E2 flat_classes nodup_classes (hdecode_open U E E2 d) (factory E c) l c cd IH (frame_open d) Hc2 (c_dec cd) h fs b OK Hl (fine_decs c cd Hc2) Hb) as [A B].
      destruct (hexec_dec (hdecode_open U E E2 d) (hnew E2) (factory E c) l (c_dec cd) (h, b)) as [e [h1 b1]]. auto.
    - destruct (U c) as [u|] eqn:Hu; [|auto]. destruct (forallb _ fs) eqn:FL; [|auto]. destruct (OK l c fs Hl) as (cd & Hcd & FT).
      assert (TY : Forall2 (fun fv ft => fst fv = fst ft /\ is_flat_val (snd fv) = true /\ fits [] (heap_val (snd fv)) (snd ft)) (own_fields fs) (c_fields cd)).
      { clear - FL FT. induction FT as [|[f v] [f' t] fs fts [N F] _ IH]; cbn in *; [constructor|]. apply andb_true_iff in FL. destruct FL as [F1 F2]. constructor; [|apply IH, F2]. cbn. split; [exact N|]. split; [destruct v; try reflexivity; discriminate F1|]. rewrite flat_back by exact F1. eapply fits_flat; eauto. }
      pose proof (users_typed c u (own_fields fs) b cd Hc Hcd Hu Hb TY) as Q. destruct (u (own_fields fs) b) as [[e gs] b1]. destruct Q as [TG B1]. destruct (same_fields (own_fields fs) gs) eqn:SF; [|auto]. cbn [fst snd]. split; [|exact B1].
      apply same_fields_inv in SF. destruct SF as [_ SF]. rewrite own_names in SF. pose proof (own_upd h l c fs gs Hl SF) as K.
      assert (L : forall m vs, nth_error h m = Some (CList vs) -> nth_error (upd h l (CObj c (heap_fields gs))) m = Some (CList vs)).
      { intros m vs Hm. rewrite upd_off; [exact Hm|]. intros ->. congruence. }
      intros m c0 fs0 Hm. destruct (Nat.eq_dec m l) as [->|D].
      + rewrite upd_at in Hm by (eapply nth_lt; eauto). injection Hm as <- <-. exists cd. split; [exact Hcd|]. generalize (upd h l (CObj c (heap_fields gs))). clear - TG. intros h'. unfold heap_fields.
        induction TG as [|[f v] [f' t] gs fts (N & _ & F) _ IH]; cbn in *; constructor; [|exact IH]. cbn. split; [exact N|]. eapply fits_flat; [apply heap_flat|exact F].
      + rewrite upd_off in Hm by exact D. destruct (OK m c0 fs0 Hm) as (cd0 & Hcd0 & F0). exists cd0. split; [exact Hcd0|]. revert K L. generalize (upd h l (CObj c (heap_fields gs))). intros h' K L. clear - K L F0. induction F0 as [|x y fs0 ys [N F] _ IH]; constructor; [|exact IH]. split; [exact N|]. eapply fits_keeps; eauto.
  Qed.

  (* ---- on trees ---- *)
  Variable W : world.
  Hypothesis user_dec : forall c, option_map u_dec (users W c) = option_map lifted_dec (U c).
  Hypothesis user_new : forall c, new_open W E c = new_obj E2 c.
  Lemma repeat_new {S} (f g : S -> option exn * S) : (forall s, f s = g s) -> forall p s, repeat_pos p f s = repeat_pos p g s.
  Proof. intros H p. induction p as [p IH|p IH|]; intros s; cbn [repeat_pos]; rewrite ?H; auto; repeat (rewrite IH; match goal with |- context[repeat_pos p g ?x] => destruct (repeat_pos p g x) as [[?|] ?] end; auto); destruct (g s) as [[?|] ?]; auto; repeat (rewrite IH; match goal with |- context[repeat_pos p g ?x] => destruct (repeat_pos p g x) as [[?|] ?] end; auto). Qed.
  Lemma dstmts_new dec new new' create : (forall c, new c = new' c) -> forall ss st, exec_dec dec new create ss st = exec_dec dec new' create ss st.
  Proof.
    intros H. assert (HE : forall y st, dec_elem dec new y st = dec_elem dec new' y st) by (intros y [l b]; destruct y; try reflexivity; cbn [dec_elem]; rewrite H; reflexivity).
    assert (HS : forall s st, exec_dstmt dec new create s st = exec_dstmt dec new' create s st).
    { intros s [fs b]. destruct s as [n o f|n o f|f len pad lft|f n o|f n o y|f c|f|f key]; try reflexivity; cbn [exec_dstmt]; rewrite ?H; try reflexivity.
      - destruct (read_bytes n b) as [[e|bs] b']; [reflexivity|]. cbv zeta. destruct (get_int o bs >? 0); [|reflexivity]. unfold repeat_z. destruct (get_int o bs); try reflexivity. rewrite (repeat_new _ _ (HE y)). reflexivity.
      - destruct (key_of (get key fs)) as [kk|]; [|reflexivity]. destruct (create kk); [|reflexivity]. rewrite H. reflexivity. }
    induction ss as [|s ss IH]; intros st; cbn [exec_dec]; [reflexivity|]. rewrite HS. destruct (exec_dstmt dec new' create s st) as [[e|] st']; auto.
  Qed.
  Theorem own_open d : ownsim (hdecode_open U E E2 d) (decode_open W E d).
  Proof.
    induction d as [|d IH]; intros h v t b fp O; pose proof (grew_refl h fp) as GR.
    - inversion O; subst; cbn; eauto 8.
    - inversion O as [FN FT|z FN FT|z FN FT|z FN FT|l vs ts fp0 Hl O0 N0 FN FT|l c fs gs fp0 Hl En0 O0 N0 FN FT]; subst; cbn [hdecode_open decode_open]; eauto 8.
      + rewrite Hl. eauto 8.
      + rewrite Hl. destruct (find_class E c) as [cd|].
        * rewrite (dstmts_new _ _ _ _ user_new). pose proof (own_dstmts E2 (hdecode_open U E E2 d) (decode_open W E d) (factory E c) l c IH (c_dec cd) h gs b (l :: fp0) O) as K.
          destruct (hexec_dec (hdecode_open U E E2 d) (hnew E2) (factory E c) l (c_dec cd) (h, b)) as [e [h1 b1]].
          destruct (exec_dec (decode_open W E d) (new_obj E2) (factory E c) (c_dec cd) (gs, b)) as [e2 [gs1 b2]]. destruct K as (<- & <- & K). auto.
        * pose proof (user_dec c) as UD. destruct (U c) as [u|], (users W c) as [x|]; cbn [option_map] in UD; try discriminate UD; [|eauto 8]. injection UD as UD. rewrite UD. unfold lifted_dec.
          destruct (owns_flat h fs gs fp0 O0 En0) as [Q1 Q2]. rewrite <- Q1. destruct (forallb (fun fv : string * hval => is_flat (snd fv)) fs) eqn:FL; [|eauto 8]. destruct (Q2 eq_refl) as [Q3 ->]. rewrite Q3.
          destruct (u gs b) as [[e ks] b1]. destruct (same_fields gs ks) eqn:SF; [|eauto 8]. apply same_fields_inv in SF. destruct SF as [SF SN]. split; [reflexivity|]. split; [reflexivity|]. exists [l]. split.
          -- apply (owns_obj _ l c (heap_fields ks) ks []); [apply upd_at; eapply nth_lt; eauto|symmetry; apply heap_names|apply owns_heap, SF|intros []].
          -- split; [|split]; [rewrite upd_length; auto|intros m _ Hm; apply upd_off; intros ->; apply Hm; left; reflexivity|auto].
  Qed.
End OpenDecode.
