(* Every run of decode on arbitrary bytes, as a relation: what is read, from where, and what the object holds afterwards. *)
From Coq Require Import ZArith List Bool String Lia.
From Verif.Model Require Import JavaPrim ByteBuf Utf8 Codec Ast Interp.
From Verif.Spec Require Import Bytes Buffers Wire Reading.
From Verif.Proofs Require Import BytesFacts BufFacts Utf8Facts Utf8More CodecFacts Conform TableFacts EncodeFacts DecodeFacts.
Import ListNotations.
Open Scope Z_scope.

(* what was read successfully from b *)
Definition took (b : bytebuf) (n : nat) (bs : list Z) : Prop := read_bytes n b = (inr bs, adv b n).
Definition took_chars (b : bytebuf) (n : nat) (bs : list Z) : Prop := read_chars (Z.of_nat n) b = (inr bs, adv b n).

Lemma read_bytes_cases n b : (exists bs, took b n bs) \/ read_bytes n b = (inl IOOBE, b).
Proof. unfold took, read_bytes. destruct (Nat.leb _ _); eauto. Qed.
Lemma read_chars_cases len b : 0 <= len -> (exists bs, took_chars b (Z.to_nat len) bs) \/ read_chars len b = (inl IOOBE, b).
Proof.
  intros H. unfold took_chars. rewrite Z2Nat.id by lia. unfold read_chars.
  destruct (len =? 0) eqn:E0.
  - left. exists []. f_equal. apply Z.eqb_eq in E0. subst. symmetry. apply adv_0.
  - destruct ((len <? 0) || _); eauto.
Qed.

(* formats read in one go: exception, new value (None: the field is not assigned), bytes consumed *)
Inductive rleaf (b : bytebuf) : wire -> option exn -> option val -> nat -> Prop :=
| rl_int n o bs : took b n bs -> rleaf b (WInt n o) None (Some (VInt (get_int o bs))) n
| rl_len n o bs : took b n bs -> rleaf b (WLen n o) None (Some (VInt (get_int o bs))) n
| rl_sum n o alg bs : took b n bs -> rleaf b (WSum n o alg) None (Some (VInt (get_int o bs))) n
| rl_flt n o bs : took b n bs -> rleaf b (WFlt n o) None (Some (VFlt (get_bits o bs))) n
| rl_fix len pad lft bs : took_chars b (Z.to_nat len) bs -> rleaf b (WFix len pad lft) None (Some (VStr (strip pad lft (utf8_decode bs)))) (Z.to_nat len)
| rl_dyn n o bs k cs : took b n bs -> get_int o bs = Z.of_nat k -> (0 < k)%nat -> took_chars (adv b n) k cs ->
    rleaf b (WDyn n o) None (Some (VStr (utf8_decode cs))) (n + k)
| rl_dyn0 n o bs : took b n bs -> get_int o bs <= 0 -> rleaf b (WDyn n o) None None n
| rl_dyn_eof n o bs : took b n bs -> 0 < get_int o bs -> rleaf b (WDyn n o) (Some IOOBE) None n
| rl_eof w : rleaf b w (Some IOOBE) None 0.

Definition listed (x : option val) : list val := match x with Some v => [v] | None => [] end.
Definition assigned (old : val) (x : option val) : val := match x with Some v => v | None => old end.

Section Rel.
  Variable Y : layouts.
  Variable F : string -> key -> option string.

  (* d: stack frames left; relems: k elements to go; rfield: dn are the fields already read, owner the class *)
  Inductive relems : nat -> wire -> nat -> bytebuf -> option exn -> list val -> nat -> Prop :=
  | re_nil d w b : relems d w 0 b None [] 0
  | re_leaf d w k b x n e xs m : rleaf b w None x n -> relems d w k (adv b n) e xs m -> relems d w (S k) b e (listed x ++ xs) (n + m)
  | re_leaf_x d w k b ex x n : rleaf b w (Some ex) x n -> relems d w (S k) b (Some ex) [] n
  | re_obj d c L k b fs n e xs m : find c Y = Some L -> robj d c (blank L) b None fs n -> relems d (WObj c) k (adv b n) e xs m ->
      relems d (WObj c) (S k) b e (VObj c fs :: xs) (n + m)
  | re_obj_x d c L k b ex fs n : find c Y = Some L -> robj d c (blank L) b (Some ex) fs n -> relems d (WObj c) (S k) b (Some ex) [] n
  with rfield : nat -> string -> list (string * val) -> wire -> val -> bytebuf -> option exn -> val -> nat -> Prop :=
  | rf_leaf d owner dn w old b e x n : rleaf b w e x n -> rfield d owner dn w old b e (assigned old x) n
  | rf_obj d owner dn c L old b e fs n : find c Y = Some L -> (old = VNull \/ exists os, old = VObj c os) ->
      robj d c (olds old L) b e fs n -> rfield d owner dn (WObj c) old b e (VObj c fs) n
  | rf_unknown d owner dn k old b : (forall t, key_of (get k dn) = Some t -> F owner t = None) ->
      rfield d owner dn (WBody k) old b (Some IAE) old 0
  | rf_body d owner dn k t c L old b e fs n : key_of (get k dn) = Some t -> F owner t = Some c -> find c Y = Some L ->
      robj d c (blank L) b e fs n -> rfield d owner dn (WBody k) old b e (VObj c fs) n
  | rf_list0 d owner dn n o w bs old b : took b n bs -> get_int o bs <= 0 -> rfield d owner dn (WList n o w) old b None old n
  | rf_list d owner dn n o w bs k old b e xs m : took b n bs -> get_int o bs = Z.of_nat k -> (0 < k)%nat ->
      relems d w k (adv b n) e xs m -> rfield d owner dn (WList n o w) old b e (VList xs) (n + m)
  with rfields : nat -> string -> list (string * val) -> layout -> list (string * val) -> bytebuf -> option exn -> list (string * val) -> nat -> Prop :=
  | rs_nil d owner dn b : rfields d owner dn [] [] b None [] 0
  | rs_cons d owner dn f w L old os b x n e fs m : rfield d owner dn w old b None x n ->
      rfields d owner (dn ++ [(f, x)]) L os (adv b n) e fs m -> rfields d owner dn ((f, w) :: L) ((f, old) :: os) b e ((f, x) :: fs) (n + m)
  | rs_stop d owner dn f w L old os b x n ex : rfield d owner dn w old b (Some ex) x n ->
      rfields d owner dn ((f, w) :: L) ((f, old) :: os) b (Some ex) ((f, x) :: os) n
  with robj : nat -> string -> list (string * val) -> bytebuf -> option exn -> list (string * val) -> nat -> Prop :=
  | ro_deep c os b : robj 0 c os b (Some SOE) os 0
  | ro_obj d c L os b e fs n : find c Y = Some L -> rfields d c [] L os b e fs n -> robj (S d) c os b e fs n.

  Scheme relems_min := Minimality for relems Sort Prop
  with rfield_min := Minimality for rfield Sort Prop
  with rfields_min := Minimality for rfields Sort Prop
  with robj_min := Minimality for robj Sort Prop.
  Combined Scheme rel_min from relems_min, rfield_min, rfields_min, robj_min.
End Rel.

Section Run.
  Variable C : list (string * class_def).
  Variable Y : layouts.
  Hypothesis HC : conforms C Y.
  Variable E : env.
  Hypothesis HE : classes E = C.
  Hypothesis HF : forall o t c, factory E o t = Some c -> known Y c = true.
  Notation relems := (relems Y (factory E)).
  Notation rfield := (rfield Y (factory E)).
  Notation rfields := (rfields Y (factory E)).
  Notation robj := (robj Y (factory E)).

  Definition run_ok (d : nat) : Prop := forall c os b, typed C (VObj c os) (TObj c) = true ->
    exists e fs n, decode E d (VObj c os) b = (e, VObj c fs, adv b n) /\ robj d c os b e fs n.

  Lemma new_known c : known Y c = true -> exists L, find c Y = Some L /\ new_obj E c = VObj c (blank L) /\ typed C (VObj c (blank L)) (TObj c) = true.
  Proof.
    unfold known. destruct (find c Y) as [L|] eqn:HL; [|discriminate]. intros _. exists L. split; auto. split.
    - rewrite (new_blank C Y HC E HE). unfold blank_obj. rewrite HL. reflexivity.
    - apply (typed_blank C Y HC); auto.
  Qed.

  Lemma ok_fix len pad : (0 <? len) && ok_pad pad = true -> 0 < len /\ 0 <= pad < 128.
  Proof. unfold ok_pad. lia. Qed.

  Lemma run_elem d w l b : run_ok d -> ok_elem Y w = true ->
    (exists x n, dec_elem (decode E d) (new_obj E) (compile_delem w) (l, b) = (None, (l ++ listed x, adv b n))
       /\ (rleaf b w None x n \/ exists c L fs, w = WObj c /\ x = Some (VObj c fs) /\ find c Y = Some L /\ robj d c (blank L) b None fs n))
    \/ (exists ex n, dec_elem (decode E d) (new_obj E) (compile_delem w) (l, b) = (Some ex, (l, adv b n))
       /\ ((exists x, rleaf b w (Some ex) x n) \/ exists c L fs, w = WObj c /\ find c Y = Some L /\ robj d c (blank L) b (Some ex) fs n)).
  Proof.
    intros IH Hok. destruct w; try discriminate Hok; cbn [compile_delem dec_elem].
    - destruct (read_bytes_cases n b) as [[bs T]|R].
      + left. rewrite T. eexists (Some _), n. split; [reflexivity|]. left. constructor. exact T.
      + right. rewrite R. exists IOOBE, O. rewrite adv_0. split; [reflexivity|]. left. eexists. apply rl_eof.
    - destruct (read_bytes_cases n b) as [[bs T]|R].
      + left. rewrite T. eexists (Some _), n. split; [reflexivity|]. left. constructor. exact T.
      + right. rewrite R. exists IOOBE, O. rewrite adv_0. split; [reflexivity|]. left. eexists. apply rl_eof.
    - apply ok_fix in Hok. unfold read_fixed. destruct (read_chars_cases len b ltac:(lia)) as [[bs T]|R].
      + left. pose proof T as T'. unfold took_chars in T'. rewrite Z2Nat.id in T' by lia. rewrite T'.
        eexists (Some _), (Z.to_nat len). split; [|left; apply rl_fix; exact T]. destruct lft; rewrite trim_spec; reflexivity.
      + right. rewrite R. exists IOOBE, O. rewrite adv_0. split; [reflexivity|]. left. eexists. apply rl_eof.
    - destruct (read_bytes_cases n b) as [[bs T]|R].
      + rewrite T. destruct (Z.gtb_spec (get_int o bs) 0) as [G|G].
        * destruct (read_chars_cases (get_int o bs) (adv b n) ltac:(lia)) as [[cs T2]|R].
          -- left. pose proof T2 as T'. unfold took_chars in T'. rewrite Z2Nat.id in T' by lia. rewrite T'. rewrite adv_adv.
             eexists (Some _), (n + Z.to_nat (get_int o bs))%nat. split; [reflexivity|]. left. eapply rl_dyn; eauto; lia.
          -- right. rewrite R. exists IOOBE, n. split; [reflexivity|]. left. eexists. eapply rl_dyn_eof; eauto.
        * left. exists None, n. split; [cbn; rewrite app_nil_r; reflexivity|]. left. eapply rl_dyn0; eauto.
      + right. rewrite R. exists IOOBE, O. rewrite adv_0. split; [reflexivity|]. left. eexists. apply rl_eof.
    - destruct (new_known c Hok) as (L & HL & -> & Ht).
      destruct (IH c (blank L) b Ht) as (e & fs & n & -> & R). destruct e as [ex|].
      + right. exists ex, n. split; [reflexivity|]. right. eauto 7.
      + left. exists (Some (VObj c fs)), n. split; [reflexivity|]. right. eauto 8.
  Qed.

  Lemma run_elems d w : run_ok d -> ok_elem Y w = true -> forall k l b,
    exists e xs n, iter k (dec_elem (decode E d) (new_obj E) (compile_delem w)) (l, b) = (e, (l ++ xs, adv b n)) /\ relems d w k b e xs n.
  Proof.
    intros IH Hok. induction k as [|k IHk]; intros l b.
    - exists None, [], O. cbn. rewrite app_nil_r, adv_0. split; [reflexivity|constructor].
    - cbn [iter]. destruct (run_elem d w l b IH Hok) as [(x & n & -> & R)|(ex & n & -> & R)].
      + destruct (IHk (l ++ listed x) (adv b n)) as (e & xs & m & -> & R2). exists e, (listed x ++ xs), (n + m)%nat.
        rewrite app_assoc, adv_adv. split; [reflexivity|]. destruct R as [R|(c & L & fs & -> & -> & HL & R)].
        * eapply re_leaf; eauto.
        * eapply re_obj; eauto.
      + exists (Some ex), [], n. rewrite app_nil_r. split; [reflexivity|]. destruct R as [[x R]|(c & L & fs & -> & HL & R)].
        * eapply re_leaf_x; eauto.
        * eapply re_obj_x; eauto.
  Qed.

  Lemma run_field d owner f w old dn os b : run_ok d -> ok_field Y w = true ->
    existsb (fun fw : string * val => String.eqb f (fst fw)) dn = false ->
    match w with WBody k => existsb (fun fw : string * val => String.eqb k (fst fw)) dn = true | _ => True end ->
    typed C old (wire_type w) = true ->
    exists e x n, exec_dec (decode E d) (new_obj E) (factory E owner) (dec_stmts f w) (dn ++ (f, old) :: os, b) = (e, (dn ++ (f, x) :: os, adv b n))
      /\ rfield d owner dn w old b e x n.
  Proof.
    intros IH Hok Hf Hk Ho.
    assert (G : forall y, get f (dn ++ (f, y) :: os) = y) by (intros; apply get_mid; auto).
    assert (S : forall y y', set f y' (dn ++ (f, y) :: os) = dn ++ (f, y') :: os) by (intros; apply set_mid; auto).
    assert (Hint : forall n o, (forall bs, took b n bs -> rleaf b w None (Some (VInt (get_int o bs))) n) ->
       exists e x m, exec_dec (decode E d) (new_obj E) (factory E owner) [DRead n o f] (dn ++ (f, old) :: os, b) = (e, (dn ++ (f, x) :: os, adv b m))
         /\ rfield d owner dn w old b e x m).
    { intros n o Hl. cbn [exec_dec exec_dstmt]. destruct (read_bytes_cases n b) as [[bs T]|R].
      - rewrite T, S. eexists _, _, _. split; [reflexivity|]. exact (rf_leaf _ _ _ _ _ _ _ _ _ _ _ (Hl bs T)).
      - rewrite R. exists (Some IOOBE), old, O. rewrite adv_0. split; [reflexivity|]. exact (rf_leaf _ _ _ _ _ _ _ _ _ _ _ (rl_eof b w)). }
    assert (Heof : rfield d owner dn w old b (Some IOOBE) old 0) by exact (rf_leaf _ _ _ _ _ _ _ _ _ _ _ (rl_eof b w)).
    destruct w; cbn [dec_stmts].
    - apply Hint. intros. constructor. auto.
    - cbn [exec_dec exec_dstmt]. destruct (read_bytes_cases n b) as [[bs T]|R].
      + rewrite T, S. eexists _, _, _. split; [reflexivity|]. exact (rf_leaf _ _ _ _ _ _ _ _ _ _ _ (rl_flt _ _ _ _ T)).
      + rewrite R. exists (Some IOOBE), old, O. rewrite adv_0. split; [reflexivity|]. auto.
    - apply ok_fix in Hok. cbn [exec_dec exec_dstmt]. unfold read_fixed. destruct (read_chars_cases len b ltac:(lia)) as [[bs T]|R].
      + pose proof T as T'. unfold took_chars in T'. rewrite Z2Nat.id in T' by lia. rewrite T'.
        exists None, (VStr (strip pad lft (utf8_decode bs))), (Z.to_nat len). split; [destruct lft; rewrite S, trim_spec; reflexivity|].
        exact (rf_leaf _ _ _ _ _ _ _ _ _ _ _ (rl_fix _ _ pad lft _ T)).
      + rewrite R. exists (Some IOOBE), old, O. rewrite adv_0. split; [reflexivity|]. auto.
    - cbn [exec_dec exec_dstmt]. destruct (read_bytes_cases n b) as [[bs T]|R].
      + rewrite T. destruct (Z.gtb_spec (get_int o bs) 0) as [Gt|Gt].
        * destruct (read_chars_cases (get_int o bs) (adv b n) ltac:(lia)) as [[cs T2]|R].
          -- pose proof T2 as T'. unfold took_chars in T'. rewrite Z2Nat.id in T' by lia. rewrite T'. rewrite adv_adv, S.
             eexists None, _, (n + Z.to_nat (get_int o bs))%nat. split; [reflexivity|].
             refine (rf_leaf _ _ _ _ _ _ _ _ _ _ _ (rl_dyn b n o bs _ cs T _ _ T2)); lia.
          -- rewrite R. exists (Some IOOBE), old, n. split; [reflexivity|]. exact (rf_leaf _ _ _ _ _ _ _ _ _ _ _ (rl_dyn_eof b n o bs T ltac:(lia))).
        * exists None, old, n. split; [reflexivity|]. exact (rf_leaf _ _ _ _ _ _ _ _ _ _ _ (rl_dyn0 b n o bs T ltac:(lia))).
      + rewrite R. exists (Some IOOBE), old, O. rewrite adv_0. split; [reflexivity|]. auto.
    - destruct (new_known c Hok) as (L & HL & En & Ht). cbn [exec_dec exec_dstmt]. rewrite G.
      destruct (typed_tobj C old c Ho) as [->|(os' & ->)].
      + rewrite S. cbn [exec_dstmt]. rewrite G, En. destruct (IH c (blank L) b Ht) as (e & fs & n & -> & R). rewrite S.
        exists e, (VObj c fs), n. split; [destruct e; reflexivity|]. eapply rf_obj; eauto.
      + cbn [exec_dstmt]. rewrite G. destruct (IH c os' b Ho) as (e & fs & n & -> & R). rewrite S.
        exists e, (VObj c fs), n. split; [destruct e; reflexivity|]. eapply rf_obj; eauto.
    - cbn [exec_dec exec_dstmt]. rewrite get_app by exact Hk.
      destruct (key_of (get key dn)) as [t|] eqn:Ek.
      + destruct (factory E owner t) as [c|] eqn:Ef.
        * destruct (new_known c (HF _ _ _ Ef)) as (L & HL & En & Ht). rewrite S. cbn [exec_dstmt]. rewrite G, En.
          destruct (IH c (blank L) b Ht) as (e & fs & n & -> & R). rewrite S. exists e, (VObj c fs), n. split; [destruct e; reflexivity|].
          eapply rf_body; eauto.
        * exists (Some IAE), old, O. rewrite adv_0. split; [reflexivity|]. apply rf_unknown. intros t' Et. rewrite Ek in Et. injection Et as <-. exact Ef.
      + exists (Some IAE), old, O. rewrite adv_0. split; [reflexivity|]. apply rf_unknown. intros t' Et. rewrite Ek in Et. discriminate.
    - cbn [ok_field] in Hok. apply andb_true_iff in Hok as [Hc Hok]. cbn [exec_dec exec_dstmt]. destruct (read_bytes_cases n b) as [[bs T]|R].
      + rewrite T. destruct (Z.gtb_spec (get_int o bs) 0) as [Gt|Gt].
        * rewrite repeat_z_iter. destruct (run_elems d w IH Hok (Z.to_nat (get_int o bs)) [] (adv b n)) as (e & xs & m & -> & R2).
          cbn [app]. rewrite S, adv_adv. exists e, (VList xs), (n + m)%nat. split; [destruct e; reflexivity|].
          apply (rf_list _ _ d owner dn n o w bs (Z.to_nat (get_int o bs))); [exact T|lia|lia|exact R2].
        * exists None, old, n. split; [reflexivity|]. eapply rf_list0; eauto.
      + rewrite R. exists (Some IOOBE), old, O. rewrite adv_0. split; [reflexivity|]. auto.
    - apply Hint. intros. constructor. auto.
    - apply Hint. intros. constructor. auto.
  Qed.

  Lemma run_fields d owner : run_ok d -> forall L seen dn os b, ok_fields Y seen L = true -> map fst dn = map fst seen -> fields_ok C os L = true ->
    exists e fs n, exec_dec (decode E d) (new_obj E) (factory E owner) (compile_dec L) (dn ++ os, b) = (e, (dn ++ fs, adv b n))
      /\ rfields d owner dn L os b e fs n.
  Proof.
    intros IHd. induction L as [|[f w] L IH]; intros seen dn os b Hok N Hos.
    - destruct os; [|discriminate]. exists None, [], O. cbn. rewrite adv_0. split; [reflexivity|constructor].
    - destruct os as [|[f2 old] os]; [discriminate|]. apply fields_ok_cons in Hos as (-> & Ho & Hos).
      apply ok_field_of in Hok as (Hf & Hw & Hok & Hkey). rewrite compile_dec_cons, exec_dec_app.
      destruct (run_field d owner f w old dn os b IHd Hw) as (e & x & n & R & Rf); auto.
      + rewrite (existsb_names f dn seen N). exact Hf.
      + destruct w; auto. rewrite (existsb_names key dn seen N). destruct (find key seen) eqn:Ek; [|contradiction]. eapply find_in; eauto.
      + rewrite R. destruct e as [ex|].
        * exists (Some ex), ((f, x) :: os), n. split; [reflexivity|]. apply rs_stop. exact Rf.
        * replace (dn ++ (f, x) :: os) with ((dn ++ [(f, x)]) ++ os) by (rewrite <- app_assoc; reflexivity).
          destruct (IH (seen ++ [(f, w)]) (dn ++ [(f, x)]) os (adv b n) Hok) as (e & fs & m & -> & Rs); auto.
          { rewrite !map_app, N. reflexivity. }
          exists e, ((f, x) :: fs), (n + m)%nat. rewrite adv_adv, <- app_assoc. split; [reflexivity|]. eapply rs_cons; eauto.
  Qed.

  Theorem run_all d : run_ok d.
  Proof.
    induction d as [|d IH]; intros c os b Ht.
    - exists (Some SOE), os, O. rewrite adv_0. split; [reflexivity|constructor].
    - destruct (typed_obj_known C Y c os _ HC Ht) as [L HL].
      pose proof (conforms_find C Y c HC) as Fd. rewrite HL in Fd. destruct Fd as (cd & E1 & _ & _ & _ & E2).
      cbn [decode]. unfold find_class. rewrite HE, E1, E2.
      destruct (run_fields d c IH L [] [] os b (conforms_ok C Y c L HC HL) eq_refl (typed_obj C Y c os _ L HC HL Ht)) as (e & fs & n & R & Rf).
      cbn [app] in R. rewrite R. exists e, fs, n. split; [reflexivity|]. eapply ro_obj; eauto.
  Qed.
End Run.
