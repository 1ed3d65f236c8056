(* encode of a message whose body is an object of a user's class. *)
From Coq Require Import ZArith List Bool String Lia.
From Verif.Model Require Import JavaPrim ByteBuf Utf8 Codec Ast Interp Open.
From Verif.Spec Require Import Bytes Buffers Wire Reading Open.
From Verif.Proofs Require Import BytesFacts BufFacts CodecFacts ValInd Conform TableFacts EncodeFacts DecodeFacts OpenFacts.
Import ListNotations.
Open Scope Z_scope.

(* fields behind those a run uses stay as they are *)
Lemma hd_get g (fs ex : list (string * val)) : In g (map fst fs) -> get g (fs ++ ex) = get g fs.
Proof. induction fs as [|[h y] fs IH]; intros H; [contradiction|]. cbn [app get]. destruct (String.eqb_spec g h) as [->|N]; [reflexivity|]. destruct H as [H|H]; [cbn in H; congruence|auto]. Qed.
Lemma hd_set g x (fs ex : list (string * val)) : In g (map fst fs) -> set g x (fs ++ ex) = set g x fs ++ ex.
Proof. induction fs as [|[h y] fs IH]; intros H; [contradiction|]. cbn [app set]. destruct (String.eqb_spec g h) as [->|N]; [reflexivity|]. destruct H as [H|H]; [cbn in H; congruence|]. rewrite IH by exact H. reflexivity. Qed.
Lemma set_fst g x (fs : list (string * val)) : map fst (set g x fs) = map fst fs.
Proof. induction fs as [|[h y] fs IH]; [reflexivity|]. cbn [set]. destruct (String.eqb_spec g h) as [->|]; cbn [map fst]; congruence. Qed.
Lemma tl_get g (dn fs : list (string * val)) : ~ In g (map fst dn) -> get g (dn ++ fs) = get g fs.
Proof. induction dn as [|[h y] dn IH]; intros H; [reflexivity|]. cbn [app get]. destruct (String.eqb_spec g h) as [->|N]; [exfalso; apply H; left; reflexivity|]. apply IH. intros I. apply H. right. exact I. Qed.
Section Trailing.
  Variable enc : val -> bytebuf -> option exn * val * bytebuf.
  Variable sums : string -> option (list Z -> Z).
  Variable ex : list (string * val).
  Definition with_ex (r : option exn * est) : option exn * est := let '(e, (fs, loc, b)) := r in (e, (fs ++ ex, loc, b)).
  Lemma trailing_stmt s fs loc b : (forall g, In g (uses s) -> In g (map fst fs)) ->
    exec_estmt enc sums s (fs ++ ex, loc, b) = with_ex (exec_estmt enc sums s (fs, loc, b)) /\ map fst (fst (fst (snd (exec_estmt enc sums s (fs, loc, b))))) = map fst fs.
  Proof.
    intros U. destruct s; cbn [exec_estmt uses] in *; try (assert (IF := U f (or_introl eq_refl))); try rewrite (hd_get f fs ex IF).
    - destruct (get f fs) as [|z|z|s|l|c gs]; try (split; reflexivity). destruct (write_int o n z b). split; reflexivity.
    - destruct (get f fs) as [|z|z|s|l|c gs]; try (split; reflexivity). destruct (write_int o n z b). split; reflexivity.
    - destruct (string_of (get f fs)); [|split; reflexivity]. destruct (write_fixed _ _ _ _ b). split; reflexivity.
    - destruct (string_of (get f fs)); [|split; reflexivity]. destruct (write_dyn _ _ _ _ _ b). split; reflexivity.
    - destruct (get f fs) as [|z|z|s|l|c gs]; try (split; reflexivity).
      + destruct (write_int zo zn 0 b). split; reflexivity.
      + destruct l as [|v l]; [destruct (write_int zo zn 0 b); split; reflexivity|]. destruct (write_int o n (wrap cast (Z.of_nat (List.length (v :: l)))) b) as [[e|] b']; [split; reflexivity|].
        destruct (enc_elems enc x (v :: l) b') as [[e l'] b'']. cbn [with_ex fst snd]. rewrite (hd_set f _ fs ex IF), set_fst. split; reflexivity.
    - destruct (enc (get f fs) b) as [[e v'] b']. cbn [with_ex fst snd]. rewrite (hd_set f _ fs ex IF), set_fst. split; reflexivity.
    - destruct (get f fs) as [|z|z|s|l|c gs]; try (split; reflexivity); match goal with |- context [enc ?v b] => destruct (enc v b) as [[e v'] b'] end; cbn [with_ex fst snd]; rewrite (hd_set f _ fs ex IF), set_fst; split; reflexivity.
    - split; reflexivity.
    - destruct (write_int o n 0 b). split; reflexivity.
    - destruct (assoc x loc); [|split; reflexivity]. destruct (assoc y loc); [|split; reflexivity]. cbn [with_ex fst snd]. rewrite (hd_set f _ fs ex IF), set_fst. split; reflexivity.
    - destruct (assoc x loc) as [i|]; [|split; reflexivity]. destruct (get f fs) as [|z|z|s|l|c gs]; try (split; reflexivity). destruct (set_int o n i z b). split; reflexivity.
    - destruct (sums alg); [|split; reflexivity]. cbn [with_ex fst snd]. rewrite (hd_set f _ fs ex IF), set_fst. split; reflexivity.
  Qed.
  Lemma trailing ss : forall fs loc b, (forall s g, In s ss -> In g (uses s) -> In g (map fst fs)) -> exec_enc enc sums ss (fs ++ ex, loc, b) = with_ex (exec_enc enc sums ss (fs, loc, b)).
  Proof.
    induction ss as [|s ss IH]; intros fs loc b U; [reflexivity|]. cbn [exec_enc]. destruct (trailing_stmt s fs loc b) as [-> N]; [intros g; apply U; left; reflexivity|].
    destruct (exec_estmt enc sums s (fs, loc, b)) as [[e|] [[fs1 loc1] b1]]; cbn [with_ex fst snd] in *; [reflexivity|]. apply IH. intros s' g I1 I2. rewrite N. apply (U s' g); [right; exact I1|exact I2].
  Qed.
End Trailing.

Lemma compile_app A R : forallb (fun fw => simple_wire (snd fw)) A = true -> compile_enc (A ++ R) = compile_enc A ++ compile_enc R.
Proof.
  induction A as [|[f w] A IH]; intros H; [reflexivity|]. cbn [forallb snd] in H. apply andb_true_iff in H as [H1 H]. rewrite <- app_comm_cons, !compile_simple by exact H1. rewrite IH by exact H. reflexivity.
Qed.
Lemma open_app enc W s1 s2 st : exec_enc_open enc W (s1 ++ s2) st = match exec_enc_open enc W s1 st with (None, st') => exec_enc_open enc W s2 st' | x => x end.
Proof. revert st. induction s1 as [|s s1 IH]; intros st; [reflexivity|]. cbn [app exec_enc_open]. destruct (exec_estmt_open enc W s st) as [[e|] st']; [reflexivity|apply IH]. Qed.
Lemma compile_uses Y : forall m L seen s g, (List.length L <= m)%nat -> ok_fields Y seen L = true -> In s (compile_enc L) -> In g (uses s) -> In g (map fst L).
Proof.
  induction m as [|m IH]; intros L seen s g Hm Hok HI HG; [destruct L; [contradiction|simpl in Hm; lia]|]. destruct L as [|[f w] L]; [contradiction|]. simpl in Hm.
  assert (R : forall seen L', ok_fields Y seen L' = true -> (List.length L' <= List.length L)%nat -> In s (compile_enc L') -> In g (map fst L')) by (intros se L' O Q I; apply (IH L' se s g); auto; lia).
  destruct w; try (rewrite compile_simple in HI by reflexivity; destruct HI as [<-|HI]; [cbn [stmt_of uses] in HG; destruct HG as [<-|[]]; left; reflexivity|right; apply ok_field_of in Hok as (_ & _ & Hok & _); exact (R _ L Hok (le_n _) HI)]).
  - cbn [compile_enc] in HI. cbn [ok_fields] in Hok. apply andb_true_iff in Hok as [Hok H3]. destruct L as [|[g' wg] L]; [rewrite andb_false_r in Hok; apply andb_true_iff in Hok as [_ Hok]; discriminate|].
    destruct wg; try (contradiction HI). cbn [ok_fields] in H3. apply andb_true_iff in H3 as [_ H3].
    repeat (destruct HI as [<-|HI]; [cbn [uses In] in HG; repeat (destruct HG as [HG|HG]; [subst g; cbn [map fst In]; auto|]); try contradiction HG|]). right. right. apply (R _ L H3); auto. simpl. lia.
  - cbn [compile_enc] in HI. apply ok_field_of in Hok as (_ & _ & Hok & _). destruct HI as [<-|[<-|HI]]; [destruct HG as [<-|[]]; left; reflexivity|destruct HG as [<-|[]]; left; reflexivity|]. right. exact (R _ L Hok (le_n _) HI).
Qed.
Lemma compile_sum : forall m L alg f, (List.length L <= m)%nat -> In (ESum alg f) (compile_enc L) -> exists n o, In (f, WSum n o alg) L.
Proof.
  induction m as [|m IH]; intros L alg f Hm HI; [destruct L; [contradiction|simpl in Hm; lia]|]. destruct L as [|[g w] L]; [contradiction|]. simpl in Hm.
  assert (R : forall L', (List.length L' <= List.length L)%nat -> In (ESum alg f) (compile_enc L') -> exists n o, In (f, WSum n o alg) L') by (intros L' Q I; apply (IH L'); auto; lia).
  destruct w; try (rewrite compile_simple in HI by reflexivity; destruct HI as [HI|HI]; [discriminate HI|destruct (R L (le_n _) HI) as (n' & o' & K); exists n', o'; right; exact K]).
  - cbn [compile_enc] in HI. destruct L as [|[g' wg] L]; [contradiction|]. destruct wg; try (contradiction HI). repeat (destruct HI as [HI|HI]; [discriminate HI|]). destruct (R L) as (n' & o' & K); [simpl; lia|exact HI|]. exists n', o'. right. right. exact K.
  - cbn [compile_enc] in HI. destruct HI as [HI|[HI|HI]]; [|discriminate HI|].
    + injection HI as <- <-. exists n, o. left. reflexivity.
    + destruct (R L (le_n _) HI) as (n' & o' & K). exists n', o'. right. exact K.
Qed.
Lemma ok_prefix Y : forall A R seen, forallb (fun fw => simple_wire (snd fw)) A = true -> ok_fields Y seen (A ++ R) = true -> ok_fields Y seen A = true /\ ok_fields Y (seen ++ A) R = true.
Proof.
  induction A as [|[f w] A IH]; intros R seen S H; [rewrite app_nil_r; auto|]. cbn [forallb snd] in S. apply andb_true_iff in S as [S1 S]. rewrite <- app_comm_cons in H.
  assert (K : ok_fields Y (seen ++ [(f, w)]) (A ++ R) = true) by (apply ok_field_of in H; apply H). destruct (IH R _ S K) as [K1 K2]. rewrite <- app_assoc in K2. split; [|exact K2].
  cbn [ok_fields] in *. apply andb_true_iff in H as [H _]. rewrite K1, andb_true_r. destruct w; try exact H; discriminate S1.
Qed.

Section Frame.
  Variable C : list (string * class_def).
  Variable Y : layouts.
  Hypothesis HC : conforms C Y.
  Variable E : env.
  Hypothesis HE : classes E = C.
  Variable W : world.
  Variable ok : string -> bool.
  Hypothesis ok_known : forall c, ok c = true -> of_library E c = true.
  Hypothesis HW : forall c cd alg f, ok c = true -> find_class E c = Some cd -> In (ESum alg f) (c_enc cd) -> computes W E alg.
  Notation closed := (made_of ok).
  Notation clean := (all_closed ok).
  Notation sums := (checksum E).

  (* statements for some of the fields, all of library values: as in the closed world *)
  Lemma run_closed d ss fs loc b : (forall alg f, In (ESum alg f) ss -> computes W E alg) -> (forall s g, In s ss -> In g (uses s) -> closed (get g fs) = true) ->
    exec_enc_open (encode_open W E d) W ss (fs, loc, b) = exec_enc (encode E d) sums ss (fs, loc, b).
  Proof. intros S U. exact (proj1 (stmts_closed W E ok (encode E d) (encode_open W E d) (encode_closed W E ok ok_known HW d) ss fs loc b S U)). Qed.
  Lemma run_first d A seen afs ex loc b : forallb (fun fw => simple_wire (snd fw)) A = true -> ok_fields Y seen A = true -> map fst afs = map fst A -> clean afs = true ->
    exec_enc_open (encode_open W E d) W (compile_enc A) (afs ++ ex, loc, b) = with_ex ex (exec_enc (encode E d) sums (compile_enc A) (afs, loc, b)).
  Proof.
    intros S O N K. assert (U : forall s g, In s (compile_enc A) -> In g (uses s) -> In g (map fst afs)) by (intros s g I1 I2; rewrite N; exact (compile_uses Y _ A seen s g (le_n _) O I1 I2)).
    rewrite run_closed; [apply trailing; exact U| |].
    - intros alg f I. destruct (compile_sum _ A alg f (le_n _) I) as (n & o & I'). exfalso. rewrite forallb_forall in S. specialize (S _ I'). discriminate S.
    - intros s g I1 I2. rewrite hd_get by exact (U s g I1 I2). apply closed_get. exact K.
  Qed.
  Lemma run_last d B seen dn bfs loc b : ok_fields Y seen B = true -> map fst dn = map fst seen -> fields_ok C bfs B = true -> clean bfs = true ->
    (forall f n o alg, In (f, WSum n o alg) B -> computes W E alg) -> wf b ->
    fpost Y E d dn bfs B b (exec_enc_open (encode_open W E d) W (compile_enc B) (dn ++ bfs, loc, b)).
  Proof.
    intros O N F K S H. rewrite run_closed; [exact (enc_fields_post C Y E d (enc_all C Y HC E HE d) _ B (le_n _) seen dn bfs loc b O N F H)| |].
    - intros alg f I. destruct (compile_sum _ B alg f (le_n _) I) as (n & o & I'). exact (S _ _ _ _ I').
    - intros s g I1 I2. pose proof (compile_uses Y _ B seen s g (le_n _) O I1 I2) as G. rewrite tl_get; [apply closed_get; exact K|]. rewrite N. clear - O G. intros I. revert seen O I. induction B as [|[h w] B IH]; intros seen O I; [contradiction|].
      apply ok_field_of in O as (O1 & _ & O & _). destruct G as [<-|G].
      + cbn [fst] in I. apply in_map_iff in I as ([k y] & Q & I). cbn in Q. subst k. assert (existsb (fun fw : string * wire => String.eqb h (fst fw)) seen = true) by (apply existsb_exists; exists (h, y); split; [exact I|apply String.eqb_refl]). congruence.
      + apply (IH G (seen ++ [(h, w)]) O). rewrite map_app. apply in_or_app. left. exact I.
  Qed.

  (* the length field (if there is one) and the body, which may be of a user's class *)
  Definition len_fields (M : layout) (n : nat) : list (string * val) := match M with (lf, WLen _ _) :: _ => [(lf, VInt (Z.of_nat n))] | _ => [] end.
  Definition grows (d : nat) (x : val) : Prop := forall b x' b', wf b -> body_call W E d x b = (None, x', b') -> wf b' /\ exists bs, appended b bs b'.
  Definition mid_post (d : nat) (x : val) M bf dn mfs (td : list (string * val)) b (r : option exn * est) : Prop :=
    match r with
    | (None, (fs1, _, b1)) => exists body x' b0 b0', appended b (blank M) b0 /\ wf b0 /\ body_call W E d x b0 = (None, x', b0') /\ appended b0 body b0'
        /\ fs1 = dn ++ len_fields M (List.length body) ++ (bf, x') :: td /\ appended b (length_bytes M (List.length body) ++ body) b1 /\ wf b1
    | (Some e, (fs1, _, b1)) => (e = IOOBE /\ broken b b1)
        \/ exists b0 x', appended b (blank M) b0 /\ wf b0 /\ body_call W E d x b0 = (Some e, x', b1) /\ fs1 = dn ++ mfs ++ (bf, x') :: td
    end.
  Definition plain_mid (M : layout) : bool := match M with [] => true | [(_, WLen _ _)] => true | _ => false end.
  Lemma exec_body d f dn x td loc b : existsb (fun fw : string * val => String.eqb f (fst fw)) dn = false ->
    exec_estmt_open (encode_open W E d) W (EObjOpt f) (dn ++ (f, x) :: td, loc, b) = (let '(e, x', b') := body_call W E d x b in (e, (dn ++ (f, x') :: td, loc, b'))).
  Proof.
    intros Hf. cbn [exec_estmt_open exec_estmt]. rewrite get_mid by exact Hf. unfold body_call.
    destruct x; try reflexivity; match goal with |- context [encode_open W E d ?y b] => destruct (encode_open W E d y b) as [[e v'] b'] end; rewrite set_mid by exact Hf; reflexivity.
  Qed.
  Lemma run_mid d x M bf k B seen dn mfs td loc b : grows d x -> plain_mid M = true ->
    ok_fields Y seen (M ++ (bf, WBody k) :: B) = true -> map fst dn = map fst seen -> fields_ok C mfs M = true -> wf b ->
    mid_post d x M bf dn mfs td b (exec_enc_open (encode_open W E d) W (compile_enc (M ++ [(bf, WBody k)])) (dn ++ mfs ++ (bf, x) :: td, loc, b)).
  Proof.
    intros Ap PM Hok N Hm H. destruct M as [|[lf w] M].
    - destruct mfs; [|discriminate]. cbn [app]. cbn [app] in Hok. apply ok_field_of in Hok as (Hf & _ & _ & _). rewrite <- (existsb_names bf dn seen N) in Hf.
      cbn [compile_enc app exec_enc_open]. rewrite exec_body by exact Hf. destruct (body_call W E d x b) as [[[e|] x'] b0'] eqn:EU.
      + right. exists b, x'. split; [apply appended_nil|]. auto.
      + destruct (Ap b x' b0' H EU) as (W1 & body & A1). exists body, x', b, b0'. cbn [blank len_fields length_bytes app]. split; [apply appended_nil|]. auto 10.
    - cbn [plain_mid] in PM. destruct w; try discriminate PM. destruct M; [|discriminate PM]. destruct mfs as [|[lf' y] mfs]; [discriminate|]. apply fields_ok_cons in Hm as (-> & Hy & Hm). destruct mfs; [|discriminate].
      rewrite <- app_comm_cons in Hok. cbn [app] in Hok.
      cbn [ok_fields] in Hok. apply andb_true_iff in Hok as [Hok Hok3]. apply andb_true_iff in Hok as [Hok1 Hok2].
      apply andb_true_iff in Hok2 as [Hn4 Hok2]. apply Nat.eqb_eq in Hn4. subst n.
      apply andb_true_iff in Hok2 as [Hok2 M3]. apply andb_true_iff in Hok2 as [Hok2 M2]. apply andb_true_iff in Hok2 as [M0 M1].
      apply negb_true_iff in Hok1, M0, M1, M2, M3. apply andb_true_iff in Hok3 as [Hok3 _]. apply andb_true_iff in Hok3 as [Hok3 _]. apply negb_true_iff in Hok3.
      destruct (typed_int C y 4 o eq_refl Hy) as (z & -> & _).
      assert (Hf : existsb (fun fw : string * val => String.eqb lf (fst fw)) dn = false) by (rewrite (existsb_names lf dn seen N); exact Hok1).
      assert (Hg : forall v, existsb (fun fw : string * val => String.eqb bf (fst fw)) (dn ++ [(lf, v)]) = false).
      { intros v. rewrite (existsb_names bf _ (seen ++ [(lf, WLen 4 o)])); [exact Hok3|]. apply names_snoc; auto. }
      cbn [app compile_enc]. set (fp := (lf ++ "Pos")%string) in *. set (gs := (bf ++ "Start")%string) in *. set (ge := (bf ++ "End")%string) in *.
      assert (OC : forall s r st, exec_enc_open (encode_open W E d) W (s :: r) st = match exec_estmt_open (encode_open W E d) W s st with (None, st') => exec_enc_open (encode_open W E d) W r st' | q => q end) by reflexivity.
      rewrite OC. cbn [exec_estmt_open exec_estmt]. rewrite OC. cbn [exec_estmt_open exec_estmt]. pose proof (wrote_int o 4 0 b H) as Hz. rewrite number_zero in Hz.
      destruct (write_int o 4 0 b) as [[e|] b1] eqn:E1.
      + destruct Hz as (-> & F & W0 & X). left. split; [reflexivity|]. split; auto.
      + destruct Hz as [A1 W1]. pose proof (appended_widx _ _ _ H W1 A1) as Wi1. rewrite repeat_length in Wi1.
        replace (dn ++ (lf, VInt z) :: (bf, x) :: td) with ((dn ++ [(lf, VInt z)]) ++ (bf, x) :: td) by (rewrite <- app_assoc; reflexivity).
        rewrite OC. cbn [exec_estmt_open exec_estmt]. rewrite OC, exec_body by apply Hg. destruct (body_call W E d x b1) as [[[e|] x'] b2] eqn:EU.
        * right. exists b1, x'. split; [exact A1|]. split; [exact W1|]. split; [exact EU|]. rewrite <- app_assoc. reflexivity.
        * destruct (Ap b1 x' b2 W1 EU) as (W2 & body & A2).
          pose proof (appended_trans _ _ _ _ _ A1 A2) as A12. pose proof (appended_widx _ _ _ W1 W2 A2) as Wi2.
          rewrite OC. cbn [exec_estmt_open exec_estmt]. rewrite OC. cbn [exec_estmt_open exec_estmt assoc]. rewrite !String.eqb_refl. rewrite M3.
          assert (S1 : forall v v' y', set lf v' ((dn ++ [(lf, v)]) ++ (bf, y') :: td) = dn ++ (lf, v') :: (bf, y') :: td) by (intros; rewrite <- app_assoc; simpl; apply set_mid; auto).
          rewrite S1. set (len := Z.of_nat (List.length body)).
          assert (Elen : wrap 32 (Z.of_nat (widx b2) - Z.of_nat (widx b1)) = len).
          { replace (Z.of_nat (widx b2) - Z.of_nat (widx b1)) with len by (unfold len; lia). apply wrap_id; [lia|]. apply in_signed_spec.
            pose proof (wf_max _ W2). pose proof (wf_cap _ W2). pose proof (wf_widx _ W2). unfold len. change (2 ^ (32 - 1)) with 2147483648 in *. change (2 ^ 31) with 2147483648 in *. lia. }
          rewrite Elen, OC. cbn [exec_estmt_open exec_estmt assoc]. rewrite String.eqb_refl. rewrite M2, M1. rewrite get_mid by exact Hf.
          destruct (set_int_patch o 4 len b2 (content b) (repeat 0 4) body W2) as (b3 & E3 & W3 & C3 & X1 & X2 & X3 & X4 & X5); [rewrite (app_content _ _ _ A12); reflexivity|apply repeat_length|].
          rewrite content_length in E3 by apply H. rewrite E3.
          exists body, x', b1, b2. cbn [blank len_fields length_bytes app]. split; [exact A1|]. split; [exact W1|]. split; [exact EU|]. split; [exact A2|]. split; [reflexivity|].
          split; [|exact W3]. destruct A12. constructor; [rewrite C3; reflexivity|congruence..].
  Qed.

  (* the checksum, if there is one *)
  Definition plain_end (B : layout) : bool := match B with [] | [(_, WSum 4 _ _)] | [(_, WInt 4 _)] => true | _ => false end.
  Definition end_post B (dn bfs : list (string * val)) b (r : option exn * est) : Prop :=
    let '(e, (fs1, _, b1)) := r in
    match B, bfs with
    | (sf, WSum n o alg) :: _, (_, z0) :: _ =>
        match services W alg with
        | None => fs1 = dn ++ bfs /\ match e with None => appended b (ser Y z0 (WSum n o alg)) b1 /\ wf b1 | Some e => e = IOOBE /\ broken b b1 end
        | Some s =>
            match s b with
            | (inl e', b2) => e = Some e' /\ b1 = b2 /\ fs1 = dn ++ bfs
            | (inr z, b2) => fs1 = dn ++ [(sf, VInt (wrap 32 z))] /\ match e with None => appended b2 (number o n z) b1 /\ wf b1 | Some e => e = IOOBE /\ broken b2 b1 end
            end
        end
    | (_, WInt n o) :: _, (_, z0) :: _ => fs1 = dn ++ bfs /\ match e with None => appended b (ser Y z0 (WInt n o)) b1 /\ wf b1 | Some e => e = IOOBE /\ broken b b1 end
    | _, _ => e = None /\ fs1 = dn ++ bfs /\ b1 = b
    end.
  Lemma run_end d B seen dn bfs loc b : plain_end B = true -> ok_fields Y seen B = true -> map fst dn = map fst seen -> fields_ok C bfs B = true ->
    (forall f n o alg s, In (f, WSum n o alg) B -> services W alg = Some s -> careful s) -> wf b ->
    end_post B dn bfs b (exec_enc_open (encode_open W E d) W (compile_enc B) (dn ++ bfs, loc, b)).
  Proof.
    intros PB Hok N Hf HS H. destruct B as [|[sf w] B].
    - destruct bfs; [|discriminate]. cbn. auto.
    - cbn [plain_end] in PB. destruct w; try discriminate PB; (destruct n as [|[|[|[|[|]]]]]; try discriminate PB; destruct B; [|discriminate PB]);
      (destruct bfs as [|[sf' y] bfs]; [discriminate|]; apply fields_ok_cons in Hf as (-> & Hy & Hf); destruct bfs; [|discriminate]).
      { destruct (typed_int C y 4 o eq_refl Hy) as (z & -> & _). apply ok_field_of in Hok as (Hg & _ & _ & _). rewrite <- (existsb_names sf dn seen N) in Hg.
        cbn [compile_enc exec_enc_open exec_estmt_open exec_estmt]. rewrite get_mid by exact Hg. unfold end_post. pose proof (wrote_int o 4 z b H) as Hw. destruct (write_int o 4 z b) as [[e|] b1].
        * destruct Hw as (-> & F & W3 & X). split; [reflexivity|]. split; [reflexivity|]. split; auto.
        * split; [reflexivity|]. exact Hw. }
      destruct (typed_int C y 4 o eq_refl Hy) as (z & -> & _). apply ok_field_of in Hok as (Hg & _ & _ & _). rewrite <- (existsb_names sf dn seen N) in Hg.
      cbn [compile_enc exec_enc_open exec_estmt_open]. unfold end_post. destruct (services W alg) as [s|] eqn:ES.
      + specialize (HS sf 4%nat o alg s (or_introl eq_refl) ES b). destruct (s b) as [[e|z'] b2] eqn:EB; [auto|]. cbn [snd] in HS. rewrite set_mid by exact Hg.
        cbn [exec_estmt]. rewrite get_mid by exact Hg. assert (W2 : wf b2) by (apply buf_wf_iff, HS, buf_wf_iff, H).
        pose proof (wrote_int o 4 (wrap 32 z') b2 W2) as Hw. rewrite (number_wrap o 4) in Hw by lia. destruct (write_int o 4 (wrap 32 z') b2) as [[e|] b1].
        * destruct Hw as (-> & F & W3 & X). split; [reflexivity|]. split; [reflexivity|]. split; auto.
        * split; [reflexivity|]. exact Hw.
      + cbn [exec_estmt]. rewrite get_mid by exact Hg. pose proof (wrote_int o 4 z b H) as Hw. destruct (write_int o 4 z b) as [[e|] b1].
        * destruct Hw as (-> & F & W3 & X). split; [reflexivity|]. split; [reflexivity|]. split; auto.
        * split; [reflexivity|]. exact Hw.
  Qed.

  Definition frame_post (d : nat) c x A M bf B (afs mfs bfs : list (string * val)) b (r : option exn * val * bytebuf) : Prop :=
    let afs' := fill_fields Y E (readable b) afs A in
    let hdr := ser_fields Y afs' A in
    let '(e, v1, b1) := r in
    (exists e', e = Some e' /\ broken b b1 /\ (e' = NPE /\ complete_fields Y afs A = false \/ e' = IOOBE \/ e' = SOE /\ (d < nest_fields afs)%nat))
    \/ (exists e' b0 x', e = Some e' /\ appended b (hdr ++ blank M) b0 /\ wf b0 /\ body_call W E d x b0 = (Some e', x', b1) /\ v1 = VObj c (afs' ++ mfs ++ (bf, x') :: bfs))
    \/ (exists body x' b0 b0' b2 fs1 loc1, appended b (hdr ++ blank M) b0 /\ wf b0 /\ body_call W E d x b0 = (None, x', b0') /\ appended b0 body b0'
         /\ appended b (hdr ++ length_bytes M (List.length body) ++ body) b2 /\ wf b2 /\ complete_fields Y afs A = true
         /\ v1 = VObj c fs1 /\ end_post B (afs' ++ len_fields M (List.length body) ++ [(bf, x')]) bfs b2 (e, (fs1, loc1, b1))).
  Lemma fill_names : forall n fs L pre, (List.length fs <= n)%nat -> map fst (fill_fields Y E pre fs L) = map fst fs.
  Proof.
    induction n as [|n IH]; intros fs L pre Hn; [destruct fs; [destruct L; reflexivity|simpl in Hn; lia]|]. destruct fs as [|[f y] fs]; [reflexivity|]. destruct L as [|[g w] L]; [reflexivity|]. simpl in Hn.
    destruct w; cbn [fill_fields map fst]; try (rewrite IH by lia; reflexivity). destruct fs as [|[h z] fs]; [reflexivity|]. destruct L as [|[k w'] L]; [reflexivity|]. simpl in Hn. cbn [map fst]. rewrite IH by lia. reflexivity.
  Qed.
  Lemma run_frame d c x A M bf k B afs mfs bfs b : grows d x -> plain_mid M = true -> plain_end B = true ->
    find c Y = Some (A ++ M ++ (bf, WBody k) :: B) -> forallb (fun fw => simple_wire (snd fw)) A = true ->
    fields_ok C afs A = true -> fields_ok C mfs M = true -> fields_ok C bfs B = true -> clean afs = true ->
    (forall f n o alg s, In (f, WSum n o alg) B -> services W alg = Some s -> careful s) -> wf b ->
    frame_post d c x A M bf B afs mfs bfs b (encode_open W E (S d) (VObj c (afs ++ mfs ++ (bf, x) :: bfs)) b).
  Proof.
    intros Ap PM PB HL SA Ka Km Kb Ca HS H. pose proof (conforms_ok C Y c _ HC HL) as Hok.
    pose proof (conforms_find C Y c HC) as F. rewrite HL in F. destruct F as (cd & E1 & _ & _ & E2 & _).
    destruct (ok_prefix Y A (M ++ (bf, WBody k) :: B) [] SA Hok) as [OA OR]. cbn [app] in OR.
    assert (EC : compile_enc (A ++ M ++ (bf, WBody k) :: B) = compile_enc A ++ compile_enc (M ++ [(bf, WBody k)]) ++ compile_enc B).
    { rewrite compile_app by exact SA. f_equal. destruct M as [|[lf []] [|]]; try discriminate PM; reflexivity. }
    cbn [encode_open]. unfold find_class. rewrite HE, E1, E2, EC, open_app.
    rewrite (run_first d A [] afs (mfs ++ (bf, x) :: bfs) [] b SA OA (fields_ok_names C _ _ Ka) Ca).
    pose proof (enc_fields_post C Y E d (enc_all C Y HC E HE d) _ A (le_n _) [] [] afs [] b OA eq_refl Ka H) as P. cbn [app] in P.
    destruct (exec_enc (encode E d) sums (compile_enc A) (afs, [], b)) as [[e|] [[fs1 loc1] b1]]; unfold fpost in P; cbn [with_ex].
    - left. destruct P as [Br R]. exists e. split; [reflexivity|]. split; [exact Br|]. destruct R as [[-> R]|[[-> R]|[-> R]]]; auto.
    - destruct P as (-> & A1 & W1 & Hca & Hna). rewrite open_app. cbn [app].
      set (afs' := fill_fields Y E (readable b) afs A) in *. set (hdr := ser_fields Y afs' A) in *.
      assert (Na : map fst afs' = map fst A) by (unfold afs'; rewrite (fill_names _ _ _ _ (le_n _)); apply (fields_ok_names C); exact Ka).
      pose proof (run_mid d x M bf k B A afs' mfs bfs loc1 b1 Ap PM OR Na Km W1) as P.
      destruct (exec_enc_open (encode_open W E d) W (compile_enc (M ++ [(bf, WBody k)])) (afs' ++ mfs ++ (bf, x) :: bfs, loc1, b1)) as [[e|] [[fs2 loc2] b2]]; cbn [mid_post] in P.
      + unfold frame_post. destruct P as [[-> Br]|(b0 & x' & A2 & W2 & EU & ->)].
        * left. exists IOOBE. split; [reflexivity|]. split; [eapply broken_trans; eauto|]. auto.
        * right. left. exists e, b0, x'. fold afs'. fold hdr. split; [reflexivity|]. split; [eapply appended_trans; eauto|]. auto.
      + destruct P as (body & x' & b0 & b0' & A2 & W2 & EU & A3 & -> & A4 & W3). pose proof (appended_trans _ _ _ _ _ A1 A4) as A5.
        set (seen := A ++ M ++ [(bf, WBody k)]).
        assert (OB : ok_fields Y seen B = true).
        { unfold seen. clear - OR PM. destruct M as [|[lf []] [|]]; try discriminate PM; cbn [app] in *.
          - apply ok_field_of in OR. apply OR.
          - apply ok_field_of in OR as (_ & _ & OR & _). apply ok_field_of in OR as (_ & _ & OR & _). rewrite <- app_assoc in OR. exact OR. }
        assert (NB : map fst (afs' ++ len_fields M (List.length body) ++ [(bf, x')]) = map fst seen).
        { unfold seen. rewrite !map_app, Na. f_equal. destruct M as [|[lf []] [|]]; try discriminate PM; reflexivity. }
        pose proof (run_end d B seen _ bfs loc2 b2 PB OB NB Kb HS W3) as P.
        replace (afs' ++ len_fields M (List.length body) ++ (bf, x') :: bfs) with ((afs' ++ len_fields M (List.length body) ++ [(bf, x')]) ++ bfs) by (rewrite <- !app_assoc; reflexivity).
        destruct (exec_enc_open (encode_open W E d) W (compile_enc B) _) as [e [[fs3 loc3] b3]]. unfold frame_post. fold afs'. fold hdr. right. right.
        exists body, x', b0, b0', b2, fs3, loc3. split; [eapply appended_trans; eauto|]. auto 12.
  Qed.
End Frame.
