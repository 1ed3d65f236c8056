(* The step machine of Model/EncodeThreads.v: what one thread does, and why the others do not disturb it. *)
From Coq Require Import ZArith List Bool String Lia.
From Verif.Model Require Import JavaPrim ByteBuf Utf8 Codec Ast Interp Heap EncodeThreads.
From Verif.Spec Require Import Sharing.
From Verif.Proofs Require Import HeapFacts SameBytes EncodeThreadFacts.
Import ListNotations.

Fixpoint targets (ss : list estmt) : list string :=
  match ss with [] => [] | s :: r => match target s with Some f => f :: targets r | None => targets r end end.
(* a field is not read before, and not twice, assigned *)
Fixpoint sequenced (ss : list estmt) : bool :=
  match ss with
  | [] => true
  | s :: r => match reads s with Some f => negb (mem f (targets (s :: r))) | None => true end
              && match target s with Some f => negb (mem f (targets r)) | None => true end && sequenced r
  end.

Section Steps.
  Variable E : env.
  Variable h0 : heap.
  Notation near0 := (near0 E h0).
  Notation calm := (calm E h0).
  Notation sums := (checksum E).

  (* what is left to do on the stack, done at once *)
  Fixpoint rest (h : heap) (k : list item) (d : nat) (b : bytebuf) : option exn * heap * bytebuf :=
    match k with
    | [] => (None, h, b)
    | Body this ss loc :: k' => match hexec_enc (hencode E d) sums this ss (h, loc, b) with
                                | (None, (h', _, b')) => rest h' k' (S d) b'
                                | (Some e, (h', _, b')) => (Some e, h', b')
                                end
    | Loop x vs :: k' => match henc_elems (hencode E d) x h vs b with
                         | (None, h', b') => rest h' k' d b'
                         | (Some e, h', b') => (Some e, h', b')
                         end
    end.
  Fixpoint bodies (k : list item) : nat := match k with [] => 0 | Body _ _ _ :: k' => S (bodies k') | Loop _ _ :: k' => bodies k' end.
  Definition quiet_item (i : item) : Prop :=
    match i with
    | Body this ss _ => quiet_object E h0 this /\ calm (HRef this) /\ Forall (fun s => assigner s = false) ss
    | Loop _ vs => Forall calm vs
    end.
  Definition inner_next (h : heap) (t : encoder) (k tl : list item) (r : heap * encoder) : Prop :=
    fst r = h /\ ((ended (snd r) = None /\ exists k', stack (snd r) = k' ++ tl /\ Forall quiet_item k' /\ (room (snd r) + bodies k' = room t + bodies k)%nat
                    /\ rest h0 k' (room (snd r)) (out (snd r)) = rest h0 k (room t) (out t))
                  \/ exists e, ended (snd r) = Some (Some e) /\ rest h0 k (room t) (out t) = (Some e, h0, out (snd r))).
  Lemma enter_next h v k tl t : near0 h -> calm v -> ended t = None ->
    let t' := enter E h v (k ++ tl) t in
    (ended t' = None /\ exists i, stack t' = i :: k ++ tl /\ quiet_item i /\ bodies [i] = 1%nat /\ S (room t') = room t
       /\ rest h0 (i :: k) (room t') (out t') = match hencode E (room t) h0 v (out t) with (None, h', b') => rest h' k (room t) b' | (Some e, h', b') => (Some e, h', b') end)
    \/ exists e, ended t' = Some (Some e) /\ hencode E (room t) h0 v (out t) = (Some e, h0, out t').
  Proof.
    intros N C EN. cbv zeta. unfold enter. destruct v as [| | | |l]; cbn; [destruct (room t); cbn; eauto| | | |]; try (destruct (room t); cbn; right; eauto; fail).
    destruct (room t) as [|d] eqn:RM; cbn; eauto. pose proof (near0_class E h0 h l N) as CL. destruct (nth_error h0 l) as [[c fs|vs]|] eqn:Q.
    - destruct (nth_error h l) as [[c' gs|]|]; try discriminate. injection CL as ->. destruct (find_class E c) as [cd|] eqn:K; cbn; eauto.
      left. split; auto. exists (Body l (c_enc cd) []). destruct (quiet_calm E h0 l C c fs Q) as [QO A]. split; [reflexivity|]. split; [split; auto|]. split; [reflexivity|]. split; [reflexivity|].
      destruct (hexec_enc (hencode E d) sums l (c_enc cd) (h0, [], out t)) as [[e|] [[h' l'] b']]; reflexivity.
    - destruct (nth_error h l) as [[|]|]; try discriminate; cbn; eauto.
    - destruct (nth_error h l) as [[|]|]; try discriminate; cbn; eauto.
  Qed.
  Lemma no_call_same enc x h v b : x <> XObj -> henc_elem no_call x h v b = henc_elem enc x h v b.
  Proof. destruct x; auto. contradiction. Qed.
  Lemma no_call_stmt enc this s st : match s with EObj _ | EObjOpt _ | EList _ _ _ _ _ _ _ => False | _ => True end -> hexec_estmt no_call sums this s st = hexec_estmt enc sums this s st.
  Proof. destruct st as [[h loc] b]. destruct s; intros H; try contradiction; reflexivity. Qed.
  Lemma inner_step h t i k tl : near0 h -> ended t = None -> stack t = (i :: k) ++ tl -> Forall quiet_item (i :: k) -> inner_next h t (i :: k) tl (encoder_step E h t).
  Proof.
    intros N EN ST Q. inversion Q as [|? ? Q1 Q2]; subst. unfold encoder_step. rewrite EN, ST. cbn [app].
    assert (ON : forall k' e b, Forall quiet_item k' -> (room t + bodies k' = room t + bodies (i :: k))%nat ->
      rest h0 (i :: k) (room t) (out t) = match e with None => rest h0 k' (room t) b | Some e => (Some e, h0, b) end -> inner_next h t (i :: k) tl (h, goes_on (k' ++ tl) (room t) e b)).
    { intros k' [e|] b F R X; split; auto; cbn [snd goes_on ended stack out room]; [right; eauto|]. left. split; auto. exists k'. repeat split; auto. }
    destruct i as [this ss loc|x vs].
    - destruct Q1 as (QO & C & A). destruct QO as (c & fs & Qc & FC). destruct ss as [|s ss].
      + split; auto. left. split; auto. exists k. cbn [snd stack room out ended bodies rest hexec_enc]. repeat split; auto. lia.
      + inversion A as [|? ? A1 A2]; subst. assert (QB : forall l', quiet_item (Body this ss l')) by (intros l'; split; [exists c, fs; auto|split; auto]).
        assert (FE : forall f, field h this f = field h0 this f) by (intros f; eapply near0_field; eauto; apply no_assigner; auto).
        assert (CF : forall f, calm (field h0 this f)) by (intros f; eapply calm_field; eauto).
        assert (REST : forall d b, rest h0 (Body this (s :: ss) loc :: k) d b = match hexec_estmt (hencode E d) sums this s (h0, loc, b) with (None, (h', l', b')) => rest h' (Body this ss l' :: k) d b' | (Some e, (h', _, b')) => (Some e, h', b') end).
        { intros d b. cbn [rest hexec_enc]. destruct (hexec_estmt (hencode E d) sums this s (h0, loc, b)) as [[e|] [[h' l'] b']]; reflexivity. }
        assert (CALL : forall f v, field h0 this f = v -> (forall b, hexec_estmt (hencode E (room t)) sums this s (h0, loc, b) = let '(e, h', b') := hencode E (room t) h0 v b in (e, (h', loc, b'))) ->
          inner_next h t (Body this (s :: ss) loc :: k) tl (h, enter E h v (Body this ss loc :: k ++ tl) t)).
        { intros f v Fv X. assert (CV : calm v) by (rewrite <- Fv; apply CF). split; auto. cbn [snd]. destruct (enter_next h v (Body this ss loc :: k) tl t N CV EN) as [(T1 & j & T2 & T3 & T4 & T5 & T6)|(e & T1 & T2)]; cbn [app] in *.
          - left. split; auto. exists (j :: Body this ss loc :: k). split; [exact T2|]. split; [constructor; auto|]. split.
            + destruct j; [|discriminate T4]. cbn [bodies]. lia.
            + rewrite T6, REST, X. destruct (same_encode E h0 (room t) h0 v (out t) (near0_refl E h0) CV) as (e & b' & -> & _). destruct e; reflexivity.
          - right. exists e. split; auto. rewrite REST, X, T2. reflexivity. }
        assert (PLAIN : match s with EObj _ | EObjOpt _ | EList _ _ _ _ _ _ _ => False | _ => True end ->
          inner_next h t (Body this (s :: ss) loc :: k) tl (let '(e, (h', loc', b)) := hexec_estmt no_call sums this s (h, loc, out t) in (h', goes_on (Body this ss loc' :: k ++ tl) (room t) e b))).
        { intros P. rewrite (no_call_stmt (hencode E (room t))) by exact P.
          destruct (same_stmt E h0 (hencode E (room t)) (same_encode E h0 (room t)) h h0 this s loc (out t) N (near0_refl E h0) A1) as (e & l' & b' & X1 & X2); [auto|intros f; left; apply CF|]. rewrite X2.
          apply (ON (Body this ss l' :: k)); [constructor; auto|reflexivity|]. rewrite REST, X1. destruct e; reflexivity. }
        destruct s as [n o f|n o f|f len pad lft|f zn zo n o|f zn zo ct n o x|f|f|y|n o|f y z|n o y f|a f]; try (apply PLAIN; exact I).
        * rewrite FE. assert (ZERO : (forall b, hexec_estmt (hencode E (room t)) sums this (EList f zn zo ct n o x) (h0, loc, b) = let '(e, b') := write_int zo zn 0 b in (e, (h0, loc, b'))) ->
            inner_next h t (Body this (EList f zn zo ct n o x :: ss) loc :: k) tl (let '(e, b) := write_int zo zn 0 (out t) in (h, goes_on (Body this ss loc :: k ++ tl) (room t) e b))).
          { intros X. destruct (write_int zo zn 0 (out t)) as [e b'] eqn:W. apply (ON (Body this ss loc :: k)); [constructor; auto|reflexivity|]. rewrite REST, X, W. destruct e; reflexivity. }
          cbn [hexec_estmt] in ZERO, REST. pose proof (CF f) as CFf. destruct (field h0 this f) as [|z|z|u|l] eqn:Qf; try (apply (ON (Body this ss loc :: k)); [constructor; auto|reflexivity|rewrite REST; reflexivity]); [apply ZERO; reflexivity|].
          change (elements h (HRef l)) with (elements h (HRef l)). rewrite (near0_elements E h0 h (HRef l) N). destruct (elements h0 (HRef l)) as [[|v vs]|] eqn:EL; [apply ZERO; reflexivity| |apply (ON (Body this ss loc :: k)); [constructor; auto|reflexivity|rewrite REST; reflexivity]].
          destruct (write_int o n (wrap ct (Z.of_nat (List.length (v :: vs)))) (out t)) as [e b'] eqn:W. apply (ON (Loop x (v :: vs) :: Body this ss loc :: k)).
          -- constructor; [|constructor; auto]. apply Forall_forall. intros w Hw. apply (calm_elem E h0 (HRef l) (v :: vs)); auto.
          -- reflexivity.
          -- rewrite REST, W. destruct e; [reflexivity|]. change (rest h0 (Loop x (v :: vs) :: Body this ss loc :: k) (room t) b') with (match henc_elems (hencode E (room t)) x h0 (v :: vs) b' with
               | (None, h', b'') => rest h' (Body this ss loc :: k) (room t) b'' | (Some e, h', b'') => (Some e, h', b'') end). destruct (henc_elems (hencode E (room t)) x h0 (v :: vs) b') as [[[e|] h'] b'']; reflexivity.
        * rewrite FE. apply (CALL f); auto.
        * rewrite FE. pose proof (CALL f) as CA. cbn [hexec_estmt] in CA, REST. destruct (field h0 this f) as [|z|z|u|l] eqn:Qf; [|apply CA; auto..].
          split; auto. left. split; auto. exists (Body this ss loc :: k). cbn [snd stack room out ended]. repeat split; auto.
    - destruct vs as [|v vs].
      + split; auto. left. split; auto. exists k. cbn [snd stack room out ended bodies rest henc_elems]. repeat split; auto.
      + inversion Q1 as [|? ? C1 C2]; subst. assert (D : x = XObj \/ x <> XObj) by (destruct x; auto; right; discriminate). destruct D as [->|D].
        * split; auto. cbn [snd]. destruct (enter_next h v (Loop XObj vs :: k) tl t N C1 EN) as [(T1 & j & T2 & T3 & T4 & T5 & T6)|(e & T1 & T2)]; cbn [app] in *.
          -- left. split; auto. exists (j :: Loop XObj vs :: k). split; [exact T2|]. split; [constructor; auto; constructor; auto|]. split.
             ++ destruct j; [|discriminate T4]. cbn [bodies]. lia.
             ++ rewrite T6. cbn [rest henc_elems henc_elem]. destruct (same_encode E h0 (room t) h0 v (out t) (near0_refl E h0) C1) as (e & b' & -> & _). destruct e; reflexivity.
          -- right. exists e. split; auto. cbn [rest henc_elems henc_elem]. rewrite T2. reflexivity.
        * assert (X : inner_next h t (Loop x (v :: vs) :: k) tl (let '(e, h', b) := henc_elem no_call x h v (out t) in (h', goes_on (Loop x vs :: k ++ tl) (room t) e b))).
          { rewrite (no_call_same (hencode E (room t))) by exact D. destruct (same_elem E h0 (hencode E (room t)) (same_encode E h0 (room t)) h x v (out t) N C1) as (e & b' & X1 & X2). rewrite X2.
            apply (ON (Loop x vs :: k)); [constructor; auto|reflexivity|]. cbn [rest henc_elems]. rewrite X1. destruct e; reflexivity. }
          destruct x; try exact X. contradiction.
  Qed.

  Lemma assigns_target s f : assigns E s = Some f -> target s = Some f.
  Proof. destruct s; cbn; try discriminate; auto. destruct (sums alg); [auto|discriminate]. Qed.
  Lemma assigned_targets ss f : assigned E ss f -> In f (targets ss).
  Proof.
    intros (s & I & A). apply assigns_target in A. induction ss as [|x ss IH]; [contradiction|]. cbn. destruct I as [->|I]; [rewrite A; left; reflexivity|]. destruct (target x); [right|]; auto.
  Qed.
  Lemma assigned_app a b f : assigned E (a ++ b) f <-> assigned E a f \/ assigned E b f.
  Proof.
    split.
    - intros (s & I & A). apply in_app_iff in I. destruct I as [I|I]; [left|right]; exists s; auto.
    - intros [(s & I & A)|(s & I & A)]; exists s; split; auto; apply in_app_iff; auto.
  Qed.
  Lemma sequenced_app a b : sequenced (a ++ b) = true -> sequenced b = true.
  Proof. induction a as [|s a IH]; auto. cbn [app sequenced]. rewrite andb_true_iff. tauto. Qed.

  (* ---- the object a thread encodes ---- *)
  Section Root.
    Variable r : nat.
    Variable c : string.
    Variable fs : list (string * hval).
    Variable cd : class_def.
    Hypothesis Qr : nth_error h0 r = Some (CObj c fs).
    Hypothesis Kr : find_class E c = Some cd.
    Hypothesis CP : calm_parts E h0 r.
    Hypothesis SQ : sequenced (c_enc cd) = true.
    Definition run (d : nat) (b : bytebuf) (pre : list estmt) : option exn * hest := hexec_enc (hencode E d) sums r pre (h0, [], b).

    (* heaps in which only this object may differ, by numbers in assigned fields *)
    Definition tame (h : heap) : Prop := near0 h /\ forall f, calm (field h r f).
    Lemma tame0 : tame h0.
    Proof. split; [apply near0_refl|exact CP]. Qed.
    Lemma hget_hset f x g (l : list (string * hval)) : hget g (hset f x l) = if String.eqb f g then (if mem f (map fst l) then x else HNull) else hget g l.
    Proof.
      induction l as [|[k v] l IH]; cbn [hset hget map fst mem existsb]; [destruct (String.eqb f g); reflexivity|]. destruct (String.eqb_spec f k) as [->|N]; cbn [hget orb].
      - rewrite (String.eqb_sym g k). destruct (String.eqb k g); reflexivity.
      - destruct (String.eqb_spec g k) as [->|]; [destruct (String.eqb_spec f k); [contradiction|reflexivity]|]. exact IH.
    Qed.
    Lemma hset_names f x (l : list (string * hval)) : map fst (hset f x l) = map fst l.
    Proof. induction l as [|[k v] l IH]; cbn; auto. destruct (String.eqb f k); cbn; [|rewrite IH]; reflexivity. Qed.
    Lemma near0_root h : near0 h -> exists gs, nth_error h r = Some (CObj c gs) /\ map fst gs = map fst fs.
    Proof. intros N. specialize (N r). rewrite Qr in N. destruct N as (gs & G & M & _). eauto. Qed.
    Lemma field_put h f x g : near0 h -> field (put_field h r f x) r g = if String.eqb f g then (if mem f (map fst fs) then x else HNull) else field h r g.
    Proof.
      intros N. destruct (near0_root h N) as (gs & G & M). unfold field. rewrite (put_at h r f x c gs G), G, hget_hset, M. reflexivity.
    Qed.
    Lemma near0_put h f x : near0 h -> assigned_in E c f -> near0 (put_field h r f x).
    Proof.
      intros N A l. destruct (PeanoNat.Nat.eq_dec l r) as [->|D].
      - destruct (near0_root h N) as (gs & G & M). rewrite Qr. exists (hset f x gs). split; [eapply put_at; eauto|]. split; [rewrite hset_names; exact M|]. split.
        + intros F. destruct (no_assigner E c f F A).
        + intros g NA. rewrite hget_hset. destruct (String.eqb_spec f g) as [->|]; [contradiction|]. specialize (N r). rewrite Qr in N. destruct N as (gs' & G' & _ & _ & K). rewrite G in G'. injection G' as <-. auto.
      - rewrite put_off by exact D. apply N.
    Qed.
    Lemma tame_put h f z : tame h -> assigned_in E c f -> tame (put_field h r f (HInt z)).
    Proof.
      intros [N C] A. split; [apply near0_put; auto|]. intros g. rewrite field_put by exact N. destruct (String.eqb f g); [|apply C]. destruct (mem f (map fst fs)); intros l k w R; inversion R.
    Qed.
    (* one statement of the object *)
    Lemma root_stmt d h s loc b : tame h -> In s (c_enc cd) -> let '(e, (h', loc', b')) := hexec_estmt (hencode E d) sums r s (h, loc, b) in
      tame h' /\ (forall f, assigns E s <> Some f -> field h' r f = field h r f)
      /\ match assigns E s with None => h' = h | Some f => (e = Some TYPE /\ h' = h) \/ (e = None /\ loc' = loc /\ b' = b /\ exists z, h' = put_field h r f (HInt z)) end.
    Proof.
      intros T I. assert (AI : forall f, assigns E s = Some f -> assigned_in E c f) by (intros f A; exists cd; split; auto; exists s; auto). destruct T as [N C].
      destruct (assigner s) eqn:AS.
      - destruct s; try discriminate AS; cbn [hexec_estmt assigns] in *.
        + destruct (assoc x loc) as [i|]; [destruct (assoc y loc) as [j|]|]; (split; [|split]); try (split; assumption); auto.
          * apply tame_put; [split; auto|auto].
          * intros g NG. rewrite field_put by exact N. destruct (String.eqb_spec f g) as [->|]; [congruence|reflexivity].
          * right. repeat split; auto. eauto.
        + destruct (sums alg) as [cs|]; (split; [|split]); try (split; assumption); auto.
          * apply tame_put; [split; auto|auto].
          * intros g NG. rewrite field_put by exact N. destruct (String.eqb_spec f g) as [->|]; [congruence|reflexivity].
          * right. repeat split; auto. eauto.
      - destruct (same_stmt E h0 (hencode E d) (same_encode E h0 d) h h r s loc b N N AS (fun f _ => eq_refl) (fun f => or_introl (C f))) as (e & l' & b' & X & _). rewrite X.
        assert (assigns E s = None) as -> by (destruct s; try discriminate AS; reflexivity). split; [split; auto|]. split; auto.
    Qed.
    Lemma root_run d : forall ss h loc b, tame h -> (forall s, In s ss -> In s (c_enc cd)) -> let '(e, (h', loc', b')) := hexec_enc (hencode E d) sums r ss (h, loc, b) in
      tame h' /\ forall f, ~ assigned E ss f -> field h' r f = field h r f.
    Proof.
      induction ss as [|s ss IH]; intros h loc b T I; cbn [hexec_enc]; [auto|]. pose proof (root_stmt d h s loc b T (I s (or_introl eq_refl))) as S.
      destruct (hexec_estmt (hencode E d) sums r s (h, loc, b)) as [[e|] [[h1 l1] b1]]; destruct S as (T1 & F1 & _).
      - split; auto. intros f NA. apply F1. intros A. apply NA. exists s. split; [left; reflexivity|exact A].
      - specialize (IH h1 l1 b1 T1 (fun s' H => I s' (or_intror H))). destruct (hexec_enc (hencode E d) sums r ss (h1, l1, b1)) as [e [[h' l'] b']]. destruct IH as [T2 F2]. split; auto.
        intros f NA. rewrite F2; [apply F1|]; intros A; apply NA; [exists s; split; [left; reflexivity|exact A]|]. destruct A as (s' & I' & A'). exists s'. split; [right; exact I'|exact A'].
    Qed.
    Lemma run_app d b pre post : run d b (pre ++ post) = match run d b pre with (None, st) => hexec_enc (hencode E d) sums r post st | x => x end.
    Proof.
      unfold run. generalize (h0, @nil (string * nat), b) as st. induction pre as [|s pre IH]; intros st; cbn [app hexec_enc]; [destruct (hexec_enc (hencode E d) sums r post st); reflexivity|].
      destruct (hexec_estmt (hencode E d) sums r s st) as [[e|] st']; auto.
    Qed.
    Lemma run_tame d b pre post e hs loc b' : c_enc cd = pre ++ post -> run d b pre = (e, (hs, loc, b')) -> tame hs /\ forall f, ~ assigned E pre f -> field hs r f = field h0 r f.
    Proof.
      intros Q R. pose proof (root_run d pre h0 [] b tame0) as X. unfold run in R. rewrite R in X. apply X. intros s I. rewrite Q. apply in_app_iff. auto.
    Qed.
    (* two threads that have both come to the same statement *)
    Definition compatible (b1 b2 : bytebuf) : Prop := sound b1 /\ sound b2 /\ forall s, In s (c_enc cd) -> same_sum sums b1 b2 s.
    Lemma same_run d1 d2 b1 b2 : compatible b1 b2 -> forall pre post h1 h2 l1 l2 c1 c2, c_enc cd = pre ++ post -> run d1 b1 pre = (None, (h1, l1, c1)) -> run d2 b2 pre = (None, (h2, l2, c2)) -> h1 = h2 /\ twins b1 b2 l1 l2 c1 c2.
    Proof.
      intros (S1 & S2 & SS). induction pre as [|s pre IH] using rev_ind; intros post h1 h2 l1 l2 c1 c2 Q R1 R2.
      - unfold run in R1, R2. cbn in R1, R2. injection R1 as <- <- <-. injection R2 as <- <- <-. split; auto. exists [], []. unfold follows. rewrite !app_nil_r. repeat split; auto; try apply S1; try apply S2.
      - rewrite run_app in R1, R2. rewrite <- app_assoc in Q. destruct (run d1 b1 pre) as [[e|] [[g1 m1] x1]] eqn:X1; [discriminate|]. destruct (run d2 b2 pre) as [[e|] [[g2 m2] x2]] eqn:X2; [discriminate|].
        destruct (IH _ _ _ _ _ _ _ Q eq_refl eq_refl) as [-> T]. destruct (run_tame d1 b1 pre _ _ _ _ _ Q X1) as [[N C] _]. cbn [hexec_enc] in R1, R2.
        destruct (hexec_estmt (hencode E d1) sums r s (g2, m1, x1)) as [[e|] st1] eqn:Y1; [discriminate|]. destruct (hexec_estmt (hencode E d2) sums r s (g2, m2, x2)) as [[e|] st2] eqn:Y2; [discriminate|]. injection R1 as ->. injection R2 as ->.
        apply (twin_stmt (hencode E d1) (hencode E d2) sums r s g2 b1 b2 m1 m2 x1 x2 h1 h2 l1 l2 c1 c2); auto.
        + intros v CL. apply (even_near E h0); [exact N|]. clear - CL C N. destruct s; cbn [calls] in CL; try contradiction; [destruct x; try contradiction; destruct CL as (vs & EL & I)|subst v; apply C|subst v; apply C].
          apply (calm_elem E h0 (field g2 r f) vs); auto. rewrite <- EL. symmetry. apply near0_elements with (E := E). exact N.
        + apply SS. rewrite Q. apply in_app_iff. right. left. reflexivity.
    Qed.
    (* a field has one place where it is assigned *)
    Lemma one_place pre s post pre' post' f : c_enc cd = pre ++ s :: post -> c_enc cd = pre' ++ post' -> assigns E s = Some f -> assigned E pre' f -> exists mid, pre' = pre ++ s :: mid /\ ~ assigned E mid f /\ ~ assigned E pre f.
    Proof.
      intros Q1 Q2 A AP.
      assert (NP : forall a x y, c_enc cd = a ++ x :: y -> assigned E a f -> assigns E x <> Some f).
      { clear - SQ. intros a x y Q (w & I & W) X. apply in_split in I. destruct I as (a1 & a2 & ->). rewrite Q in SQ. rewrite <- app_assoc in SQ. apply sequenced_app in SQ. cbn [app sequenced] in SQ.
        rewrite (assigns_target w f W) in SQ. rewrite !andb_true_iff in SQ. destruct SQ as [[_ S] _]. apply negb_true_iff in S. assert (mem f (targets (a2 ++ x :: y)) = true); [|congruence].
        apply mem_in. apply assigned_targets. apply assigned_app. right. exists x. split; [left; reflexivity|exact X]. }
      assert (NPRE : ~ assigned E pre f) by (intros H; exact (NP pre s post Q1 H A)).
      assert (D : (exists mid, pre' = pre ++ s :: mid) \/ exists more, pre = pre' ++ more).
      { clear - Q1 Q2. rewrite Q1 in Q2. revert pre' Q2. clear Q1. induction pre as [|x pre IH]; intros [|y pre'] Q; cbn in Q.
        - right. exists []. reflexivity.
        - left. injection Q as <- _. exists pre'. reflexivity.
        - right. exists (x :: pre). reflexivity.
        - injection Q as <- Q. destruct (IH pre' Q) as [(mid & ->)|(more & ->)]; [left; exists mid; reflexivity|right; exists more; reflexivity]. }
      destruct D as [(mid & ->)|(more & ->)].
      - exists mid. split; auto. split; auto. intros (w & I & W). apply in_split in I. destruct I as (m1 & m2 & ->). rewrite <- app_assoc in Q2. cbn [app] in Q2. rewrite <- app_assoc in Q2. cbn [app] in Q2.
        apply (NP (pre ++ s :: m1) w (m2 ++ post')); auto; [rewrite Q2, <- app_assoc; reflexivity|]. apply assigned_app. right. exists s. split; [left; reflexivity|exact A].
      - destruct NPRE. apply assigned_app. auto.
    Qed.
    Lemma same_value d1 d2 b1 b2 pre s post hs loc b f z pre' post' hs' loc' b' : compatible b1 b2 -> c_enc cd = pre ++ s :: post -> run d1 b1 pre = (None, (hs, loc, b)) -> assigns E s = Some f ->
      hexec_estmt (hencode E d1) sums r s (hs, loc, b) = (None, (put_field hs r f (HInt z), loc, b)) ->
      c_enc cd = pre' ++ post' -> run d2 b2 pre' = (None, (hs', loc', b')) -> assigned E pre' f -> forall h, near0 h -> field hs' r f = field (put_field h r f (HInt z)) r f.
    Proof.
      intros CO Q1 R1 A X1 Q2 R2 AP h N. destruct (one_place pre s post pre' post' f Q1 Q2 A AP) as (mid & -> & NM & _). rewrite run_app in R2. destruct (run d2 b2 pre) as [[e|] [[g l] x]] eqn:R3; [discriminate|].
      destruct (same_run d1 d2 b1 b2 CO pre (s :: post) _ _ _ _ _ _ Q1 R1 R3) as [<- T]. cbn [hexec_enc] in R2. destruct (hexec_estmt (hencode E d2) sums r s (hs, l, x)) as [[e|] [[g2 l2] x2]] eqn:X2; [discriminate|].
      destruct (run_tame d1 b1 pre _ _ _ _ _ Q1 R1) as [TM _]. destruct CO as (S1 & S2 & SS).
      assert (Is : In s (c_enc cd)) by (rewrite Q1; apply in_app_iff; right; left; reflexivity).
      assert (G : put_field hs r f (HInt z) = g2).
      { apply (fun EV => proj1 (twin_stmt (hencode E d1) (hencode E d2) sums r s hs b1 b2 loc l b x _ _ _ _ _ _ S1 S2 EV (SS s Is) T X1 X2)). intros v CL. clear - CL A. destruct s; cbn in A; try discriminate; contradiction. }
      subst g2. assert (TP : tame (put_field hs r f (HInt z))) by (apply tame_put; auto; exists cd; split; auto; exists s; auto).
      pose proof (root_run d2 mid (put_field hs r f (HInt z)) l2 x2 TP) as RR. rewrite R2 in RR. destruct RR as [_ RR]; [intros w I; rewrite Q2; apply in_app_iff; left; apply in_app_iff; right; right; exact I|].
      rewrite (RR f NM), !field_put by (try apply TM; exact N). rewrite String.eqb_refl. reflexivity.
    Qed.
  End Root.
End Steps.
