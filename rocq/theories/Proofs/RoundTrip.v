(* decode after encode. *)
From Coq Require Import ZArith List Bool String Lia.
From Verif.Model Require Import JavaPrim ByteBuf Utf8 Codec Ast Interp.
From Verif.Spec Require Import Bytes Buffers Wire Reading.
From Verif.Proofs Require Import BytesFacts BufFacts Utf8Facts Utf8More CodecFacts ValInd Conform TableFacts EncodeFacts FillFacts DecodeFacts.
Import ListNotations.
Open Scope Z_scope.

Section RoundTrip.
  Variable C : list (string * class_def).
  Variable Y : layouts.
  Hypothesis HC : conforms C Y.
  Variable F : string -> key -> option string.
  Notation ser := (ser Y).
  Notation absorb := (absorb Y).
  Notation par := (parsable Y F).
  Notation typed0 := (typed0 C).
  Notation kept := (kept Y).

  Definition fresh (old : val) (w : wire) : Prop := match w with WObj _ | WDyn _ _ | WList _ _ _ => old = VNull | _ => True end.
  Lemma fresh_blank w : fresh (blank_val w) w.
  Proof. destruct w; cbn; auto. Qed.
  Lemma fresh_null w : fresh VNull w.
  Proof. destruct w; cbn; auto. Qed.

  Lemma canonical_fix x len pad lft : canonical Y x (WFix len pad lft) =
    let s := text x in valid16 s && (Z.of_nat (List.length (utf8 s)) <=? len)
      && negb (match (if lft then s else rev s) with c :: _ => c =? pad | [] => false end).
  Proof. destruct x; reflexivity. Qed.
  Lemma canonical_dyn x n o : canonical Y x (WDyn n o) = valid16 (text x).
  Proof. destruct x; reflexivity. Qed.
  Lemma absorb_fix old x len pad lft : absorb old x (WFix len pad lft) = VStr (reread len pad lft (text x)).
  Proof. destruct x; reflexivity. Qed.
  Lemma absorb_dyn old x n o : absorb old x (WDyn n o) = match text x with [] => old | s => VStr (utf8_decode (utf8 s)) end.
  Proof. destruct x; reflexivity. Qed.
  Lemma par_fix0 x len pad lft : par x (WFix len pad lft) = negb lft || negb (match text x with [] => true | _ => false end).
  Proof. destruct x; reflexivity. Qed.

  Lemma reread_canonical x len pad lft : (0 <? len) && ok_pad pad = true -> par x (WFix len pad lft) = true ->
    canonical Y x (WFix len pad lft) = true -> reread len pad lft (text x) = text x.
  Proof.
    intros Hok Hp Hc. rewrite canonical_fix in Hc. cbv zeta in Hc. apply andb_true_iff in Hc as [Hc H3]. apply andb_true_iff in Hc as [H1 H2].
    apply andb_true_iff in Hok as [_ Hok]. unfold ok_pad in Hok. apply andb_true_iff in Hok as [P1 P2]. apply Z.leb_le in P1, H2. apply Z.ltb_lt in P2.
    rewrite reread_fits; auto; [apply strip_none; apply negb_true_iff; exact H3|].
    rewrite par_fix0 in Hp. destruct lft; auto. right. destruct (text x); [discriminate|congruence].
  Qed.

  Lemma text_normal x : typed C x TStr = true -> normalize (VStr (text x)) = normalize x.
  Proof. intros H. destruct (typed_str C x H) as [->|(s & -> & _)]; reflexivity. Qed.
  Lemma ok_elem_field w : ok_elem Y w = true -> ok_field Y w = true.
  Proof. destruct w; auto; discriminate. Qed.

  Lemma obj_wire c fs w : typed0 (VObj c fs) w -> (exists c', w = WObj c') \/ (exists k, w = WBody k).
  Proof.
    intros [H|H]; [discriminate|]. destruct w; eauto; cbn in H; try discriminate H;
      repeat (match type of H with context[match ?n with _ => _ end] => is_var n; destruct n end; try discriminate H).
  Qed.

  (* fields of an object *)
  Lemma absorb_fields_ind (P : val -> val -> wire -> Prop) c all Lall fs : forall seen L,
    Forall (fun fv => forall old w, ok_field Y w = true -> typed0 (snd fv) w -> fresh old w -> par (snd fv) w = true ->
              canonical Y (snd fv) w = true -> P (absorb old (snd fv) w) (snd fv) w) fs ->
    ok_fields Y seen L = true -> fields_ok C fs L = true ->
    all2 (fun fv fw =>
            par (snd fv) (snd fw)
            && match snd fw, snd fv with
               | WBody k, VObj c' _ =>
                   match tag k all Lall with
                   | Some t => match F c t with Some c'' => String.eqb c' c'' | None => false end
                   | None => false
                   end
               | _, _ => true
               end) fs L = true ->
    all2 (fun fv fw => canonical Y (snd fv) (snd fw)) fs L = true ->
    Forall2 (fun fv' fvw => fst fv' = fst (fst fvw) /\ P (snd fv') (snd (fst fvw)) (snd fvw))
      (absorb_fields Y fs L (blank L)) (combine fs (map snd L)).
  Proof.
    induction fs as [|[f x] fs IHfs]; intros seen L IH Hok Hfs Hp Hc; [destruct L; [constructor|discriminate]|].
    destruct L as [|[g w] L]; [discriminate|]. apply fields_ok_cons in Hfs as (-> & Hx & Hfs).
    inversion IH as [|? ? IHx IH']; subst. cbn [all2 snd] in Hp, Hc. apply andb_true_iff in Hp as [Hp Hps]. apply andb_true_iff in Hp as [Hp _].
    apply andb_true_iff in Hc as [Hcx Hc]. apply ok_field_of in Hok as (_ & Hw & Hok & _).
    cbn [blank map absorb_fields combine fst snd]. constructor.
    - cbn [fst snd]. split; auto. apply IHx; auto; [right; auto|apply fresh_blank].
    - eapply IHfs; eauto.
  Qed.

  Lemma absorb_normal x : forall old w, ok_field Y w = true -> typed0 x w -> fresh old w -> par x w = true -> canonical Y x w = true ->
    normalize (absorb old x w) = normalize x.
  Proof.
    induction x as [|z|z|s|l IH|c fs IH] using val_ind2; intros old w Hok Ht Hf Hp Hc.
    - (* null *) destruct w; try discriminate Hp; auto.
      + rewrite absorb_fix, (reread_canonical _ _ _ _ Hok Hp Hc). reflexivity.
      + cbn in *. subst. reflexivity.
      + cbn in *. subst. reflexivity.
    - destruct Ht as [Ht|Ht]; [discriminate|]. destruct w; try reflexivity; try discriminate Ht.
    - destruct Ht as [Ht|Ht]; [discriminate|]. destruct w; try reflexivity; try discriminate Ht.
    - destruct Ht as [Ht|Ht]; [discriminate|]. destruct w; try reflexivity; try discriminate Ht.
      + rewrite absorb_fix, (reread_canonical _ _ _ _ Hok Hp Hc). reflexivity.
      + rewrite absorb_dyn. cbn [text]. destruct s as [|c0 s0]; [cbn in Hf; subst; reflexivity|].
        rewrite canonical_dyn in Hc. cbn [text] in Hc. rewrite decode_utf8_valid by exact Hc. reflexivity.
    - destruct (list_wire C l w Ht) as (n & o & w' & ->). rewrite absorb_list. destruct l as [|x0 l0]; [cbn in Hf; subst; reflexivity|].
      set (l := x0 :: l0) in *. apply typed0_list in Ht.
      cbn [ok_field] in Hok. apply andb_true_iff in Hok as [_ Hok].
      cbn [parsable] in Hp. apply andb_true_iff in Hp as [_ Hp]. cbn [canonical] in Hc.
      assert (A : map normalize (flat_map (kept w') l) = map normalize l /\ List.length (flat_map (kept w') l) = List.length l).
      { revert Ht Hp Hc. clear -HC IH Hok. induction IH as [|x l Hx Hl IHl]; intros Ht Hp Hc; [auto|].
        inversion Ht; subst. cbn [forallb] in Hp, Hc. apply andb_true_iff in Hp as [Hpx Hp]. apply andb_true_iff in Hc as [Hcx Hc].
        apply andb_true_iff in Hcx as [Hcx Hne]. destruct (IHl ltac:(assumption) Hp Hc) as [A1 A2].
        assert (K : kept w' x = [absorb VNull x w']).
        { unfold DecodeFacts.kept. destruct w'; auto. destruct (text x); auto. discriminate. }
        cbn [flat_map]. rewrite K. cbn [app map List.length]. rewrite A1, A2, Hx; auto; [apply ok_elem_field; auto|apply fresh_null]. }
      destruct A as [A1 A2].
      destruct (flat_map (kept w') l) as [|y0 r0] eqn:El; [cbn in A2; discriminate|]. unfold l in *.
      cbn [normalize]. f_equal. exact A1.
    - destruct (typed0_obj C Y HC _ _ _ Ht) as (L & HL & Hfs).
      assert (Ha : absorb old (VObj c fs) w = VObj c (absorb_fields Y fs L (blank L))).
      { destruct (obj_wire c fs w Ht) as [(c' & ->)|(k & ->)].
        - rewrite (absorb_obj_eq Y _ _ _ _ _ HL). cbn in Hf. subst old. reflexivity.
        - rewrite (absorb_body_eq Y _ _ _ _ _ HL). reflexivity. }
      rewrite Ha.
      assert (Hp' : par (VObj c fs) (WObj c) = true) by (destruct (obj_wire c fs w Ht) as [(c' & ->)|(k & ->)]; exact Hp).
      assert (Hc' : canonical Y (VObj c fs) (WObj c) = true) by (destruct (obj_wire c fs w Ht) as [(c' & ->)|(k & ->)]; exact Hc).
      cbn [parsable canonical] in Hp', Hc'. rewrite HL in Hp', Hc'.
      pose proof (absorb_fields_ind (fun a v w => normalize a = normalize v) c fs L fs [] L IH (conforms_ok C Y c L HC HL) Hfs Hp' Hc') as A.
      cbn [normalize]. f_equal. apply fields_ok_names in Hfs. apply (f_equal (@List.length string)) in Hfs. rewrite !map_length in Hfs.
      rewrite <- (map_length snd L) in Hfs. revert A Hfs. generalize (absorb_fields Y fs L (blank L)). generalize (map snd L). clear.
      induction fs as [|[f x] fs IH]; intros ws as_ A Hl.
      + inversion A. reflexivity.
      + destruct ws as [|w ws]; [discriminate|]. cbn [combine] in A. inversion A as [|[g y] ? as' ? [Hn Hy] A']; subst. cbn [fst snd] in *. subst.
        cbn [map fst snd]. rewrite Hy. f_equal. eapply IH; eauto.
  Qed.

  (* the same with the exact value *)
  Lemma exact_fix x len pad lft : exact_form Y x (WFix len pad lft) = true -> exists s, x = VStr s.
  Proof. destruct x; cbn; try discriminate. eauto. Qed.

  Lemma absorb_exact x : forall old w, ok_field Y w = true -> typed0 x w -> fresh old w -> par x w = true -> canonical Y x w = true ->
    exact_form Y x w = true -> absorb old x w = x.
  Proof.
    induction x as [|z|z|s|l IH|c fs IH] using val_ind2; intros old w Hok Ht Hf Hp Hc He.
    - (* null *) destruct w; try discriminate Hp; try discriminate He; auto.
    - destruct Ht as [Ht|Ht]; [discriminate|]. destruct w; try reflexivity; try discriminate Ht.
    - destruct Ht as [Ht|Ht]; [discriminate|]. destruct w; try reflexivity; try discriminate Ht.
    - destruct Ht as [Ht|Ht]; [discriminate|]. destruct w; try reflexivity; try discriminate Ht.
      + rewrite absorb_fix, (reread_canonical _ _ _ _ Hok Hp Hc). reflexivity.
      + rewrite absorb_dyn. cbn [text]. destruct s as [|c0 s0]; [discriminate He|].
        rewrite canonical_dyn in Hc. cbn [text] in Hc. rewrite decode_utf8_valid by exact Hc. reflexivity.
    - destruct (list_wire C l w Ht) as (n & o & w' & ->). rewrite absorb_list. destruct l as [|x0 l0]; [discriminate He|].
      change (exact_form Y (VList (x0 :: l0)) (WList n o w')) with (forallb (fun x => exact_form Y x w') (x0 :: l0)) in He.
      set (l := x0 :: l0) in *. apply typed0_list in Ht.
      cbn [ok_field] in Hok. apply andb_true_iff in Hok as [_ Hok].
      cbn [parsable] in Hp. apply andb_true_iff in Hp as [_ Hp]. cbn [canonical] in Hc.
      change (VList (flat_map (kept w') l) = VList l). f_equal.
      revert Ht Hp Hc He. clear -HC IH Hok. induction IH as [|x l Hx Hl IHl]; intros Ht Hp Hc He; [auto|].
      inversion Ht; subst. cbn [forallb] in Hp, Hc, He. apply andb_true_iff in Hp as [Hpx Hp]. apply andb_true_iff in Hc as [Hcx Hc].
      apply andb_true_iff in Hcx as [Hcx Hne]. apply andb_true_iff in He as [Hex He].
      assert (K : kept w' x = [absorb VNull x w']).
      { unfold DecodeFacts.kept. destruct w'; auto. destruct (text x); auto. discriminate. }
      cbn [flat_map]. rewrite K. cbn [app]. rewrite IHl, Hx; auto; [apply ok_elem_field; auto|apply fresh_null].
    - destruct (typed0_obj C Y HC _ _ _ Ht) as (L & HL & Hfs).
      assert (Ha : absorb old (VObj c fs) w = VObj c (absorb_fields Y fs L (blank L))).
      { destruct (obj_wire c fs w Ht) as [(c' & ->)|(k & ->)].
        - rewrite (absorb_obj_eq Y _ _ _ _ _ HL). cbn in Hf. subst old. reflexivity.
        - rewrite (absorb_body_eq Y _ _ _ _ _ HL). reflexivity. }
      rewrite Ha.
      assert (Hp' : par (VObj c fs) (WObj c) = true) by (destruct (obj_wire c fs w Ht) as [(c' & ->)|(k & ->)]; exact Hp).
      assert (Hc' : canonical Y (VObj c fs) (WObj c) = true) by (destruct (obj_wire c fs w Ht) as [(c' & ->)|(k & ->)]; exact Hc).
      assert (He' : exact_form Y (VObj c fs) (WObj c) = true) by (destruct (obj_wire c fs w Ht) as [(c' & ->)|(k & ->)]; exact He).
      cbn [parsable canonical exact_form] in Hp', Hc', He'. rewrite HL in Hp', Hc', He'.
      pose proof (absorb_fields_ind (fun a v w => exact_form Y v w = true -> a = v) c fs L fs [] L) as A.
      specialize (A ltac:(eapply Forall_impl; [|exact IH]; cbn; intros; auto) (conforms_ok C Y c L HC HL) Hfs Hp' Hc').
      f_equal. apply fields_ok_names in Hfs. revert He'. 
      revert A. generalize (absorb_fields Y fs L (blank L)). clear -Hfs. revert L Hfs.
      induction fs as [|[f x] fs IH]; intros L Hfs as_ A He.
      + inversion A. reflexivity.
      + destruct L as [|[g w] L]; [discriminate|]. cbn [map combine snd] in A. inversion A as [|[h y] ? as' ? [Hn Hy] A']; subst. cbn [fst snd] in *. subst.
        cbn [all2 snd] in He. apply andb_true_iff in He as [He1 He2]. rewrite (Hy He1). f_equal. cbn [map] in Hfs. injection Hfs as _ Hfs. eapply IH; eauto.
  Qed.
End RoundTrip.
