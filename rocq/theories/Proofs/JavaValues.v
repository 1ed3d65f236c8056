(* Running the Java of equals, hashCode, toString, the getters and the setters: they do what hequals, hhash, hstring, field and put_field say. *)
From Coq Require Import ZArith List Bool String Lia.
From Verif.Model Require Import JavaPrim ByteBuf Utf8 Codec Ast Interp Show Heap.
From Verif.Spec Require Import Bytes Wire Sharing.
From Verif.Proofs Require Import BytesFacts HeapFacts HeapOwn HeapEq HeapTypes HeapEncTypes HeapCycle JavaSem JavaEncode.
From Verif.Java Require Import Lex Syntax Source Sem CodecTrees.
Import ListNotations.
Open Scope Z_scope.
Open Scope list_scope.

(* a type whose name is not that of a number or String unless it is one *)
Definition number_names : list string := ["byte"; "short"; "int"; "long"; "char"; "float"; "double"; "Byte"; "Short"; "Integer"; "Long"; "Character"; "Float"; "Double"; "String"; "List"]%string.
Fixpoint plain_type (t : ftype) : bool := match t with TObj c => negb (mem (simple c) number_names) | TList u => plain_type u && flat_type t | _ => true end.
Definition value_field (F : list (string * ftype)) (f : string) : bool :=
  negb (mem f ["obj"; "orther_"]%string) && match assoc f F with Some t => plain_type t | None => false end.
(* what has to be checked of a class *)
Record value_env (P : program) (stat : list (string * jval)) (c : string) (cd : class_def) : Prop := {
  ve_field : forall f, field_ty P c f = option_map type_name (assoc f (c_fields cd));
  ve_objects : is_class P stat c "Objects" "Objects";
  ve_lib : assoc "Objects"%string P = None;
  ve_self : resolve P c (simple c) = c;
  ve_simple : is_prim (T0 (simple c)) = false;
  ve_name : mem c ["java.util.ArrayList"; "java.lang.String"; "java.lang.Number"; ""]%string = false;
  ve_eq : forallb (value_field (c_fields cd)) (c_eq cd) = true;
  ve_hash : match c_hash cd with HashSelf => True | HashFields fs => forallb (value_field (c_fields cd)) fs = true end;
  ve_str : forallb (fun l => value_field (c_fields cd) (snd l)) (c_str cd) = true;
  ve_m_hash : find_method P c "hashCode" 0 = Some ([], j_hash (c_hash cd));
  ve_m_eq : find_method P c "equals" 1 = Some ([(T0 "Object", "obj"%string)], j_eq (simple c) (c_eq cd));
  ve_m_str : find_method P c "toString" 0 = Some ([], j_show (c_tag cd) (c_str cd)) }.

Lemma mem_name x l : mem x l = false -> forall y, In y l -> x <> y.
Proof. intros H y Hy ->. unfold mem in H. assert (E : existsb (String.eqb y) l = true) by (apply existsb_exists; exists y; split; auto; apply String.eqb_refl). congruence. Qed.
Ltac not_named H := let K := fresh in pose proof (mem_name _ _ H) as K; cbn [number_names In] in K;
  repeat match goal with |- context [String.eqb ?x ?y] => rewrite (proj2 (String.eqb_neq x y)) by (apply K; cbn; tauto) end.
Lemma float_type t : plain_type t = true -> is_float (type_name t) = match t with TFloat => true | _ => false end.
Proof. destruct t; try reflexivity. cbn [plain_type type_name boxed_name]. rewrite negb_true_iff. intros H. unfold is_float, is_name, T0. not_named H. reflexivity. Qed.
Lemma float_boxed t : plain_type t = true -> is_float (boxed_name t) = match t with TFloat => true | _ => false end.
Proof. destruct t; try reflexivity. cbn [plain_type type_name boxed_name]. rewrite negb_true_iff. intros H. unfold is_float, is_name, T0. not_named H. reflexivity. Qed.
Lemma long_type t : plain_type t = true -> is_long (type_name t) = match t with TLong => true | _ => false end.
Proof. destruct t; try reflexivity. cbn [plain_type type_name boxed_name]. rewrite negb_true_iff. intros H. unfold is_long, is_name, T0. not_named H. reflexivity. Qed.
Lemma long_boxed t : plain_type t = true -> is_long (boxed_name t) = match t with TLong => true | _ => false end.
Proof. destruct t; try reflexivity. cbn [plain_type type_name boxed_name]. rewrite negb_true_iff. intros H. unfold is_long, is_name, T0. not_named H. reflexivity. Qed.
Lemma char_type t : plain_type t = true -> is_char (type_name t) = false.
Proof. destruct t; try reflexivity. cbn [plain_type type_name boxed_name]. rewrite negb_true_iff. intros H. unfold is_char, is_name, T0. not_named H. reflexivity. Qed.
Lemma char_boxed t : plain_type t = true -> is_char (boxed_name t) = false.
Proof. destruct t; try reflexivity. cbn [plain_type type_name boxed_name]. rewrite negb_true_iff. intros H. unfold is_char, is_name, T0. not_named H. reflexivity. Qed.
Lemma assoc_type_of f F t : assoc f F = Some t -> type_of f F = t.
Proof. induction F as [|[g u] F IH]; cbn [assoc type_of]; [discriminate|]. destruct (String.eqb f g); [congruence|auto]. Qed.
Lemma value_field_inv F f : value_field F f = true -> f <> "obj"%string /\ f <> "orther_"%string /\ exists t, assoc f F = Some t /\ plain_type t = true.
Proof.
  unfold value_field. rewrite andb_true_iff, negb_true_iff. intros [A B]. pose proof (mem_name _ _ A) as N. repeat split; try (apply N; cbn; tauto). destruct (assoc f F) as [t|]; [eauto|discriminate].
Qed.
Lemma chars_app a b : chars (a ++ b) = chars a ++ chars b.
Proof. induction a as [|x a IH]; cbn; [reflexivity|]. now rewrite IH. Qed.

(* null, a number, a String, a message *)
Definition item (h : heap) (v : hval) : Prop := match v with HRef l => exists c fs, nth_error h l = Some (CObj c fs) | _ => True end.
Definition listing (h : heap) (v : hval) : Prop := (elements h v = None /\ item h v) \/ exists vs, elements h v = Some vs /\ Forall (item h) vs.
Lemma fits_item h v t : match t with TList _ => false | _ => true end = true -> fits h v t -> item h v.
Proof. destruct t, v; cbn; try discriminate; try contradiction; intros; auto; eauto. Qed.
Lemma item_elements h v : item h v -> elements h v = None.
Proof. destruct v; cbn; auto. intros (c & fs & ->). reflexivity. Qed.
Lemma fits_listing h v t : flat_type t = true -> fits h v t -> listing h v.
Proof.
  intros F H. destruct t as [| | | | | | |u| |]; try (match type of H with fits h v ?t => pose proof (fits_item h v t eq_refl H) as Q end; left; split; [now apply item_elements|exact Q]).
  destruct (fits_list _ _ _ H) as [->|(l & vs & -> & Hl & Hv)]; [left; cbn; auto|]. right. exists vs. cbn [elements]. rewrite Hl. split; auto.
  apply Forall_forall. intros x Hx. destruct (Hv x Hx) as [->|Q]; [exact I|]. eapply fits_item; [|exact Q]. destruct u; auto.
Qed.
Lemma plain_flat t : plain_type t = true -> flat_type t = true.
Proof. destruct t; auto. cbn [plain_type]. rewrite andb_true_iff. tauto. Qed.
Lemma plain_elem t : plain_type t = true -> plain_type (match t with TList u => u | _ => TCodec end) = true.
Proof. destruct t; auto. cbn [plain_type]. rewrite andb_true_iff. tauto. Qed.
Lemma elem_name t : elem_type (type_name t) = match t with TList u => boxed_name u | _ => T1 "Object" end.
Proof. destruct t; reflexivity. Qed.

(* None: StackOverflowError *)
Definition says {A B} (f : A -> B) (o : option A) (s : st) : res B := match o with Some a => Ret (f a) s | None => Exc SOE s end.

Section Values.
  Variable E : env.
  Let C := classes E.
  Variable P : program.
  Variable pr : printers.
  Variable vcall : string -> nat -> list jval -> st -> res jval.
  Variable h : heap.
  Hypothesis OK : heap_ok C h.
  Variable s : st.
  Hypothesis Hs : s_h s = h.

  (* ---------- equals ---------- *)
  Section Eq.
    Variable eqo : hval -> hval -> option bool.
    Hypothesis Hv : forall l m, item h (HRef l) -> item h (HRef m) -> vcall "equals" l [JT (T1 "Object") (HRef m)] s = says JB (eqo (HRef l) (HRef m)) s.
    Lemma eq_item fl t a b : is_float fl = match t with TFloat => true | _ => false end -> jeq_item vcall fl a b s = says JB (heq_item eqo h t a b) s.
    Proof.
      intros F. destruct a, b; cbn [jeq_item heq_item]; try reflexivity.
      - rewrite F. unfold canon. destruct t; reflexivity.
      - destruct (Nat.eqb l l0); [reflexivity|]. rewrite Hs. destruct (nth_error h l) as [[c fs|vs]|] eqn:A; try reflexivity. destruct (nth_error h l0) as [[c' fs'|vs]|] eqn:B; try reflexivity.
        apply Hv; cbn; eauto.
    Qed.
    Lemma eq_items fl t : is_float fl = match t with TFloat => true | _ => false end -> forall x y, jeq_items vcall fl x y s = says JB (heq_items eqo h t x y) s.
    Proof.
      intros F. induction x as [|u x IH]; intros [|w y]; cbn [jeq_items heq_items]; try reflexivity. rewrite (eq_item fl t) by exact F. destruct (heq_item eqo h t u w) as [[|]|]; cbn [says]; auto.
    Qed.
    Lemma eq_val t a b : plain_type t = true -> jeq vcall (type_name t) a b s = says JB (heq_val eqo h t a b) s.
    Proof.
      intros T. unfold jeq, heq_val. rewrite Hs. destruct (elements h a) as [x|] eqn:A; [|now apply eq_item, float_type]. destruct (elements h b) as [y|] eqn:B; [|now apply eq_item, float_type].
      destruct a; try discriminate A. destruct b; try discriminate B. destruct (Nat.eqb l l0); [reflexivity|]. apply eq_items. rewrite elem_name. destruct t; try reflexivity. now apply float_boxed, (plain_elem (TList t)).
    Qed.
  End Eq.

  (* ---------- hashCode ---------- *)
  Section Hash.
    Variable hasho : hval -> option Z.
    Hypothesis Hv : forall l, item h (HRef l) -> vcall "hashCode" l [] s = says jint (hasho (HRef l)) s.
    Lemma hash_item tn t a : is_float tn = match t with TFloat => true | _ => false end -> is_long tn = match t with TLong => true | _ => false end -> item h a ->
      jhash_item vcall tn a s = says id (hhash_item hasho t a) s.
    Proof.
      intros F L A. destruct a; cbn [jhash_item hhash_item says]; rewrite ?F, ?L; try (destruct t; reflexivity).
      rewrite Hv by exact A. destruct (hasho (HRef l)); reflexivity.
    Qed.
    Lemma hash_items tn t : is_float tn = match t with TFloat => true | _ => false end -> is_long tn = match t with TLong => true | _ => false end ->
      forall l i, Forall (item h) l -> jhash_items vcall tn l i s = says id (hhash_items hasho t l i) s.
    Proof.
      intros F L. induction l as [|x l IH]; intros i A; cbn [jhash_items hhash_items]; [reflexivity|]. apply Forall_cons_iff in A. destruct A as [A1 A2]. rewrite (hash_item tn t) by auto. destruct (hhash_item hasho t x); cbn [says bind id]; auto.
    Qed.
    Lemma hash_val t a : plain_type t = true -> listing h a -> jhash vcall (type_name t) a s = says id (hhash_val hasho h t a) s.
    Proof.
      intros T A. unfold jhash, hhash_val. rewrite Hs. destruct A as [[-> A]|(vs & -> & A)].
      - apply hash_item; auto using float_type, long_type.
      - rewrite elem_name. apply hash_items; auto; destruct t; try reflexivity; [apply float_boxed|apply long_boxed]; now apply (plain_elem (TList t)).
    Qed.
    Lemma hash_args F fs : forall names i, (forall f, In f names -> exists t, assoc f F = Some t /\ plain_type t = true /\ listing h (hget f fs)) ->
      jhash_args vcall (map (fun f => JT (type_name (type_of f F)) (hget f fs)) names) i s = says id (hhash_fields hasho h F names fs i) s.
    Proof.
      induction names as [|f names IH]; intros i A; cbn [map jhash_args hhash_fields]; [reflexivity|]. destruct (A f (or_introl eq_refl)) as (t & B & T & V). rewrite (assoc_type_of _ _ _ B), hash_val by auto.
      destruct (hhash_val hasho h t (hget f fs)); cbn [says bind id]; auto. apply IH. intros g Hg. apply A. now right.
    Qed.
  End Hash.

  (* ---------- toString ---------- *)
  Section Show.
    Variable showo : hval -> option (list Z).
    Hypothesis Hv : forall l, item h (HRef l) -> vcall "toString" l [] s = says jstr (showo (HRef l)) s.
    Lemma show_item tn t a : is_float tn = match t with TFloat => true | _ => false end -> is_char tn = false -> item h a -> jshow_item pr vcall tn a s = says id (hshow_item pr showo t a) s.
    Proof.
      intros F L A. destruct a; cbn [jshow_item hshow_item says]; rewrite ?F, ?L; try (destruct t; reflexivity).
      rewrite Hv by exact A. destruct (showo (HRef l)); reflexivity.
    Qed.
    Lemma show_items tn t : is_float tn = match t with TFloat => true | _ => false end -> is_char tn = false -> forall l, Forall (item h) l -> jshow_items pr vcall tn l s = says id (hshow_items pr showo t l) s.
    Proof.
      intros F L. induction l as [|x l IH]; intros A; [reflexivity|]. apply Forall_cons_iff in A. destruct A as [A1 A2]. specialize (IH A2). destruct l as [|y l].
      - cbn [jshow_items hshow_items]. rewrite (show_item tn t) by auto. destruct (hshow_item pr showo t x); reflexivity.
      - change (jshow_items pr vcall tn (x :: y :: l) s) with (bind (jshow_item pr vcall tn x s) (fun a s' => bind (jshow_items pr vcall tn (y :: l) s') (fun b s'' => Ret (a ++ chars ", " ++ b) s''))).
        rewrite (show_item tn t) by auto. change (hshow_items pr showo t (x :: y :: l)) with
          (match hshow_item pr showo t x, hshow_items pr showo t (y :: l) with Some a, Some b => Some (a ++ chars ", " ++ b) | _, _ => None end).
        destruct (hshow_item pr showo t x); cbn [says bind id]; auto. rewrite IH. destruct (hshow_items pr showo t (y :: l)); reflexivity.
    Qed.
    Lemma show_value t a : plain_type t = true -> listing h a -> jshow pr vcall (JT (type_name t) a) s = says id (hshow_val pr showo h t a) s.
    Proof.
      intros T A. unfold jshow, hshow_val. rewrite Hs. destruct A as [[-> A]|(vs & -> & A)].
      - apply show_item; auto using float_type, char_type.
      - rewrite elem_name. rewrite (show_items _ (match t with TList u => u | _ => TCodec end)); auto.
        + destruct (hshow_items _ _ _ _); reflexivity.
        + destruct t; try reflexivity. now apply float_boxed, (plain_elem (TList t)).
        + destruct t; try reflexivity. now apply char_boxed, (plain_elem (TList t)).
    Qed.
  End Show.
End Values.

(* ---------- the methods ---------- *)
Section Methods.
  Variable E : env.
  Let C := classes E.
  Variable P : program.
  Variable pr : printers.
  Variable k : nat.
  Variable stat : list (string * jval).
  Hypothesis value_classes : forall c cd, find_class E c = Some cd -> value_env P stat c cd.

  Lemma fields_listing h l c cd fs f : heap_ok C h -> nth_error h l = Some (CObj c fs) -> find_class E c = Some cd -> value_field (c_fields cd) f = true ->
    exists t, assoc f (c_fields cd) = Some t /\ plain_type t = true /\ listing h (hget f fs).
  Proof.
    intros OK Hl Hc H. destruct (value_field_inv _ _ H) as (_ & _ & t & A & T). exists t. repeat split; auto. apply (fits_listing _ _ t); [now apply plain_flat|]. eapply known_field; eauto.
  Qed.

  Section Body.
    Variable vcall : string -> nat -> list jval -> st -> res jval.
    Variable call : option nat -> string -> string -> list jval -> st -> res jval.
    Variable kk : nat.
    Variable h : heap.
    Hypothesis OK : heap_ok C h.
    Variable b : bytebuf.
    Variable c : string.
    Variable cd : class_def.
    Variable this : nat.
    Variable fs : list (string * hval).
    Hypothesis Ht : nth_error h this = Some (CObj c fs).
    Hypothesis Hc : find_class E c = Some cd.
    Let VE := value_classes c cd Hc.
    Let x0 := {| x_this := Some this; x_class := c |}.
    Let ev_ := eval P pr vcall call x0.

    Lemma vev_bin o a e s : match o with OAnd | OOr => false | _ => true end = true ->
      ev_ (EBin o a e) s = bind (ev_ a s) (fun v s' => bind (ev_ e s') (fun w s'' => binary pr vcall o v w s'')).
    Proof. destruct o; intros H; try discriminate H; reflexivity. Qed.
    Lemma vev_or a e s : ev_ (EBin OOr a e) s = bind (ev_ a s) (fun v s' => match v with JB false => bind (ev_ e s') (fun w s'' => match w with JB _ => Ret w s'' | _ => Bad end) | JB true => Ret v s' | _ => Bad end).
    Proof. reflexivity. Qed.
    Lemma name_objects L : assoc "Objects"%string L = None -> ev_ (EName "Objects") (mk stat h b L) = Ret (JCls "Objects") (mk stat h b L).
    Proof. intros A. unfold ev_. cbn [eval]. apply name_class; [apply (ve_objects _ _ _ _ VE)|exact A]. Qed.
    Lemma name_field L f t : assoc f L = None -> assoc f (c_fields cd) = Some t -> ev_ (EName f) (mk stat h b L) = Ret (JT (type_name t) (hget f fs)) (mk stat h b L).
    Proof.
      intros A F. unfold ev_. cbn [eval]. unfold name_val, x0. cbn [mk s_loc x_this x_class s_h]. rewrite A, (ve_field _ _ _ _ VE), F. cbn [option_map]. unfold field. rewrite Ht. reflexivity.
    Qed.
    Lemma this_field L f t : assoc f (c_fields cd) = Some t -> ev_ (this_f f) (mk stat h b L) = Ret (JT (type_name t) (hget f fs)) (mk stat h b L).
    Proof. intros F. unfold ev_, this_f, x0. cbn [eval x_this bind field_val mk s_h]. rewrite Ht, (ve_field _ _ _ _ VE), F. cbn [option_map]. unfold field. rewrite Ht. reflexivity. Qed.

    Lemma hash_names L : (forall x, assoc x L = None) -> forall names, forallb (value_field (c_fields cd)) names = true ->
      eval_args P pr vcall call x0 (map EName names) (mk stat h b L) = Ret (map (fun f => JT (type_name (type_of f (c_fields cd))) (hget f fs)) names) (mk stat h b L).
    Proof.
      intros HL. induction names as [|f names IH]; cbn [map forallb]; [reflexivity|]. rewrite andb_true_iff. intros [A B]. destruct (value_field_inv _ _ A) as (_ & _ & t & Q & _). rewrite args_cons. fold ev_. rewrite (name_field L f t) by auto. cbn [bind].
      rewrite IH by auto. cbn [bind]. rewrite (assoc_type_of _ _ _ Q). reflexivity.
    Qed.
    Lemma body_hash hasho : (forall l, item h (HRef l) -> vcall "hashCode" l [] (mk stat h b []) = says jint (hasho (HRef l)) (mk stat h b [])) ->
      exec_all P pr vcall call kk x0 (j_hash (c_hash cd)) (mk stat h b []) =
      says (fun z => Some (jint z)) (match c_hash cd with HashSelf => hasho (HRef this) | HashFields names => hhash_fields hasho h (c_fields cd) names fs 1 end) (mk stat h b []).
    Proof.
      intros Hv. pose proof (ve_hash _ _ _ _ VE) as F. destruct (c_hash cd) as [|names]; unfold j_hash.
      - rewrite all_cons, ex_return, ev_call. cbn [eval x_this x0 bind]. rewrite args_nil. cbn [bind dispatch mk s_h]. rewrite Ht. cbn [String.eqb Ascii.eqb Bool.eqb]. rewrite Hv by (cbn; eauto).
        destruct (hasho (HRef this)); reflexivity.
      - rewrite all_cons, ex_return, ev_call. fold ev_. rewrite name_objects by reflexivity. cbn [bind]. rewrite hash_names by auto. cbn [bind dispatch]. rewrite (ve_lib _ _ _ _ VE). unfold lib_call. cbn [String.eqb Ascii.eqb Bool.eqb andb].
        rewrite (hash_args vcall h (mk stat h b []) eq_refl hasho Hv).
        + destruct (hhash_fields _ _ _ _ _ _); reflexivity.
        + intros f Hf. rewrite forallb_forall in F. eapply fields_listing; eauto.
    Qed.

    (* equals *)
    Section Equals.
      Variable eqo : hval -> hval -> option bool.
      Variable m : nat.
      Variable gs : list (string * hval).
      Hypothesis Hm : nth_error h m = Some (CObj c gs).
      Variable L : locals.
      Hypothesis HL : L = [("orther_"%string, (T0 (simple c), JT (T0 (simple c)) (HRef m))); ("obj"%string, (T0 "Object", JT (T0 "Object") (HRef m)))].
      Hypothesis Hv : forall l m, item h (HRef l) -> item h (HRef m) -> vcall "equals" l [JT (T1 "Object") (HRef m)] (mk stat h b L) = says JB (eqo (HRef l) (HRef m)) (mk stat h b L).
      Lemma part_eq f : value_field (c_fields cd) f = true -> ev_ (eq_part f) (mk stat h b L) = says JB (heq_val eqo h (type_of f (c_fields cd)) (hget f fs) (hget f gs)) (mk stat h b L).
      Proof.
        intros A. destruct (value_field_inv _ _ A) as (N1 & N2 & t & Q & T). unfold ev_, eq_part. rewrite ev_call. fold ev_. rewrite name_objects by (subst L; reflexivity). cbn [bind]. rewrite args_cons. fold ev_.
        rewrite (name_field L f t); [|subst L; cbn [assoc]; rewrite (proj2 (String.eqb_neq _ _) N1), (proj2 (String.eqb_neq _ _) N2); reflexivity|exact Q]. cbn [bind]. rewrite args_cons, ev_field. cbn [eval].
        rewrite (name_loc P x0 "orther_" (T0 (simple c)) (JT (T0 (simple c)) (HRef m))) by (subst L; reflexivity). cbn [bind field_val mk s_h]. rewrite Hm, (ve_field _ _ _ _ VE), Q. cbn [option_map bind]. rewrite args_nil. cbn [bind dispatch].
        rewrite (ve_lib _ _ _ _ VE). unfold lib_call. cbn [String.eqb Ascii.eqb Bool.eqb andb]. rewrite (assoc_type_of _ _ _ Q). unfold field. rewrite Hm. apply (eq_val vcall h (mk stat h b L) eq_refl eqo Hv). exact T.
      Qed.
      Lemma chain_eq : forall r e o, forallb (value_field (c_fields cd)) r = true -> ev_ e (mk stat h b L) = says JB o (mk stat h b L) ->
        ev_ (fold_left (fun e g => EBin OAnd e (eq_part g)) r e) (mk stat h b L) = says JB (match o with Some true => heq_fields eqo h (c_fields cd) r fs gs | x => x end) (mk stat h b L).
      Proof.
        induction r as [|f r IH]; intros e o F He; cbn [fold_left heq_fields].
        - rewrite He. destruct o as [[|]|]; reflexivity.
        - cbn [forallb] in F. apply andb_true_iff in F. destruct F as [F1 F2].
          rewrite (IH _ (match o with Some true => heq_val eqo h (type_of f (c_fields cd)) (hget f fs) (hget f gs) | x => x end) F2).
          + destruct o as [[|]|]; try reflexivity. destruct (heq_val _ _ _ _ _) as [[|]|]; reflexivity.
          + unfold ev_. cbn [eval]. fold ev_. rewrite He. destruct o as [[|]|]; cbn [says bind]; try reflexivity. rewrite part_eq by exact F1. destruct (heq_val _ _ _ _ _) as [[|]|]; reflexivity.
      Qed.
    End Equals.
    Lemma body_eq eqo w : (forall l, w = HRef l -> nth_error h l <> None) ->
      (forall l m L, item h (HRef l) -> item h (HRef m) -> vcall "equals" l [JT (T1 "Object") (HRef m)] (mk stat h b L) = says JB (eqo (HRef l) (HRef m)) (mk stat h b L)) ->
      exists L', exec_all P pr vcall call kk x0 (j_eq (simple c) (c_eq cd)) (mk stat h b [("obj"%string, (T0 "Object", JT (T0 "Object") w))]) =
      says (fun r => Some (JB r)) (match w with
        | HRef m => if Nat.eqb this m then Some true else match nth_error h m with
                      | Some (CObj c' gs) => if String.eqb c c' then heq_fields eqo h (c_fields cd) (c_eq cd) fs gs else Some false
                      | _ => Some false end
        | _ => Some false end) (mk stat h b L').
    Proof.
      intros Hw Hv. set (L := [("obj"%string, (T0 "Object", JT (T0 "Object") w))]).
      assert (EO : ev_ (EName "obj") (mk stat h b L) = Ret (JT (T0 "Object") w) (mk stat h b L)) by (apply (name_loc P x0 "obj" (T0 "Object") (JT (T0 "Object") w)); reflexivity).
      assert (ET : ev_ EThis (mk stat h b L) = Ret (JT (T1 c) (HRef this)) (mk stat h b L)) by reflexivity.
      unfold j_eq. cbn [List.app]. rewrite all_cons, ex_if. fold ev_. rewrite vev_bin by reflexivity. rewrite ET. cbn [bind]. rewrite EO. cbn [bind].
      assert (B1 : binary pr vcall OEq (JT (T1 c) (HRef this)) (JT (T0 "Object") w) (mk stat h b L) = Ret (JB (match w with HRef m => Nat.eqb this m | _ => false end)) (mk stat h b L)).
      { cbn [binary is_numeric]. destruct w; reflexivity. }
      rewrite B1. cbn [bind]. destruct (match w with HRef m => Nat.eqb this m | _ => false end) eqn:S1.
      { exists L. destruct w; try discriminate S1. rewrite S1. cbn [scoped exec]. reflexivity. }
      cbn [seq_st bind]. rewrite all_cons, ex_if. fold ev_. rewrite vev_or. rewrite vev_bin by reflexivity. change (ev_ ENull (mk stat h b L)) with (Ret jnull (mk stat h b L)). cbn [bind]. rewrite EO. cbn [bind].
      destruct (match w with HNull => true | _ => false end) eqn:WN.
      { exists L. destruct w; try discriminate WN. reflexivity. }
      assert (BN : binary pr vcall OEq jnull (JT (T0 "Object") w) (mk stat h b L) = Ret (JB false) (mk stat h b L)) by (destruct w; try discriminate WN; reflexivity).
      rewrite BN. cbn [bind]. rewrite vev_bin by reflexivity.
      assert (G1 : ev_ (ECallU "getClass" []) (mk stat h b L) = Ret (JCls c) (mk stat h b L)).
      { unfold ev_. cbn [eval bind String.eqb Ascii.eqb Bool.eqb x_this x0 mk s_h class_of]. rewrite Ht. reflexivity. }
      assert (G2 : ev_ (ECall (EName "obj") "getClass" []) (mk stat h b L) = Ret (JCls (class_of h w)) (mk stat h b L)).
      { unfold ev_. rewrite ev_call. fold ev_. rewrite EO. cbn [bind]. rewrite args_nil. cbn [bind dispatch]. destruct w; try discriminate WN; try reflexivity. cbn [mk s_h]. destruct (nth_error h l) as [[c' gs|vs]|] eqn:Q; cbn [String.eqb Ascii.eqb Bool.eqb class_of]; rewrite ?Q; try reflexivity.
        exfalso. eapply Hw; eauto. }
      rewrite G1. cbn [bind]. rewrite G2. cbn [bind].
      assert (B2 : binary pr vcall ONe (JCls c) (JCls (class_of h w)) (mk stat h b L) = Ret (JB (negb (String.eqb c (class_of h w)))) (mk stat h b L)) by reflexivity.
      rewrite B2. cbn [bind]. pose proof (mem_name _ _ (ve_name _ _ _ _ VE)) as NN.
      destruct (String.eqb c (class_of h w)) eqn:SC; cbn [negb].
      2: { exists L. cbn [scoped exec bind seq_st]. destruct w; try discriminate WN; try reflexivity. rewrite S1. cbn [class_of] in SC. destruct (nth_error h l) as [[c' gs|vs]|]; try reflexivity. rewrite SC. reflexivity. }
      apply String.eqb_eq in SC. cbn [seq_st bind].
      destruct w as [|z|z|u|m]; try discriminate WN; try (exfalso; refine (NN _ _ SC); cbn; tauto).
      cbn [class_of] in SC. rewrite S1. destruct (nth_error h m) as [[c' gs|vs]|] eqn:Hm; try (exfalso; refine (NN _ _ SC); cbn; tauto). subst c'. rewrite String.eqb_refl.
      pose proof (ve_eq _ _ _ _ VE) as FE. destruct (c_eq cd) as [|f r]; cbn [and_chain].
      { exists L. reflexivity. }
      set (L' := [("orther_"%string, (T0 (simple c), JT (T0 (simple c)) (HRef m))); ("obj"%string, (T0 "Object", JT (T0 "Object") (HRef m)))]).
      assert (CA : ev_ (ECast (T0 (simple c)) (EName "obj")) (mk stat h b L) = Ret (JT (T0 (simple c)) (HRef m)) (mk stat h b L)).
      { unfold ev_. cbn [eval]. fold ev_. change (name_val P x0 "obj" (mk stat h b L)) with (ev_ (EName "obj") (mk stat h b L)). rewrite EO. cbn [bind].
        replace (is_prim (T0 (simple c))) with false by (symmetry; apply (ve_simple _ _ _ _ VE)). unfold T0. cbn [x_class x0]. rewrite (ve_self _ _ _ _ VE). 
        unfold field_ty in *. destruct (assoc c P) eqn:AP; [|reflexivity]. cbn [mk s_h class_of]. rewrite Hm, String.eqb_refl. reflexivity. }
      exists L'. rewrite all_cons, ex_local. fold ev_. rewrite CA. cbn [bind declare conv seq_st]. unfold set_loc. cbn [mk s_h s_b s_stat s_loc]. change {| s_h := h; s_b := b; s_loc := _; s_stat := stat |} with (mk stat h b L').
      cbn [forallb] in FE. apply andb_true_iff in FE. destruct FE as [F1 F2].
      rewrite all_cons, ex_return. fold ev_. rewrite (chain_eq eqo m gs Hm L' eq_refl (fun l m => Hv l m L') r (eq_part f) _ F2 (part_eq eqo m gs Hm L' eq_refl (fun l m => Hv l m L') f F1)).
      cbn [heq_fields]. destruct (heq_val eqo h (type_of f (c_fields cd)) (hget f fs) (hget f gs)) as [[|]|]; try reflexivity. destruct (heq_fields eqo h (c_fields cd) r fs gs) as [[|]|]; reflexivity.
    Qed.

    (* toString *)
    Lemma str_stringy u : is_stringy (jstr u) = true. Proof. reflexivity. Qed.
    Lemma show_str u s : jshow pr vcall (jstr u) s = Ret u s. Proof. reflexivity. Qed.
    Lemma plus_show e x o v u : ev_ e (mk stat h b []) = says jstr o (mk stat h b []) -> ev_ x (mk stat h b []) = Ret v (mk stat h b []) -> jshow pr vcall v (mk stat h b []) = says id u (mk stat h b []) ->
      ev_ (EBin OAdd e x) (mk stat h b []) = says jstr (match o, u with Some a, Some w => Some (a ++ w) | _, _ => None end) (mk stat h b []).
    Proof.
      intros He Hx Hu. rewrite vev_bin by reflexivity. rewrite He. destruct o as [a|]; cbn [says bind]; [|reflexivity]. rewrite Hx. cbn [bind binary]. rewrite str_stringy. cbn [orb]. rewrite show_str. cbn [bind]. rewrite Hu.
      destruct u; reflexivity.
    Qed.
    Lemma chain_show showo : (forall l, item h (HRef l) -> vcall "toString" l [] (mk stat h b []) = says jstr (showo (HRef l)) (mk stat h b [])) ->
      forall ls first e o, forallb (fun l => value_field (c_fields cd) (snd l)) ls = true -> ev_ e (mk stat h b []) = says jstr o (mk stat h b []) ->
      ev_ (show_chain first ls e) (mk stat h b []) = says jstr (match o, hshow_fields pr showo h (c_fields cd) first ls fs with Some a, Some w => Some (a ++ w ++ chars "]") | _, _ => None end) (mk stat h b []).
    Proof.
      intros Hv. induction ls as [|[l f] ls IH]; intros first e o F He; cbn [show_chain hshow_fields].
      - rewrite (plus_show e (EStr "]") o (jstr (chars "]")) (Some (chars "]"))) by (auto || reflexivity). destruct o; reflexivity.
      - cbn [forallb snd] in F. apply andb_true_iff in F. destruct F as [F1 F2]. destruct (fields_listing h this c cd fs f OK Ht Hc F1) as (t & A & T & V). rewrite (assoc_type_of _ _ _ A).
        pose proof (plus_show e (EStr ((if first then "" else ", ") ++ l ++ "=")) o (jstr (chars ((if first then "" else ", ") ++ l ++ "="))) (Some (chars ((if first then "" else ", ") ++ l ++ "="))) He eq_refl eq_refl) as H1.
        pose proof (plus_show _ (this_f f) _ _ (hshow_val pr showo h t (hget f fs)) H1 (this_field [] f t A) (show_value pr vcall h (mk stat h b []) eq_refl showo Hv t (hget f fs) T V)) as H2.
        rewrite (IH false _ _ F2 H2). destruct o as [a|]; [|reflexivity]. destruct (hshow_val pr showo h t (hget f fs)) as [w|]; [|reflexivity]. destruct (hshow_fields pr showo h (c_fields cd) false ls fs) as [r|]; [|reflexivity].
        cbn [says]. do 2 f_equal. rewrite !chars_app, <- !app_assoc. destruct first; reflexivity.
    Qed.
    Lemma body_show showo : (forall l, item h (HRef l) -> vcall "toString" l [] (mk stat h b []) = says jstr (showo (HRef l)) (mk stat h b [])) ->
      exec_all P pr vcall call kk x0 (j_show (c_tag cd) (c_str cd)) (mk stat h b []) =
      says (fun u => Some (jstr u)) (match hshow_fields pr showo h (c_fields cd) true (c_str cd) fs with Some a => Some (chars (c_tag cd) ++ chars " [" ++ a ++ chars "]") | None => None end) (mk stat h b []).
    Proof.
      intros Hv. pose proof (ve_str _ _ _ _ VE) as F. unfold j_show. destruct (c_str cd) as [|l ls].
      - cbn [hshow_fields]. rewrite all_cons, ex_return. cbn [eval bind seq_st says]. rewrite chars_app. reflexivity.
      - rewrite all_cons, ex_return. fold ev_. rewrite (chain_show showo Hv (l :: ls) true (EStr (c_tag cd ++ " [")) (Some (chars (c_tag cd ++ " ["))) F eq_refl).
        destruct (hshow_fields pr showo h (c_fields cd) true (l :: ls) fs); cbn [says bind seq_st]; [|reflexivity]. rewrite chars_app, <- app_assoc. reflexivity.
    Qed.
  End Body.

  Theorem java_hash d : forall h l b L, heap_ok C h -> item h (HRef l) -> vcalls P pr (S k) d "hashCode" l [] (mk stat h b L) = says jint (hhash E d h (HRef l)) (mk stat h b L).
  Proof.
    induction d as [|d IH]; intros h l b L OK (c & fs & Hl); [reflexivity|]. cbn [vcalls hhash mk s_h]. rewrite Hl. destruct (OK l c fs Hl) as (cd & Hc & _). unfold find_class. fold C. rewrite Hc.
    erewrite run_eq by exact (ve_m_hash _ _ _ _ (value_classes c cd Hc)). cbn [bind_params bind]. unfold set_loc. cbn [mk s_h s_b s_stat s_loc]. change {| s_h := h; s_b := b; s_loc := []; s_stat := stat |} with (mk stat h b []).
    rewrite (body_hash (vcalls P pr (S k) d) (run P pr (vcalls P pr (S k) d) k) k h OK b c cd l fs Hl Hc (hhash E d h)) by auto.
    destruct (c_hash cd); [destruct (hhash E d h (HRef l))|destruct (hhash_fields (hhash E d h) h (c_fields cd) fs0 fs 1)]; reflexivity.
  Qed.
  Theorem java_string d : forall h l b L, heap_ok C h -> item h (HRef l) -> vcalls P pr (S k) d "toString" l [] (mk stat h b L) = says jstr (hstring E pr d h (HRef l)) (mk stat h b L).
  Proof.
    induction d as [|d IH]; intros h l b L OK (c & fs & Hl); [reflexivity|]. cbn [vcalls hstring mk s_h]. rewrite Hl. destruct (OK l c fs Hl) as (cd & Hc & _). unfold find_class. fold C. rewrite Hc.
    erewrite run_eq by exact (ve_m_str _ _ _ _ (value_classes c cd Hc)). cbn [bind_params bind]. unfold set_loc. cbn [mk s_h s_b s_stat s_loc]. change {| s_h := h; s_b := b; s_loc := []; s_stat := stat |} with (mk stat h b []).
    rewrite (body_show (vcalls P pr (S k) d) (run P pr (vcalls P pr (S k) d) k) k h OK b c cd l fs Hl Hc (hstring E pr d h)) by auto.
    destruct (hshow_fields _ _ _ _ _ _ _); reflexivity.
  Qed.
  Theorem java_equals d : forall h l w b L, heap_ok C h -> item h (HRef l) -> (forall m, w = HRef m -> nth_error h m <> None) ->
    vcalls P pr (S k) d "equals" l [JT (T1 "Object") w] (mk stat h b L) = says JB (hequals E d h (HRef l) w) (mk stat h b L).
  Proof.
    induction d as [|d IH]; intros h l w b L OK (c & fs & Hl) Hw; [reflexivity|]. cbn [vcalls hequals mk s_h]. rewrite Hl. destruct (OK l c fs Hl) as (cd & Hc & _).
    erewrite run_eq by exact (ve_m_eq _ _ _ _ (value_classes c cd Hc)). cbn [bind_params bind].
    assert (CV : forall A (k0 : jval -> res A), conv (T0 "Object") (JT (T1 "Object") w) (mk stat h b L) k0 = k0 (JT (T0 "Object") w)) by (intros; destruct w; reflexivity). cbn [bind_params]. rewrite CV. cbn [bind].
    unfold set_loc. cbn [mk s_h s_b s_stat s_loc]. change {| s_h := h; s_b := b; s_loc := ?l0; s_stat := stat |} with (mk stat h b l0).
    assert (HE : forall l m L, item h (HRef l) -> item h (HRef m) -> vcalls P pr (S k) d "equals" l [JT (T1 "Object") (HRef m)] (mk stat h b L) = says JB (hequals E d h (HRef l) (HRef m)) (mk stat h b L)).
    { intros l1 m1 L1 I1 (c1 & fs1 & I2). apply IH; auto. intros m Hm Q. injection Hm as <-. congruence. }
    destruct (body_eq (vcalls P pr (S k) d) (run P pr (vcalls P pr (S k) d) k) k h b c cd l fs Hl Hc (hequals E d h) w Hw HE) as (L' & ->).
    destruct w as [|z|z|u|m]; cbn [says]; try reflexivity. destruct (Nat.eqb l m); [reflexivity|]. destruct (nth_error h m) as [[c' gs|vs]|]; try reflexivity. destruct (String.eqb c c'); [|reflexivity]. unfold find_class. fold C. rewrite Hc.
    destruct (heq_fields _ _ _ _ _ _) as [r|]; reflexivity.
  Qed.

  (* ---------- getters and setters ---------- *)
  Definition getters (c : string) (cd : class_def) : Prop := forall m f, assoc m (c_get cd) = Some f -> exists t, assoc f (c_fields cd) = Some t /\ find_method P c m 0 = Some ([], [SReturn (Some (this_f f))]).
  Definition setters (c : string) (cd : class_def) : Prop := forall m f, assoc m (c_set cd) = Some f -> exists t, assoc f (c_fields cd) = Some t /\ find_method P c m 1 = Some ([(type_name t, f)], [set_s (this_f f) (EName f)]).
  Theorem java_get d h l c cd fs b L m f : nth_error h l = Some (CObj c fs) -> find_class E c = Some cd -> getters c cd -> assoc m (c_get cd) = Some f ->
    vcalls P pr (S k) (S d) m l [] (mk stat h b L) = Ret (JT (type_name (type_of f (c_fields cd))) (field h l f)) (mk stat h b L).
  Proof.
    intros Hl Hc G A. destruct (G m f A) as (t & T & F). cbn [vcalls mk s_h]. rewrite Hl. erewrite run_eq by exact F. cbn [bind_params bind]. unfold set_loc. cbn [mk s_h s_b s_stat s_loc].
    change {| s_h := h; s_b := b; s_loc := []; s_stat := stat |} with (mk stat h b []). rewrite all_cons, ex_return. rewrite (this_field (vcalls P pr (S k) d) (run P pr (vcalls P pr (S k) d) k) h b c cd l fs Hl Hc [] f t T).
    rewrite (assoc_type_of _ _ _ T). unfold field. rewrite Hl. reflexivity.
  Qed.
  (* v: a value of the parameter's type, so not null when that is a number type *)
  Theorem java_set d h l c cd fs b L m f t v : nth_error h l = Some (CObj c fs) -> find_class E c = Some cd -> setters c cd -> assoc m (c_set cd) = Some f ->
    (v = HNull -> is_prim (type_name (type_of f (c_fields cd))) = false) ->
    vcalls P pr (S k) (S d) m l [JT t v] (mk stat h b L) = Ret JVoid (mk stat (put_field h l f v) b L).
  Proof.
    intros Hl Hc G A N. destruct (G m f A) as (t' & T & F). rewrite (assoc_type_of _ _ _ T) in N. cbn [vcalls mk s_h]. rewrite Hl. erewrite run_eq by exact F. cbn [bind_params].
    assert (CV : forall A t0 s0 (k0 : jval -> res A), conv (type_name t') (JT t0 v) s0 k0 = k0 (JT (type_name t') v)) by (intros; unfold conv; destruct v; try reflexivity; rewrite N by reflexivity; reflexivity).
    rewrite CV. cbn [bind]. unfold set_loc. cbn [mk s_h s_b s_stat s_loc]. change {| s_h := h; s_b := b; s_loc := ?l0; s_stat := stat |} with (mk stat h b l0).
    rewrite all_cons. unfold set_s, this_f. rewrite ex_expr. cbn [eval]. erewrite name_loc by (cbn [mk s_loc assoc]; rewrite String.eqb_refl; reflexivity). cbn [bind]. unfold assign_field. cbn [x_this x_class]. rewrite (ve_field _ _ _ _ (value_classes c cd Hc)), T. cbn [option_map].
    rewrite CV. cbn [hval_of]. reflexivity.
  Qed.
End Methods.
