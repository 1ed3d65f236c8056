(* C40, C41: equals and hashCode. *)
From Coq Require Import ZArith List Bool String Lia.
From Verif.Model Require Import JavaPrim ByteBuf Ast Interp Library.
From Verif.Spec Require Import Bytes Buffers Wire Reading Layouts Equality.
From Verif.Proofs Require Import ValInd BufFacts Conform TableFacts DecodeFacts Messages EqualFacts HashFacts.
From Verif.Props Require Import Samples MessageProps.
Import ListNotations.
Open Scope Z_scope.

(* equals and hashCode mention every field once, in declaration order; without fields hashCode calls itself *)
Definition names_okb (cd : class_def) : bool :=
  (if list_eq_dec string_dec (c_eq cd) (map fst (c_fields cd)) then true else false)
  && match c_hash cd, c_fields cd with
     | HashSelf, [] => true
     | HashFields ns, _ :: _ => if list_eq_dec string_dec ns (map fst (c_fields cd)) then true else false
     | _, _ => false
     end.
Lemma library_names : forall c cd, assoc c lib_classes = Some cd -> names_ok cd.
Proof.
  intros c cd H. assert (A : forallb (fun ccd => names_okb (snd ccd)) lib_classes = true) by (vm_compute; reflexivity).
  assert (B : names_okb cd = true).
  { revert H A. generalize lib_classes. induction l as [|[k a] l IH]; cbn [assoc forallb snd]; [discriminate|]. intros H A. apply andb_true_iff in A as [A1 A2].
    destruct (String.eqb c k); [injection H as <-; exact A1|auto]. }
  unfold names_okb in B. apply andb_true_iff in B as [B1 B2]. split.
  - destruct (list_eq_dec string_dec _ _); [assumption|discriminate].
  - clear B1. destruct (c_hash cd), (c_fields cd); try discriminate; auto. destruct (list_eq_dec string_dec _ _) as [Q|]; [rewrite Q; reflexivity|discriminate].
Qed.
Lemma shape_codec E c v : classes E = lib_classes -> object_of E c v = true -> exists fs L, v = VObj c fs /\ typed lib_classes v TCodec = true /\ find c Y = Some L /\ fields_ok lib_classes fs L = true.
Proof.
  intros HE H. destruct (object_shape lib_classes E HE c v H) as (fs & -> & Ht). destruct (typed_obj_known lib_classes Y c fs _ library_conforms Ht) as [L HL].
  exists fs, L. split; auto. split; [eapply typed_obj_codec; eauto|]. split; auto. eapply typed_obj; eauto using library_conforms.
Qed.

Lemma ok_fields_nodup : forall L seen, ok_fields Y seen L = true -> NoDup (map fst L) /\ forall f, In f (map fst seen) -> ~ In f (map fst L).
Proof.
  induction L as [|[f w] L IH]; intros seen H; [split; [constructor|auto]|]. apply ok_field_of in H as (Hs & _ & H & _). destruct (IH _ H) as [N1 N2].
  rewrite map_app in N2. cbn [map fst] in *. split.
  - constructor; auto. apply N2. apply in_or_app. right. left. reflexivity.
  - intros g Hg [<-|Hi]; [|apply (N2 g); auto; apply in_or_app; auto]. clear - Hs Hg. induction seen as [|[h u] seen IH]; auto. cbn [existsb map fst] in *.
    apply orb_false_iff in Hs as [H1 H2]. destruct Hg as [<-|Hg]; auto. rewrite String.eqb_refl in H1. discriminate.
Qed.

(* ---- C40 ---- *)
Theorem C40_equals_iff : forall E d c c' a b, classes E = lib_classes -> object_of E c a = true -> object_of E c' b = true -> (nesting a <= d)%nat ->
  exists r, jequals E d a b = Some r /\ (r = true <-> one_nan Y a (WObj c) = one_nan Y b (WObj c')).
Proof.
  intros E d c c' a b HE Ha Hb Hn. destruct (shape_codec E c a HE Ha) as (fs & L & -> & Ta & _). destruct (shape_codec E c' b HE Hb) as (gs & L' & -> & Tb & _).
  exact (equals_all lib_classes Y library_conforms E HE library_names d c c' fs gs (WObj c) (WObj c') Ta Tb Hn).
Qed.
(* the same, field by field *)
Theorem C40_field_wise : forall E d c c' fs gs, classes E = lib_classes -> object_of E c (VObj c fs) = true -> object_of E c' (VObj c' gs) = true -> (nesting (VObj c fs) <= d)%nat ->
  (jequals E d (VObj c fs) (VObj c' gs) = Some true
   <-> c = c' /\ forall L f w, find c Y = Some L -> find f L = Some w -> one_nan Y (get f fs) w = one_nan Y (get f gs) w)
  /\ (jequals E d (VObj c fs) (VObj c' gs) = Some false
   <-> c <> c' \/ exists L f w, find c Y = Some L /\ find f L = Some w /\ one_nan Y (get f fs) w <> one_nan Y (get f gs) w).
Proof.
  intros E d c c' fs gs HE Ha Hb Hn. destruct (C40_equals_iff E d c c' _ _ HE Ha Hb Hn) as (r & -> & Hr).
  assert (Q : (r = true -> c = c' /\ forall L f w, find c Y = Some L -> find f L = Some w -> one_nan Y (get f fs) w = one_nan Y (get f gs) w)
              /\ (r = false -> c <> c' \/ exists L f w, find c Y = Some L /\ find f L = Some w /\ one_nan Y (get f fs) w <> one_nan Y (get f gs) w)).
  { destruct (shape_codec E c _ HE Ha) as (fs' & L & [= <-] & _ & HL & Hf). destruct (shape_codec E c' _ HE Hb) as (gs' & L' & [= <-] & _ & HL' & Hg).
    rewrite (one_obj_eq Y c fs _ L HL), (one_obj_eq Y c' gs _ L' HL') in Hr.
    assert (A : forall fs gs L, fields_ok lib_classes fs L = true -> fields_ok lib_classes gs L = true ->
       (one_fields Y fs L = one_fields Y gs L -> forall f w, find f L = Some w -> one_nan Y (get f fs) w = one_nan Y (get f gs) w)
       /\ (one_fields Y fs L <> one_fields Y gs L -> NoDup (map fst L) -> exists f w, find f L = Some w /\ one_nan Y (get f fs) w <> one_nan Y (get f gs) w)).
    { clear. induction fs as [|[f x] fs IH]; intros [|[g y] gs] [|[h w] L] Hf Hg; try discriminate.
      - split; [intros _ f w; discriminate|]. intros N. contradiction N. reflexivity.
      - apply fields_ok_cons in Hf as (-> & Hx & Hf). apply fields_ok_cons in Hg as (-> & Hy & Hg). destruct (IH gs L Hf Hg) as [IH1 IH2]. cbn [one_fields]. split.
        + intros Q k u. injection Q as Q1 Q2. cbn [find get]. destruct (String.eqb k h); [intros [= <-]; exact Q1|auto].
        + intros N ND. inversion ND as [|? ? N1 N2]; subst.
          destruct (val_eq_dec (one_nan Y x w) (one_nan Y y w)) as [Ex|Ex].
          * rewrite Ex in N. destruct IH2 as (k & u & Hk & Hne); auto. { intros Q. apply N. rewrite Q. reflexivity. }
            exists k, u. cbn [find get]. destruct (String.eqb_spec k h) as [->|]; [|auto].
            exfalso. apply N1. clear - Hk. induction L as [|[g z] L IH]; [discriminate|]. cbn [find map fst] in *. destruct (String.eqb_spec h g) as [->|]; [left; reflexivity|right; auto].
          * exists h, w. cbn [find get]. rewrite String.eqb_refl. auto. }
    split.
    - intros Er. apply Hr in Er. injection Er as <- Ef. assert (L' = L) by congruence. subst L'. split; auto.
      intros L2 f w HL2. assert (L2 = L) by congruence. subst L2. apply (A fs gs L Hf Hg). exact Ef.
    - intros Er. destruct (string_dec c c') as [<-|]; [right|left; auto]. assert (L' = L) by congruence. subst L'. exists L.
      destruct (A fs gs L Hf Hg) as [_ A2]. destruct A2 as (f & w & F1 & F2).
      + intros Q. rewrite Q in Hr. destruct Hr as [_ Hr]. rewrite Hr in Er by reflexivity. discriminate.
      + exact (proj1 (ok_fields_nodup L [] (conforms_ok lib_classes Y c L library_conforms HL))).
      + exists f, w. auto. }
  destruct Q as [Q1 Q2]. split; split.
  - intros [= ->]. auto.
  - intros [-> H]. destruct r; auto. destruct (Q2 eq_refl) as [N|(L & f & w & F1 & F2 & F3)]; [congruence|]. exfalso. apply F3. eauto.
  - intros [= ->]. auto.
  - intros H. destruct r; auto. destruct (Q1 eq_refl) as [<- A]. destruct H as [N|(L & f & w & F1 & F2 & F3)]; [congruence|]. exfalso. apply F3. eauto.
Qed.
Theorem C40_null : forall E d c a, object_of E c a = true -> jequals E (S d) a VNull = Some false.
Proof. intros E d c a H. destruct a; try discriminate H. reflexivity. Qed.
Theorem C40_reflexive : forall E d c a, classes E = lib_classes -> object_of E c a = true -> (nesting a <= d)%nat -> jequals E d a a = Some true.
Proof. intros E d c a HE Ha Hn. destruct (C40_equals_iff E d c c a a HE Ha Ha Hn) as (r & -> & Hr). destruct Hr as [_ Hr]. rewrite Hr; reflexivity. Qed.
Theorem C40_symmetric : forall E d c c' a b, classes E = lib_classes -> object_of E c a = true -> object_of E c' b = true -> jequals E d a b = jequals E d b a.
Proof.
  intros E d c c' a b HE Ha Hb. destruct (shape_codec E c a HE Ha) as (fs & _ & -> & _). destruct (shape_codec E c' b HE Hb) as (gs & _ & -> & _). apply jequals_sym.
Qed.
Theorem C40_transitive : forall E d c c' c'' x y z, classes E = lib_classes -> object_of E c x = true -> object_of E c' y = true -> object_of E c'' z = true ->
  (nesting x <= d)%nat -> (nesting y <= d)%nat -> jequals E d x y = Some true -> jequals E d y z = Some true -> jequals E d x z = Some true.
Proof.
  intros E d c c' c'' x y z HE Hx Hy Hz Nx Ny E1 E2.
  destruct (C40_equals_iff E d c c' x y HE Hx Hy Nx) as (r1 & R1 & H1). destruct (C40_equals_iff E d c' c'' y z HE Hy Hz Ny) as (r2 & R2 & H2).
  destruct (C40_equals_iff E d c c'' x z HE Hx Hz Nx) as (r3 & -> & H3). rewrite R1 in E1. rewrite R2 in E2. injection E1 as ->. injection E2 as ->.
  f_equal. apply H3. destruct H1 as [H1 _], H2 as [H2 _]. rewrite H1, H2; reflexivity.
Qed.
(* a message read back equals the one written *)
Theorem C40_decoded_equals : forall E d d2 d3 c v b v1 b1, classes E = lib_classes ->
  object_of E c v = true -> buf_wf b = true -> encode E d v b = (None, v1, b1) ->
  parsable Y (factory E) v (WObj c) = true -> canonical Y v (WObj c) = true -> exact_form Y v (WObj c) = true -> (nesting v <= d2)%nat -> (nesting v <= d3)%nat ->
  exists bs, appended b bs b1 /\
    forall b2 rest, buf_wf b2 = true -> readable b2 = bs ++ rest ->
    exists v2 b3, decode E d2 (new_obj E c) b2 = (None, v2, b3) /\ jequals E d3 v2 v1 = Some true.
Proof.
  intros E d d2 d3 c v b v1 b1 HE Hv Hb He Hp Hc Hx Hn Hn3. destruct (C22_round_trip E E d d2 c v b v1 b1 HE HE Hv Hb He Hp Hc Hn) as (bs & A & R).
  destruct (encoded_facts lib_classes Y library_conforms E HE d c v b v1 b1 Hv Hb He) as (Hv1 & _ & Hn1 & _).
  exists bs. split; auto. intros b2 rest H1 H2. destruct (R b2 rest H1 H2) as (v2 & b3 & D & _ & X & _). exists v2, b3. split; auto.
  rewrite (X Hx). apply (C40_reflexive E d3 c v1 HE Hv1). lia.
Qed.
(* exact_form is needed: a null string comes back as "" *)
Theorem C40_decoded_equals_refuted : exists v v1 b1 v2 b2, object_of lib_env "sse.Logout" v = true /\ canonical Y v (WObj "sse.Logout") = true
  /\ encode lib_env 3 v empty_buf = (None, v1, b1) /\ decode lib_env 3 (new_obj lib_env "sse.Logout") b1 = (None, v2, b2) /\ jequals lib_env 3 v2 v1 = Some false.
Proof.
  exists (build "sse.Logout" []). eexists _, _, _, _. split; [vm_compute; reflexivity|]. split; [vm_compute; reflexivity|].
  split; [vm_compute; reflexivity|]. split; [vm_compute; reflexivity|]. vm_compute. reflexivity.
Qed.
Definition s_floats (x y : Z) : val := build "sample.BasicPacket" [("fieldF32", VFlt x); ("fieldF64List", VList [VFlt y; VFlt 0])]%string.
Example C40_meets : object_of lib_env "sample.RootPacket" s_root = true /\ object_of lib_env "sample.RootPacket" s_root_nested = true
  /\ jequals lib_env 3 s_root_nested s_root_nested = Some true /\ jequals lib_env 2 s_root_nested s_root_nested = None
  /\ jequals lib_env 3 s_root s_root_nested = Some false /\ jequals lib_env 1 s_sse s_bjse = Some false
  /\ object_of lib_env "sample.BasicPacket" (s_floats 2143289345 18444492273895866369) = true
  (* NaNs of any pattern are equal, 0.0 and -0.0 are not *)
  /\ jequals lib_env 1 (s_floats 2143289345 18444492273895866369) (s_floats 4290772992 9221120237041090560) = Some true
  /\ jequals lib_env 1 (s_floats 0 0) (s_floats 2147483648 0) = Some false.
Proof. vm_compute. repeat split. Qed.

(* ---- C41 ---- *)
(* the value of hashCode: the documented polynomial (Spec/Equality.v); a field-less class inside, or nesting deeper than the stack,
   gives StackOverflowError *)
Theorem C41_hash_value : forall E d c v, classes E = lib_classes -> object_of E c v = true ->
  jhash E d v = if has_void Y v || Nat.ltb d (nesting v) then None else Some (digest Y v (WObj c)).
Proof.
  intros E d c v HE Hv. destruct (shape_codec E c v HE Hv) as (fs & L & -> & T & _).
  exact (hash_all lib_classes Y library_conforms E HE library_names d c fs (WObj c) T).
Qed.
Theorem C41_equal_objects_equal_hashes : forall E d d' c c' a b, classes E = lib_classes -> object_of E c a = true -> object_of E c' b = true -> (nesting a <= d)%nat ->
  jequals E d a b = Some true -> jhash E d' a = jhash E d' b.
Proof.
  intros E d d' c c' a b HE Ha Hb Hn He. destruct (C40_equals_iff E d c c' a b HE Ha Hb Hn) as (r & R & Hr). rewrite R in He. injection He as ->.
  destruct Hr as [Hr _]. specialize (Hr eq_refl).
  assert (c = c') as <-.
  { destruct (shape_codec E c a HE Ha) as (fs & _ & -> & _). destruct (shape_codec E c' b HE Hb) as (gs & _ & -> & _).
    destruct (one_nan_obj Y c fs (WObj c)) as (x & Ex), (one_nan_obj Y c' gs (WObj c')) as (y & Ey). rewrite Ex, Ey in Hr. congruence. }
  rewrite (C41_hash_value E d' c a HE Ha), (C41_hash_value E d' c b HE Hb).
  rewrite <- (has_void_nan Y a (WObj c)), <- (has_void_nan Y b (WObj c)), <- (one_nan_nesting Y a (WObj c)), <- (one_nan_nesting Y b (WObj c)), <- (digest_nan Y a (WObj c)), <- (digest_nan Y b (WObj c)), Hr.
  reflexivity.
Qed.
Theorem C41_terminates_iff : forall E d c v, classes E = lib_classes -> object_of E c v = true -> (nesting v <= d)%nat ->
  ((exists h, jhash E d v = Some h /\ - 2 ^ 31 <= h < 2 ^ 31) <-> has_void Y v = false).
Proof.
  intros E d c v HE Hv Hn. rewrite (C41_hash_value E d c v HE Hv). destruct (Nat.ltb_spec d (nesting v)); [lia|]. rewrite orb_false_r.
  destruct (has_void Y v); split; try discriminate; auto; [intros (h & ? & _); discriminate|]. intros _. eexists. split; [reflexivity|].
  destruct (shape_codec E c v HE Hv) as (fs & L & -> & _ & HL & _). rewrite (digest_obj_eq Y _ _ _ _ HL). unfold hash_list, as_int.
  pose proof (Z.mod_pos_bound (31 ^ Z.of_nat (List.length (digests Y fs L)) + weigh (digests Y fs L) + 2 ^ 31) (2 ^ 32) ltac:(reflexivity)). lia.
Qed.
(* so hashCode does not terminate for objects of field-less classes, nor for objects containing one, whatever the stack *)
Theorem C41_void_refuted : forall E c, classes E = lib_classes -> find c Y = Some [] -> forall d, jhash E d (new_obj E c) = None.
Proof.
  intros E c HE HL d. assert (Hv : object_of E c (new_obj E c) = true).
  { pose proof (typed_blank lib_classes Y library_conforms c [] HL) as T. rewrite (new_blank lib_classes Y library_conforms E HE). unfold blank_obj. rewrite HL.
    unfold object_of. rewrite HE. cbn [is_null negb andb]. exact T. }
  rewrite (C41_hash_value E d c _ HE Hv). rewrite (new_blank lib_classes Y library_conforms E HE). unfold blank_obj. rewrite HL. cbn [has_void]. rewrite HL. reflexivity.
Qed.
Theorem C41_containing_void_refuted : forall E c v, classes E = lib_classes -> object_of E c v = true -> has_void Y v = true -> forall d, jhash E d v = None.
Proof. intros E c v HE Hv Hh d. rewrite (C41_hash_value E d c v HE Hv), Hh. reflexivity. Qed.
Example C41_meets :
  List.length (filter (fun cL => match snd cL with [] => true | _ => false end) Y) = 28%nat
  /\ find "sample.EmptyPacket" Y = Some [] /\ find "sse.Heartbeat" Y = Some []
  /\ has_void Y s_bjse = true /\ object_of lib_env "bjse.BjseBinary" s_bjse = true
  /\ has_void Y s_root = false /\ jhash lib_env 3 s_root = Some (digest Y s_root (WObj "sample.RootPacket"))
  (* Objects.hash(5, null) and Objects.hash(1, [1, -1]) *)
  /\ jhash lib_env 1 (build "sample.SubPacket" [("fieldU32", VInt 5)]%string) = Some 1116 /\ jhash lib_env 1 (s_sub 1) = Some (31 * (31 * 1 + 1) + (31 * (31 * 1 + 1) - 1)).
Proof. vm_compute. repeat split. Qed.

Print Assumptions C40_equals_iff.
Print Assumptions C40_field_wise.
Print Assumptions C40_null.
Print Assumptions C40_reflexive.
Print Assumptions C40_symmetric.
Print Assumptions C40_transitive.
Print Assumptions C40_decoded_equals.
Print Assumptions C40_decoded_equals_refuted.
Print Assumptions C41_hash_value.
Print Assumptions C41_equal_objects_equal_hashes.
Print Assumptions C41_terminates_iff.
Print Assumptions C41_void_refuted.
Print Assumptions C41_containing_void_refuted.
