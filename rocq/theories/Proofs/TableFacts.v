(* Looking things up in conforming tables. *)
From Coq Require Import ZArith List Bool String Lia.
From Verif.Model Require Import JavaPrim Ast Interp.
From Verif.Spec Require Import Bytes Wire Reading.
From Verif.Proofs Require Import Conform.
Import ListNotations.
Open Scope Z_scope.

Definition types_of (L : layout) : list (string * ftype) := map (fun fw => (fst fw, wire_type (snd fw))) L.

Lemma assoc_find {A} k (l : list (string * A)) : assoc k l = find k l.
Proof. induction l as [|[k' a] l IH]; simpl; [auto|]. rewrite IH; auto. Qed.

Lemma conforms_find C Y c : conforms C Y ->
  match find c Y with
  | Some L => exists cd, assoc c C = Some cd /\ c_name cd = c /\ c_fields cd = types_of L /\ c_enc cd = compile_enc L /\ c_dec cd = compile_dec L
  | None => assoc c C = None
  end.
Proof.
  intros [H _]. revert Y H. induction C as [|[c1 cd] C IH]; intros [|[c2 L] Y] H; try discriminate H.
  - reflexivity.
  - cbn [map] in H. injection H as E1 E2 E3 E4 E5 E6. simpl in E1. subst c2.
    cbn [find assoc]. destruct (String.eqb_spec c c1) as [->|N].
    + exists cd. repeat split; auto.
    + apply IH. exact E6.
Qed.
Lemma conforms_ok C Y c L : conforms C Y -> find c Y = Some L -> ok_fields Y [] L = true.
Proof.
  intros [_ H] Hf. unfold ok_layouts in H.
  assert (forall Y0, forallb (fun cL => ok_fields Y [] (snd cL)) Y0 = true -> find c Y0 = Some L -> ok_fields Y [] L = true) as A.
  { induction Y0 as [|[c' L'] Y0 IH]; simpl; intros H0 H1; [discriminate|]. apply andb_true_iff in H0 as [H0 H2].
    destruct (String.eqb c c'); [inversion H1; subst; auto|auto]. }
  eapply A; eauto.
Qed.

(* field access in the middle of an object *)
Lemma get_mid f x dn td : existsb (fun fw : string * val => String.eqb f (fst fw)) dn = false ->
  get f (dn ++ (f, x) :: td) = x.
Proof.
  induction dn as [|[g y] dn IH]; simpl; intros H; [rewrite String.eqb_refl; auto|].
  apply orb_false_iff in H as [H1 H2]. rewrite H1. auto.
Qed.
Lemma set_mid f x x' dn td : existsb (fun fw : string * val => String.eqb f (fst fw)) dn = false ->
  set f x' (dn ++ (f, x) :: td) = dn ++ (f, x') :: td.
Proof.
  induction dn as [|[g y] dn IH]; simpl; intros H; [rewrite String.eqb_refl; auto|].
  apply orb_false_iff in H as [H1 H2]. rewrite H1, IH; auto.
Qed.
Lemma existsb_names {A B} f (l : list (string * A)) (m : list (string * B)) : map fst l = map fst m ->
  existsb (fun fw => String.eqb f (fst fw)) l = existsb (fun fw => String.eqb f (fst fw)) m.
Proof.
  revert m; induction l as [|[g y] l IH]; intros [|[h z] m] H; simpl in *; try discriminate; auto.
  inversion H; subst. f_equal. auto.
Qed.

Lemma forall2b_length {A B} (p : A -> B -> bool) l m : forall2b p l m = true -> List.length l = List.length m.
Proof. revert m; induction l; intros [|b m] H; simpl in *; try discriminate; auto. apply andb_true_iff in H as [_ H]. f_equal; auto. Qed.
Lemma forall2b_map_r {A B B'} (p : A -> B' -> bool) (f : B -> B') l m :
  forall2b p l (map f m) = forall2b (fun a b => p a (f b)) l m.
Proof. revert m; induction l; intros [|b m]; simpl; auto. f_equal. auto. Qed.

(* an object's fields against its layout *)
Definition fields_ok (C : list (string * class_def)) (fs : list (string * val)) (L : layout) : bool :=
  forall2b (fun fv fw => String.eqb (fst fv) (fst fw) && typed C (snd fv) (wire_type (snd fw))) fs L.
Lemma fields_ok_names C fs L : fields_ok C fs L = true -> map fst fs = map fst L.
Proof.
  revert L; induction fs as [|[f x] fs IH]; intros [|[g w] L] H; simpl in *; try discriminate; auto.
  apply andb_true_iff in H as [H1 H2]. apply andb_true_iff in H1 as [H1 _]. apply String.eqb_eq in H1. subst.
  f_equal. auto.
Qed.
Lemma fields_ok_cons C f x fs g w L : fields_ok C ((f, x) :: fs) ((g, w) :: L) = true ->
  f = g /\ typed C x (wire_type w) = true /\ fields_ok C fs L = true.
Proof.
  intros H. simpl in H. apply andb_true_iff in H as [H1 H2]. apply andb_true_iff in H1 as [H0 H1].
  apply String.eqb_eq in H0. auto.
Qed.
Lemma typed_obj C Y c fs t L : conforms C Y -> find c Y = Some L -> typed C (VObj c fs) t = true -> fields_ok C fs L = true.
Proof.
  intros HC Hf H. simpl in H. apply andb_true_iff in H as [_ H].
  pose proof (conforms_find C Y c HC) as F. rewrite Hf in F. destruct F as (cd & E1 & _ & E2 & _).
  rewrite E1, E2 in H. unfold types_of in H. rewrite forall2b_map_r in H. exact H.
Qed.
Lemma typed_obj_known C Y c fs t : conforms C Y -> typed C (VObj c fs) t = true -> exists L, find c Y = Some L.
Proof.
  intros HC H. simpl in H. apply andb_true_iff in H as [_ H].
  pose proof (conforms_find C Y c HC) as F. destruct (find c Y) as [L|]; [eauto|]. rewrite F in H. discriminate.
Qed.

(* shapes of typed values *)
Lemma typed_int C v n o : ok_width n = true -> typed C v (wire_type (WInt n o)) = true ->
  exists z, v = VInt z /\ in_signed (8 * Z.of_nat n) z = true.
Proof.
  intros Hn H. destruct n as [|[|[|[|[|[|[|[|[|n]]]]]]]]]; try discriminate Hn; destruct v; simpl in H; try discriminate;
    try (eexists; split; [reflexivity|exact H]).
Qed.
Lemma typed_flt C v n o : ok_flt n = true -> typed C v (wire_type (WFlt n o)) = true ->
  exists z, v = VFlt z /\ 0 <= z < 2 ^ (8 * Z.of_nat n).
Proof.
  intros Hn H. destruct n as [|[|[|[|[|[|[|[|[|n]]]]]]]]]; try discriminate Hn; destruct v; simpl in H; try discriminate;
    (eexists; split; [reflexivity|]; apply andb_true_iff in H as [H1 H2]; apply Z.leb_le in H1; apply Z.ltb_lt in H2; split; [exact H1|exact H2]).
Qed.
Lemma typed_str C v : typed C v TStr = true -> v = VNull \/ exists s, v = VStr s /\ forallb Utf8.is_unit s = true.
Proof. destruct v; simpl; intros H; try discriminate; eauto. Qed.
Lemma typed_list C v t : typed C v (TList t) = true ->
  v = VNull \/ exists l, v = VList l /\ forallb (fun x => is_null x || typed C x t) l = true.
Proof. destruct v; simpl; intros H; try discriminate; eauto. Qed.
Lemma typed_tobj C v c : typed C v (TObj c) = true -> v = VNull \/ exists fs, v = VObj c fs.
Proof.
  destruct v; simpl; intros H; try discriminate; eauto. apply andb_true_iff in H as [H _]. apply String.eqb_eq in H. subst. eauto.
Qed.
Lemma typed_codec C v : typed C v TCodec = true -> v = VNull \/ exists c fs, v = VObj c fs.
Proof. destruct v; simpl; intros H; try discriminate; eauto. Qed.
Lemma typed_obj_codec C c fs t : typed C (VObj c fs) t = true -> typed C (VObj c fs) TCodec = true.
Proof. simpl. intros H. apply andb_true_iff in H as [_ H]. exact H. Qed.
