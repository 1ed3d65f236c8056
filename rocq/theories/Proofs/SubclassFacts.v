(* Objects of subclasses behave as objects of the class they are derived from, up to equals. *)
From Coq Require Import ZArith List Bool String Lia.
From Verif.Model Require Import JavaPrim ByteBuf Utf8 Codec Ast Interp Show Heap Subclass.
From Verif.Spec Require Import Sharing Recast.
From Verif.Proofs Require Import DecodeFacts RegistryFacts.
Import ListNotations.
Open Scope Z_scope.

(* the class literals in decode *)
Definition literals (s : dstmt) : list string := match s with DList _ _ _ (YObj c) => [c] | DNewIfNull _ c => [c] | _ => [] end.

Section Recast.
Variable S : subclasses.
Notation r := (recast S).
Definition R3 (x : option exn * heap * bytebuf) : option exn * heap * bytebuf := let '(e, h, b) := x in (e, r h, b).

Lemma r_nth h l : nth_error (r h) l = option_map (recast_cell S) (nth_error h l).
Proof. apply nth_error_map. Qed.
Lemma r_field h l f : field (r h) l f = field h l f.
Proof. unfold field. rewrite r_nth. destruct (nth_error h l) as [[]|]; reflexivity. Qed.
Lemma r_elements h v : elements (r h) v = elements h v.
Proof. destruct v; try reflexivity. cbn. rewrite r_nth. destruct (nth_error h l) as [[]|]; reflexivity. Qed.
Lemma r_upd h l x : r (upd h l x) = upd (r h) l (recast_cell S x).
Proof. unfold upd, recast. rewrite map_app, firstn_map, skipn_map. destruct (skipn l h); reflexivity. Qed.
Lemma r_put h l f x : put_field (r h) l f x = r (put_field h l f x).
Proof. unfold put_field. rewrite r_nth. destruct (nth_error h l) as [[]|]; cbn [option_map recast_cell]; [rewrite r_upd|..]; reflexivity. Qed.
Lemma r_add h v x : list_add (r h) v x = r (list_add h v x).
Proof. destruct v; try reflexivity. unfold list_add. rewrite r_nth. destruct (nth_error h l) as [[]|]; cbn [option_map recast_cell]; [|rewrite r_upd|]; reflexivity. Qed.
Lemma r_alloc h k : alloc_cell (r h) (recast_cell S k) = let '(h1, x) := alloc_cell h k in (r h1, x).
Proof. unfold alloc_cell, recast. rewrite map_app, map_length. reflexivity. Qed.

(* ---- encode ---- *)
Section Enc.
  Variable enc enc' : heap -> hval -> bytebuf -> option exn * heap * bytebuf.
  Hypothesis SIM : forall h v b, enc' (r h) v b = R3 (enc h v b).
  Variable sums : string -> option (list Z -> Z).
  Lemma sim_elem x h v b : henc_elem enc' x (r h) v b = R3 (henc_elem enc x h v b).
  Proof.
    destruct x; cbn [henc_elem]; try apply SIM.
    - destruct v; try reflexivity. destruct (write_int o n z b). reflexivity.
    - destruct v; try reflexivity. destruct (write_int o n bits b). reflexivity.
    - destruct (hstring_of v); try reflexivity. destruct (write_fixed j len pad left b). reflexivity.
    - destruct (hstring_of v); try reflexivity. destruct (write_dyn j zn zo n o b). reflexivity.
  Qed.
  Lemma sim_elems x : forall l h b, henc_elems enc' x (r h) l b = R3 (henc_elems enc x h l b).
  Proof. induction l as [|v l IH]; intros h b; [reflexivity|]. cbn [henc_elems]. rewrite sim_elem. destruct (henc_elem enc x h v b) as [[[e|] h1] b1]; cbn [R3]; [reflexivity|apply IH]. Qed.
  Definition Rest (x : option exn * hest) : option exn * hest := let '(e, (h, loc, b)) := x in (e, (r h, loc, b)).
  Lemma sim_estmt this s h loc b : hexec_estmt enc' sums this s (r h, loc, b) = Rest (hexec_estmt enc sums this s (h, loc, b)).
  Proof.
    destruct s; cbn [hexec_estmt]; rewrite ?r_field.
    - destruct (field h this f); try reflexivity. destruct (write_int o n z b). reflexivity.
    - destruct (field h this f); try reflexivity. destruct (write_int o n bits b). reflexivity.
    - destruct (hstring_of (field h this f)); try reflexivity. destruct (write_fixed j len pad left b). reflexivity.
    - destruct (hstring_of (field h this f)); try reflexivity. destruct (write_dyn j zn zo n o b). reflexivity.
    - destruct (field h this f) as [| | | |l]; try (destruct (write_int zo zn 0 b); reflexivity); try reflexivity. rewrite r_elements.
      destruct (elements h (HRef l)) as [[|v vs]|]; try reflexivity; [destruct (write_int zo zn 0 b); reflexivity|].
      destruct (write_int o n (wrap cast (Z.of_nat (List.length (v :: vs)))) b) as [[e|] b1]; [reflexivity|]. rewrite sim_elems. destruct (henc_elems enc x h (v :: vs) b1) as [[e h1] b2]. reflexivity.
    - rewrite SIM. destruct (enc h (field h this f) b) as [[e h1] b1]. reflexivity.
    - destruct (field h this f) as [| | | |l]; try reflexivity; rewrite SIM; destruct (enc h _ b) as [[e h1] b1]; reflexivity.
    - reflexivity.
    - destruct (write_int o n 0 b). reflexivity.
    - destruct (assoc x loc), (assoc y loc); try reflexivity. rewrite r_put. reflexivity.
    - destruct (assoc x loc), (field h this f); try reflexivity. destruct (set_int o n n0 z b). reflexivity.
    - destruct (sums alg); try reflexivity. rewrite r_put. reflexivity.
  Qed.
  Lemma sim_enc this : forall ss h loc b, hexec_enc enc' sums this ss (r h, loc, b) = Rest (hexec_enc enc sums this ss (h, loc, b)).
  Proof. induction ss as [|s ss IH]; intros h loc b; [reflexivity|]. cbn [hexec_enc]. rewrite sim_estmt. destruct (hexec_estmt enc sums this s (h, loc, b)) as [[e|] [[h1 loc1] b1]]; cbn [Rest]; [reflexivity|apply IH]. Qed.
End Enc.

(* ---- decode ---- *)
Section Dec.
  Variable dec dec' : heap -> hval -> bytebuf -> option exn * heap * bytebuf.
  Hypothesis SIM : forall h v b, dec' (r h) v b = R3 (dec h v b).
  Variable new new' : heap -> string -> heap * hval.
  Hypothesis NEW : forall h c, new' (r h) (base S c) = let '(h1, x) := new h c in (r h1, x).
  Variable create create' : key -> option string.
  Hypothesis CREATE : forall k, create' k = option_map (base S) (create k).
  Definition Rd (x : option exn * hdst) : option exn * hdst := let '(e, (h, b)) := x in (e, (r h, b)).
  Lemma sim_delem this f y h b : (forall c, y = YObj c -> base S c = c) ->
    hdec_elem dec' new' this f y (r h, b) = Rd (hdec_elem dec new this f y (h, b)).
  Proof.
    intros L. destruct y; cbn [hdec_elem]; rewrite ?r_field.
    - destruct (read_bytes n b) as [[e|bs] b1]; rewrite ?r_add; reflexivity.
    - destruct (read_bytes n b) as [[e|bs] b1]; rewrite ?r_add; reflexivity.
    - destruct (read_fixed len pad left b) as [[e|bs] b1]; rewrite ?r_add; reflexivity.
    - destruct (read_bytes n b) as [[e|bs] b1]; [reflexivity|]. destruct (get_int o bs >? 0); [|reflexivity]. destruct (read_chars (get_int o bs) b1) as [[e|cs] b2]; rewrite ?r_add; reflexivity.
    - pose proof (NEW h c) as N. rewrite (L c eq_refl) in N. rewrite N. destruct (new h c) as [h1 x]. rewrite SIM. destruct (dec h1 x b) as [[[e|] h2] b1]; cbn [R3]; [reflexivity|]. rewrite r_field, r_add. reflexivity.
  Qed.
  Lemma sim_iter (f g : hdst -> option exn * hdst) : (forall h b, g (r h, b) = Rd (f (h, b))) -> forall n h b, iter n g (r h, b) = Rd (iter n f (h, b)).
  Proof. intros FG. induction n as [|n IH]; intros h b; [reflexivity|]. cbn [iter]. rewrite FG. destruct (f (h, b)) as [[e|] [h1 b1]]; cbn [Rd]; [reflexivity|apply IH]. Qed.
  Lemma sim_dstmt this s h b : (forall c, In c (literals s) -> base S c = c) ->
    hexec_dstmt dec' new' create' this s (r h, b) = Rd (hexec_dstmt dec new create this s (h, b)).
  Proof.
    intros L. destruct s; cbn [hexec_dstmt]; rewrite ?r_field.
    - destruct (read_bytes n b) as [[e|bs] b1]; rewrite ?r_put; reflexivity.
    - destruct (read_bytes n b) as [[e|bs] b1]; rewrite ?r_put; reflexivity.
    - destruct (read_fixed len pad left b) as [[e|bs] b1]; rewrite ?r_put; reflexivity.
    - destruct (read_bytes n b) as [[e|bs] b1]; [reflexivity|]. destruct (get_int o bs >? 0); [|reflexivity]. destruct (read_chars (get_int o bs) b1) as [[e|cs] b2]; rewrite ?r_put; reflexivity.
    - destruct (read_bytes n b) as [[e|bs] b1]; [reflexivity|]. destruct (get_int o bs >? 0); [|reflexivity].
      change (CList []) with (recast_cell S (CList [])) at 1. rewrite r_alloc. destruct (alloc_cell h (CList [])) as [h1 x] eqn:A. cbn [recast_cell] in *. rewrite r_put, !repeat_z_iter. apply sim_iter.
      intros h2 b2. apply sim_delem. intros c ->. apply L. left. reflexivity.
    - destruct (field h this f); try reflexivity. pose proof (NEW h c) as N. rewrite (L c) in N by (left; reflexivity). rewrite N. destruct (new h c) as [h1 x]. rewrite r_put. reflexivity.
    - rewrite SIM. destruct (dec h (field h this f) b) as [[e h1] b1]. reflexivity.
    - destruct (hkey_of (field h this key)) as [kk|]; [|reflexivity]. rewrite CREATE. destruct (create kk) as [c|]; cbn [option_map]; [|reflexivity]. rewrite NEW. destruct (new h c) as [h1 x]. rewrite r_put. reflexivity.
  Qed.
  Lemma sim_dec this : forall ss h b, (forall s c, In s ss -> In c (literals s) -> base S c = c) ->
    hexec_dec dec' new' create' this ss (r h, b) = Rd (hexec_dec dec new create this ss (h, b)).
  Proof.
    induction ss as [|s ss IH]; intros h b L; [reflexivity|]. cbn [hexec_dec]. rewrite sim_dstmt by (intros c; apply L; left; reflexivity). destruct (hexec_dstmt dec new create this s (h, b)) as [[e|] [h1 b1]]; cbn [Rd]; [reflexivity|].
    apply IH. intros s' c I. apply L. right. exact I.
  Qed.
End Dec.

(* ---- equals ---- *)
Section Eq.
  Variable eqo eqo' : hval -> hval -> option bool.
  Variable h : heap.
  Section Exact.
    Variable A B : hval -> Prop.
    Hypothesis SIM : forall a b, A a -> B b -> eqo' a b = eqo a b.
    Hypothesis Ae : forall v vs x, A v -> elements h v = Some vs -> In x vs -> A x.
    Hypothesis Be : forall v vs x, B v -> elements h v = Some vs -> In x vs -> B x.
    Lemma sim_eq_item t a b : A a -> B b -> heq_item eqo' (r h) t a b = heq_item eqo h t a b.
    Proof. intros HA HB. destruct a, b; try reflexivity. cbn [heq_item]. rewrite !r_nth. destruct (Nat.eqb l l0); [reflexivity|]. destruct (nth_error h l) as [[]|], (nth_error h l0) as [[]|]; cbn; auto. Qed.
    Lemma sim_eq_items t : forall x y, (forall u, In u x -> A u) -> (forall u, In u y -> B u) -> heq_items eqo' (r h) t x y = heq_items eqo h t x y.
    Proof.
      induction x as [|u x IH]; destruct y as [|w y]; intros HA HB; try reflexivity. cbn [heq_items]. rewrite sim_eq_item by (try apply HA; try apply HB; left; reflexivity). rewrite IH; [reflexivity| |]; intros v I; [apply HA|apply HB]; right; exact I.
    Qed.
    Lemma sim_eq_val t a b : A a -> B b -> heq_val eqo' (r h) t a b = heq_val eqo h t a b.
    Proof.
      intros HA HB. unfold heq_val. rewrite !r_elements. destruct (elements h a) as [x|] eqn:EA, (elements h b) as [y|] eqn:EB; try (apply sim_eq_item; assumption). destruct a, b; try reflexivity. destruct (Nat.eqb l l0); [reflexivity|].
      apply sim_eq_items; intros u I; [apply (Ae _ _ u HA EA I)|apply (Be _ _ u HB EB I)].
    Qed.
    Lemma sim_eq_fields ts : forall ns fs gs, (forall f, A (hget f fs)) -> (forall f, B (hget f gs)) -> heq_fields eqo' (r h) ts ns fs gs = heq_fields eqo h ts ns fs gs.
    Proof. induction ns as [|f ns IH]; intros fs gs HA HB; [reflexivity|]. cbn [heq_fields]. rewrite sim_eq_val by auto. rewrite IH by auto. reflexivity. Qed.
  End Exact.
  Section Weak.
    Hypothesis SIM : forall a b, eqo a b = Some true -> eqo' a b = Some true.
    Lemma weak_eq_item t a b : heq_item eqo h t a b = Some true -> heq_item eqo' (r h) t a b = Some true.
    Proof. destruct a, b; cbn [heq_item]; auto. rewrite !r_nth. destruct (Nat.eqb l l0); [auto|]. destruct (nth_error h l) as [[]|], (nth_error h l0) as [[]|]; cbn; auto. Qed.
    Lemma weak_eq_items t : forall x y, heq_items eqo h t x y = Some true -> heq_items eqo' (r h) t x y = Some true.
    Proof. induction x as [|u x IH]; destruct y as [|w y]; cbn [heq_items]; auto. destruct (heq_item eqo h t u w) as [[]|] eqn:Q; try discriminate. rewrite (weak_eq_item t u w Q). auto. Qed.
    Lemma weak_eq_val t a b : heq_val eqo h t a b = Some true -> heq_val eqo' (r h) t a b = Some true.
    Proof. unfold heq_val. rewrite !r_elements. destruct (elements h a), (elements h b); try apply weak_eq_item. destruct a, b; auto. destruct (Nat.eqb l1 l2); [auto|]. apply weak_eq_items. Qed.
    Lemma weak_eq_fields ts : forall ns fs gs, heq_fields eqo h ts ns fs gs = Some true -> heq_fields eqo' (r h) ts ns fs gs = Some true.
    Proof. induction ns as [|f ns IH]; intros fs gs; cbn [heq_fields]; auto. destruct (heq_val eqo h (type_of f ts) (hget f fs) (hget f gs)) as [[]|] eqn:Q; try discriminate. rewrite (weak_eq_val _ _ _ Q). auto. Qed.
  End Weak.
End Eq.

(* ---- hashCode, toString ---- *)
Section Hash.
  Variable ha ha' : hval -> option Z.
  Variable h : heap.
  Hypothesis SIM : forall a, ha' a = ha a.
  Lemma sim_hash_item t a : hhash_item ha' t a = hhash_item ha t a.
  Proof. destruct a; cbn; auto. Qed.
  Lemma sim_hash_items t : forall l k, hhash_items ha' t l k = hhash_items ha t l k.
  Proof. induction l as [|x l IH]; intros k; [reflexivity|]. cbn [hhash_items]. rewrite sim_hash_item. destruct (hhash_item ha t x); auto. Qed.
  Lemma sim_hash_val t a : hhash_val ha' (r h) t a = hhash_val ha h t a.
  Proof. unfold hhash_val. rewrite r_elements. destruct (elements h a); [apply sim_hash_items|apply sim_hash_item]. Qed.
  Lemma sim_hash_fields ts : forall ns fs k, hhash_fields ha' (r h) ts ns fs k = hhash_fields ha h ts ns fs k.
  Proof. induction ns as [|f ns IH]; intros fs k; [reflexivity|]. cbn [hhash_fields]. rewrite sim_hash_val. destruct (hhash_val ha h (type_of f ts) (hget f fs)); auto. Qed.
End Hash.
Section Text.
  Variable P : printers.
  Variable sh sh' : hval -> option (list Z).
  Variable h : heap.
  Hypothesis SIM : forall a, sh' a = sh a.
  Lemma sim_show_item t a : hshow_item P sh' t a = hshow_item P sh t a.
  Proof. destruct a; cbn; auto. Qed.
  Lemma sim_show_items t : forall l, hshow_items P sh' t l = hshow_items P sh t l.
  Proof. induction l as [|x l IH]; [reflexivity|]. cbn [hshow_items]. rewrite sim_show_item, IH. reflexivity. Qed.
  Lemma sim_show_val t a : hshow_val P sh' (r h) t a = hshow_val P sh h t a.
  Proof. unfold hshow_val. rewrite r_elements. destruct (elements h a); [rewrite sim_show_items; reflexivity|apply sim_show_item]. Qed.
  Lemma sim_show_fields ts : forall ls first fs, hshow_fields P sh' (r h) ts first ls fs = hshow_fields P sh h ts first ls fs.
  Proof. induction ls as [|[l f] ls IH]; intros first fs; [reflexivity|]. cbn [hshow_fields]. rewrite sim_show_val, IH. reflexivity. Qed.
End Text.

(* ---- the methods ---- *)
Variable E : env.
Hypothesis DE : derived S (classes E).
Notation E1 := (with_subclasses S E).
Notation E0 := (plain S E).

Lemma base_own c cd : assoc c (classes E) = Some cd -> base S c = c.
Proof. intros A. unfold base. destruct (assoc c S) as [b|] eqn:B; [|reflexivity]. apply assoc_in in B. destruct (DE c b B) as [N _]. congruence. Qed.
Lemma assoc_app {A} (k : string) (l l' : list (string * A)) : assoc k (l ++ l') = match assoc k l with Some a => Some a | None => assoc k l' end.
Proof. induction l as [|[k' a] l IH]; [reflexivity|]. cbn [app assoc]. destruct (String.eqb k k'); auto. Qed.
Lemma find_base c : find_class E1 c = find_class E0 (base S c).
Proof.
  unfold find_class. cbn [classes with_subclasses plain]. rewrite assoc_app. destruct (assoc c (classes E)) as [cd|] eqn:A; [rewrite (base_own c cd A); auto|].
  unfold base. assert (X : forall T : subclasses, (forall d b, In (d, b) T -> exists cd, assoc b (classes E) = Some cd) ->
    assoc c (inherited (classes E) T) = match assoc c T with Some b => assoc b (classes E) | None => None end).
  { induction T as [|[d b] T IH]; intros K; [reflexivity|]. unfold inherited in *. cbn [flat_map assoc fst snd]. destruct (K d b (or_introl eq_refl)) as (cd & B). rewrite B. cbn [app assoc]. destruct (String.eqb c d); [symmetry; exact B|]. apply IH. intros d' b' I. apply (K d' b'). right. exact I. }
  rewrite X by (intros d b I; exact (proj2 (DE d b I))). destruct (assoc c S); [reflexivity|symmetry; exact A].
Qed.
Lemma new_base h c : hnew E0 (r h) (base S c) = let '(h1, x) := hnew E1 h c in (r h1, x).
Proof. unfold hnew. rewrite find_base. destruct (find_class E0 (base S c)) as [cd|]; [|reflexivity]. rewrite <- r_alloc. reflexivity. Qed.

Lemma encode_base : forall d h v b, hencode E0 d (r h) v b = R3 (hencode E1 d h v b).
Proof.
  induction d as [|d IH]; intros h v b; destruct v as [| | | |l]; try reflexivity. cbn [hencode]. rewrite r_nth. destruct (nth_error h l) as [[c fs|vs]|]; cbn [option_map recast_cell]; try reflexivity.
  rewrite find_base. destruct (find_class E0 (base S c)) as [cd|]; [|reflexivity]. cbn [checksum with_subclasses plain]. rewrite (sim_enc (hencode E1 d) (hencode E0 d) IH).
  destruct (hexec_enc (hencode E1 d) (checksum E) l (c_enc cd) (h, [], b)) as [e [[h1 loc] b1]]. reflexivity.
Qed.
Definition literals_known : Prop := forall c cd s k, assoc c (classes E) = Some cd -> In s (c_dec cd) -> In k (literals s) -> exists kd, assoc k (classes E) = Some kd.
Hypothesis LK : literals_known.
Lemma base_idem c : base S (base S c) = base S c.
Proof. unfold base at 2 3. destruct (assoc c S) as [b|] eqn:B; [|unfold base; rewrite B; reflexivity]. apply assoc_in in B. destruct (DE c b B) as [_ (cd & K)]. apply (base_own b cd K). Qed.
Lemma decode_base : forall d h v b, hdecode E0 d (r h) v b = R3 (hdecode E1 d h v b).
Proof.
  induction d as [|d IH]; intros h v b; destruct v as [| | | |l]; try reflexivity. cbn [hdecode]. rewrite r_nth. destruct (nth_error h l) as [[c fs|vs]|]; cbn [option_map recast_cell]; try reflexivity.
  rewrite find_base. destruct (find_class E0 (base S c)) as [cd|] eqn:F; [|reflexivity]. rewrite (sim_dec (hdecode E1 d) (hdecode E0 d) IH (hnew E1) (hnew E0) new_base (factory E1 c) (factory E0 (base S c))).
  - destruct (hexec_dec (hdecode E1 d) (hnew E1) (factory E1 c) l (c_dec cd) (h, b)) as [e [h1 b1]]. reflexivity.
  - intros k. reflexivity.
  - intros s k I J. destruct (LK (base S c) cd s k F I J) as (kd & K). exact (base_own k kd K).
Qed.
Lemma hash_base : forall d h v, hhash E0 d (r h) v = hhash E1 d h v.
Proof.
  induction d as [|d IH]; intros h v; [reflexivity|]. cbn [hhash]. destruct v as [| | | |l]; try reflexivity. rewrite r_nth. destruct (nth_error h l) as [[c fs|vs]|]; cbn [option_map recast_cell]; try reflexivity.
  rewrite find_base. destruct (find_class E0 (base S c)) as [cd|]; [|reflexivity]. destruct (c_hash cd); [apply IH|]. apply sim_hash_fields. intros a. apply IH.
Qed.
Lemma string_base P : forall d h v, hstring E0 P d (r h) v = hstring E1 P d h v.
Proof.
  induction d as [|d IH]; intros h v; [reflexivity|]. cbn [hstring]. destruct v as [| | | |l]; try reflexivity. rewrite r_nth. destruct (nth_error h l) as [[c fs|vs]|]; cbn [option_map recast_cell]; try reflexivity.
  rewrite find_base. destruct (find_class E0 (base S c)) as [cd|]; [|reflexivity]. rewrite (sim_show_fields P (hstring E1 P d h) (hstring E0 P d (r h)) h); [reflexivity|]. intros a. apply IH.
Qed.
Lemma equals_weak : forall d h a b, hequals E1 d h a b = Some true -> hequals E0 d (r h) a b = Some true.
Proof.
  induction d as [|d IH]; intros h a b; [discriminate|]. cbn [hequals]. destruct a as [| | | |l]; try discriminate. destruct b as [| | | |m]; rewrite ?r_nth; try (destruct (nth_error h l) as [[]|]; discriminate).
  destruct (nth_error h l) as [[c fs|vs]|]; cbn [option_map recast_cell]; try discriminate. destruct (Nat.eqb l m); [auto|]. destruct (nth_error h m) as [[c' gs|vs]|]; cbn [option_map recast_cell]; try discriminate.
  destruct (String.eqb_spec c c') as [<-|]; [|discriminate]. rewrite String.eqb_refl, find_base. destruct (find_class E0 (base S c)) as [cd|]; [|discriminate]. apply weak_eq_fields. intros a b. apply IH.
Qed.
Lemma reach_get h l c fs f m : nth_error h l = Some (CObj c fs) -> reach h (hget f fs) m -> reach h (HRef l) m.
Proof.
  intros N H. assert (X : hget f fs = HNull \/ In (f, hget f fs) fs).
  { clear N H. induction fs as [|[g v] fs IH]; [left; reflexivity|]. cbn. destruct (String.eqb_spec f g) as [->|]; [right; left; reflexivity|]. destruct IH as [IH|IH]; auto. }
  destruct X as [X|X]; [rewrite X in H; inversion H|]. exact (reach_field h l c fs f (hget f fs) m N X H).
Qed.
Lemma equals_exact : forall d h a b, told_apart S h a b -> hequals E0 d (r h) a b = hequals E1 d h a b.
Proof.
  induction d as [|d IH]; intros h a b T; [reflexivity|]. cbn [hequals]. destruct a as [| | | |l]; try reflexivity. destruct b as [| | | |m]; rewrite ?r_nth; try (destruct (nth_error h l) as [[]|]; reflexivity).
  destruct (nth_error h l) as [[c fs|vs]|] eqn:Nl; cbn [option_map recast_cell]; try reflexivity. destruct (Nat.eqb l m); [auto|]. destruct (nth_error h m) as [[c' gs|vs]|] eqn:Nm; cbn [option_map recast_cell]; try reflexivity.
  destruct (String.eqb_spec (base S c) (base S c')) as [Q|Q].
  - rewrite (T l m c fs c' gs (reach_here h l) (reach_here h m) Nl Nm Q). rewrite String.eqb_refl, find_base. destruct (find_class E0 (base S c')) as [cd|] eqn:F; rewrite <- ?Q in *; rewrite ?F; [|reflexivity].
    apply (sim_eq_fields _ _ h (fun v => forall k, reach h v k -> reach h (HRef l) k) (fun v => forall k, reach h v k -> reach h (HRef m) k)).
    + intros a b HA HB. apply IH. intros l1 m1 c1 fs1 c2 gs1 R1 R2. apply T; auto.
    + intros v vs x HA EL I k R. apply HA. destruct v as [| | | |j]; try discriminate. cbn in EL. destruct (nth_error h j) as [[|ws]|] eqn:Nj; try discriminate. injection EL as ->. exact (reach_elem h j vs x k Nj I R).
    + intros v vs x HA EL I k R. apply HA. destruct v as [| | | |j]; try discriminate. cbn in EL. destruct (nth_error h j) as [[|ws]|] eqn:Nj; try discriminate. injection EL as ->. exact (reach_elem h j vs x k Nj I R).
    + intros f k R. exact (reach_get h l c fs f k Nl R).
    + intros f k R. exact (reach_get h m c' gs f k Nm R).
  - destruct (String.eqb_spec c c') as [->|]; [congruence|reflexivity].
Qed.
End Recast.
