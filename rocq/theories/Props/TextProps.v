(* C54: toString.  C55: getters and setters. *)
From Coq Require Import ZArith List Bool String Lia.
From Verif.Model Require Import JavaPrim ByteBuf Utf8 Ast Interp Library Show.
From Verif.Spec Require Import Bytes Buffers Wire Reading Layouts Equality Text Plain Access.
From Verif.Proofs Require Import ValInd BufFacts Conform TableFacts DecodeFacts Messages EqualFacts Decimals TextFacts PlainFacts.
From Verif.Props Require Import Samples MessageProps EqualProps.
Import ListNotations.
Open Scope Z_scope.

Lemma pairs_dec : forall a b : list (string * string), {a = b} + {a <> b}.
Proof. apply list_eq_dec. intros [x y] [x' y']. destruct (string_dec x x'), (string_dec y y'); [left|right|right|right]; congruence. Defined.
Lemma all_classes_ok (p : class_def -> bool) : forallb (fun ccd => p (snd ccd)) lib_classes = true -> forall c cd, assoc c lib_classes = Some cd -> p cd = true.
Proof.
  generalize lib_classes. induction l as [|[k a] l IH]; cbn [assoc forallb snd]; intros A c cd H; [discriminate|]. apply andb_true_iff in A as [A1 A2].
  destruct (String.eqb c k); [injection H as <-; exact A1|eauto].
Qed.
Lemma library_texts : forall c cd, assoc c lib_classes = Some cd -> text_ok cd.
Proof.
  intros c cd H. pose (p cd := String.eqb (c_tag cd) (simple_name (c_name cd)) && if pairs_dec (c_str cd) (map (fun ft => (fst ft, fst ft)) (c_fields cd)) then true else false).
  assert (A : p cd = true) by (eapply (all_classes_ok p); [vm_compute; reflexivity|exact H]).
  unfold p in A. apply andb_true_iff in A as [A1 A2]. split; [apply String.eqb_eq; exact A1|]. destruct (pairs_dec _ _); [assumption|discriminate].
Qed.

(* ---- C54 ---- *)
(* toString returns unless the stack is too small, and gives the class name and every field by name and value, in order *)
Theorem C54_to_string : forall E P d c v, classes E = lib_classes -> object_of E c v = true ->
  jstring_of E P d v = if Nat.leb (nesting v) d then Some (text Y (show_float P) (show_double P) v (WObj c)) else None.
Proof.
  intros E P d c v HE Hv. destruct (shape_codec E c v HE Hv) as (fs & L & -> & Tv & _).
  exact (show_all lib_classes Y library_conforms E HE library_texts P d c fs (WObj c) Tv).
Qed.
Lemma show_nesting E P d c v t : classes E = lib_classes -> object_of E c v = true -> jstring_of E P d v = Some t ->
  (nesting v <= d)%nat /\ t = text Y (show_float P) (show_double P) v (WObj c).
Proof. intros HE Hv H. rewrite (C54_to_string E P d c v HE Hv) in H. destruct (Nat.leb_spec (nesting v) d); [|discriminate]. injection H as <-. auto. Qed.
(* equal objects have equal texts *)
Theorem C54_equal_same_text : forall E P d c c' a b, classes E = lib_classes -> object_of E c a = true -> object_of E c' b = true -> (nesting a <= d)%nat ->
  (forall z, nan_float z = true -> show_float P z = show_float P 2143289344) ->
  (forall z, nan_double z = true -> show_double P z = show_double P 9221120237041090560) ->
  jequals E d a b = Some true -> jstring_of E P d a = jstring_of E P d b.
Proof.
  intros E P d c c' a b HE Ha Hb Hn HF HD H. destruct (C40_equals_iff E d c c' a b HE Ha Hb Hn) as (r & Hr & Q). rewrite H in Hr. injection Hr as <-.
  destruct Q as [Q _]. specialize (Q eq_refl).
  rewrite (C54_to_string E P d c a HE Ha), (C54_to_string E P d c' b HE Hb).
  rewrite <- (one_nan_nesting Y a (WObj c)), <- (one_nan_nesting Y b (WObj c')), <- (text_one_nan Y P HF HD a (WObj c)), <- (text_one_nan Y P HF HD b (WObj c')), Q.
  destruct (shape_codec E c' b HE Hb) as (gs & L & -> & _). destruct (one_nan_obj Y c' gs (WObj c')) as (x & ->). reflexivity.
Qed.
(* objects with equal texts are equal, as long as their strings have no comma, no bracket and are not "null", and their objects come from one protocol *)
Definition protocols : list string := ["sample"; "risk"; "sse"; "szse"; "bjse"]%string.
Definition of_protocol (m c : string) : bool := existsb (String.eqb c) (map fst Y) && String.prefix (m ++ ".") c.
Definition names_distinct (ns : list string) : bool :=
  forallb (fun c => forallb (fun c' => implb (String.eqb (snd c) (snd c')) (String.eqb (fst c) (fst c'))) (map (fun c => (c, simple_name c)) ns)) (map (fun c => (c, simple_name c)) ns).
Lemma of_protocol_in m c : of_protocol m c = true -> In c (filter (String.prefix (m ++ ".")) (map fst Y)).
Proof.
  unfold of_protocol. intros H. apply andb_true_iff in H as [H1 H2]. apply existsb_exists in H1 as (x & Hx & Q). apply String.eqb_eq in Q. subst x. apply filter_In. auto.
Qed.
Lemma names_distinct_eq ns c c' : names_distinct ns = true -> In c ns -> In c' ns -> simple_name c = simple_name c' -> c = c'.
Proof.
  unfold names_distinct. intros H Hc Hc' E. rewrite forallb_forall in H. specialize (H (c, simple_name c) (in_map (fun c => (c, simple_name c)) ns c Hc)).
  rewrite forallb_forall in H. specialize (H (c', simple_name c') (in_map (fun c => (c, simple_name c)) ns c' Hc')). cbn [fst snd] in H. rewrite E, String.eqb_refl in H.
  cbn [implb] in H. apply String.eqb_eq. exact H.
Qed.
Lemma protocol_names m c c' : In m protocols -> of_protocol m c = true -> of_protocol m c' = true -> simple_name c = simple_name c' -> c = c'.
Proof.
  intros Hm Hc Hc'. apply of_protocol_in in Hc, Hc'.
  assert (A : forallb (fun m => names_distinct (filter (String.prefix (m ++ ".")) (map fst Y))) protocols = true) by (vm_compute; reflexivity).
  rewrite forallb_forall in A. specialize (A m Hm). cbn beta in A. eapply names_distinct_eq; eauto.
Qed.
Lemma protocol_unmarked m c : of_protocol m c = true -> unmarked (letters (simple_name c)).
Proof.
  intros Hc. apply of_protocol_in, filter_In in Hc as [Hc _].
  assert (A : forallb (fun c => negb (existsb mark (letters (simple_name c)))) (map fst Y) = true) by (vm_compute; reflexivity).
  rewrite forallb_forall in A. specialize (A c Hc). cbn beta in A. unfold unmarked. apply negb_true_iff. exact A.
Qed.
Theorem C54_text_tells : forall E P d m c c' a b t, classes E = lib_classes -> object_of E c a = true -> object_of E c' b = true -> In m protocols ->
  faithful P -> plain (of_protocol m) false a = true -> plain (of_protocol m) false b = true ->
  jstring_of E P d a = Some t -> jstring_of E P d b = Some t -> jequals E d a b = Some true.
Proof.
  intros E P d m c c' a b t HE Ha Hb Hm HP Pa Pb Sa Sb.
  destruct (show_nesting E P d c a t HE Ha Sa) as [Hn E1]. destruct (show_nesting E P d c' b t HE Hb Sb) as [_ E2].
  destruct (C40_equals_iff E d c c' a b HE Ha Hb Hn) as (r & Hr & _ & Q). rewrite Hr. f_equal. apply Q.
  destruct (shape_codec E c a HE Ha) as (fs & L & -> & Ta & HL & _). destruct (shape_codec E c' b HE Hb) as (gs & L' & -> & Tb & HL' & _).
  assert (K : text Y (show_float P) (show_double P) (VObj c fs) (WBody "") ++ [] = text Y (show_float P) (show_double P) (VObj c' gs) (WBody "") ++ []).
  { rewrite !app_nil_r. rewrite (text_obj_eq Y P c fs _ L HL), (text_obj_eq Y P c' gs _ L' HL'), <- (text_obj_eq Y P c fs (WObj c) L HL), <- (text_obj_eq Y P c' gs (WObj c') L' HL'). congruence. }
  destruct (reads_all lib_classes Y library_conforms P HP (of_protocol m) (protocol_unmarked m) (fun c c' => protocol_names m c c' Hm) (VObj c fs) (WBody "") (VObj c' gs) false [] []
              eq_refl ltac:(discriminate) (or_intror Ta) (or_intror Tb) Pa Pb I I K) as [R _].
  rewrite !(one_obj_eq Y _ _ _ L HL), !(one_obj_eq Y _ _ _ L' HL') in *. exact R.
Qed.
(* without that: the null string and "null" read the same, and a comma can make one field look like two *)
Theorem C54_ambiguous_refuted : exists a b x y, object_of lib_env "sse.Logon" a = true /\ object_of lib_env "sse.Logon" b = true
  /\ object_of lib_env "sse.Logon" x = true /\ object_of lib_env "sse.Logon" y = true
  /\ (forall P, jstring_of lib_env P 3 a = jstring_of lib_env P 3 b /\ jstring_of lib_env P 3 x = jstring_of lib_env P 3 y)
  /\ jequals lib_env 3 a b = Some false /\ jequals lib_env 3 x y = Some false.
Proof.
  exists (build "sse.Logon" []), (build "sse.Logon" [("senderCompId", str "null")]%string),
    (build "sse.Logon" [("senderCompId", str "A, targetCompId=B"); ("targetCompId", str "C")]%string), (build "sse.Logon" [("senderCompId", str "A"); ("targetCompId", str "B, targetCompId=C")]%string).
  vm_compute. repeat split.
Qed.
Definition print_bits (z : Z) : list Z := 46 :: show_digits 64 (z mod 2 ^ 64) [].
Definition some_printers : printers := {| show_float := print_bits; show_double := print_bits |}.
Lemma some_faithful : faithful some_printers.
Proof.
  assert (B : 2 ^ 64 < 10 ^ Z.of_nat 64) by (vm_compute; reflexivity).
  assert (D : forall z, exists l, print_bits z = 46 :: l /\ canonical l /\ value l = z mod 2 ^ 64).
  { intros z. assert (R : 0 <= z mod 2 ^ 64 < 2 ^ 64) by (apply Z.mod_pos_bound; lia).
    destruct (show_digits_ok 64 (z mod 2 ^ 64) []) as (l & E & Hc & Hv); [lia|lia|]. exists l. unfold print_bits. rewrite E, app_nil_r. auto. }
  assert (S : forall z, unmarked (print_bits z) /\ print_bits z <> [] /\ print_bits z <> letters "null").
  { intros z. destruct (D z) as (l & -> & Hc & _). split; [|split; discriminate]. change (unmarked l). apply digits_unmarked, Hc. }
  assert (I : forall y z, 0 <= y < 2 ^ 64 -> 0 <= z < 2 ^ 64 -> print_bits y = print_bits z -> y = z).
  { intros y z Hy Hz E. destruct (D y) as (l & E1 & _ & V1), (D z) as (m & E2 & _ & V2). rewrite E1, E2 in E. injection E as ->. rewrite !Z.mod_small in * by lia. lia. }
  split; auto; intros y z Hy Hz E; left; apply I; auto; lia.
Qed.
Example C54_meets : object_of lib_env "sample.RootPacket" s_root_nested = true /\ plain (of_protocol "sample") false s_root_nested = true
  /\ nesting s_root_nested = 3%nat /\ jstring_of lib_env some_printers 2 s_root_nested = None
  /\ jstring_of lib_env some_printers 3 s_sse = Some (letters
   "SseBinary [msgType=40, msgSeqNum=7, msgBodyLen=-1, body=Logon [senderCompId=S, targetCompId=T, heartBtInt=30, prtclVersion=1.0, tradeDate=20250101, qsize=0], checksum=99]").
Proof. vm_compute. repeat split. Qed.

(* ---- C55 ---- *)
Lemma library_getters : forall c cd, assoc c lib_classes = Some cd -> c_get cd = map (fun ft => (getter (fst ft), fst ft)) (c_fields cd).
Proof.
  intros c cd H. pose (p cd := if pairs_dec (c_get cd) (map (fun ft => (getter (fst ft), fst ft)) (c_fields cd)) then true else false).
  assert (A : p cd = true) by (eapply (all_classes_ok p); [vm_compute; reflexivity|exact H]). unfold p in A. destruct (pairs_dec _ _); [assumption|discriminate].
Qed.
Lemma library_setters : forall c cd, assoc c lib_classes = Some cd -> c_set cd = map (fun ft => (setter (fst ft), fst ft)) (c_fields cd).
Proof.
  intros c cd H. pose (p cd := if pairs_dec (c_set cd) (map (fun ft => (setter (fst ft), fst ft)) (c_fields cd)) then true else false).
  assert (A : p cd = true) by (eapply (all_classes_ok p); [vm_compute; reflexivity|exact H]). unfold p in A. destruct (pairs_dec _ _); [assumption|discriminate].
Qed.
Fixpoint distinct (l : list string) : bool := match l with [] => true | x :: r => negb (existsb (String.eqb x) r) && distinct r end.
Lemma distinct_nodup l : distinct l = true -> NoDup l.
Proof.
  induction l as [|x l IH]; intros H; constructor; cbn [distinct] in H; apply andb_true_iff in H as [H1 H2]; auto.
  intros Hi. apply negb_true_iff in H1. rewrite (proj2 (existsb_exists _ _)) in H1; [discriminate|]. exists x. split; auto. apply String.eqb_refl.
Qed.
Lemma library_method_names : forall c cd, assoc c lib_classes = Some cd ->
  NoDup (map fst (c_fields cd)) /\ NoDup (map (fun ft => getter (fst ft)) (c_fields cd)) /\ NoDup (map (fun ft => setter (fst ft)) (c_fields cd)).
Proof.
  intros c cd H. pose (p cd := distinct (map fst (c_fields cd)) && distinct (map (fun ft => getter (fst ft)) (c_fields cd)) && distinct (map (fun ft => setter (fst ft)) (c_fields cd))).
  assert (A : p cd = true) by (eapply (all_classes_ok p); [vm_compute; reflexivity|exact H]). unfold p in A. apply andb_true_iff in A as [A A3]. apply andb_true_iff in A as [A1 A2].
  auto using distinct_nodup.
Qed.
Lemma assoc_method (name : string -> string) (ts : list (string * ftype)) m f : NoDup (map (fun ft => name (fst ft)) ts) ->
  (assoc m (map (fun ft => (name (fst ft), fst ft)) ts) = Some f <-> m = name f /\ In f (map fst ts)).
Proof.
  induction ts as [|[g t] ts IH]; cbn [map assoc fst In]; intros N; [split; [discriminate|tauto]|]. inversion N as [|? ? N1 N2]; subst.
  destruct (String.eqb_spec m (name g)) as [->|D].
  - split; [intros [= <-]; auto|]. intros [Q [->|Hi]]; [reflexivity|]. exfalso. apply N1. rewrite Q. rewrite <- (map_map fst name). apply in_map. exact Hi.
  - rewrite (IH N2). split; [tauto|]. intros [-> [->|Hi]]; [congruence|auto].
Qed.
Lemma get_in f x (fs : list (string * val)) : NoDup (map fst fs) -> (In f (map fst fs) /\ get f fs = x <-> In (f, x) fs).
Proof.
  induction fs as [|[g y] fs IH]; cbn [map fst In get]; intros N; [tauto|]. inversion N as [|? ? N1 N2]; subst. destruct (String.eqb_spec f g) as [->|D].
  - split; [intros [_ ->]; auto|]. intros [[= ->]|Hi]; [auto|]. exfalso. apply N1. change g with (fst (g, x)). apply in_map. exact Hi.
  - rewrite <- (IH N2). split; [intros [[->|Hi] Q]; [congruence|auto]|]. intros [[= -> ->]|[Hi Q]]; [congruence|auto].
Qed.
Lemma set_assigned f x (fs : list (string * val)) : NoDup (map fst fs) -> In f (map fst fs) -> assigned f x fs (set f x fs).
Proof.
  unfold assigned. induction fs as [|[g y] fs IH]; cbn [map fst In set]; intros N Hi; [contradiction|]. inversion N as [|? ? N1 N2]; subst.
  destruct (String.eqb_spec f g) as [->|D].
  - cbn [map fst]. split; [reflexivity|]. intros h z. cbn [In]. split.
    + intros [[= <- <-]|Hz]; [left; auto|]. right. split; [|auto]. intros ->. apply N1. change g with (fst (g, z)). apply in_map. exact Hz.
    + intros [(-> & -> & _)|(Q & [[= <- <-]|Hz])]; [auto|congruence|auto].
  - destruct Hi as [->|Hi]; [congruence|]. destruct (IH N2 Hi) as [M1 M2]. cbn [map fst]. split; [rewrite M1; reflexivity|]. intros h z. cbn [In]. rewrite M2. split.
    + intros [[= <- <-]|[(-> & -> & K)|(Q & K)]]; [right; split; [congruence|auto]|left; auto|right; auto].
    + intros [(-> & -> & K)|(Q & [[= <- <-]|Hz])]; [right; left; auto|auto|right; right; auto].
Qed.
Lemma object_class E c v : classes E = lib_classes -> object_of E c v = true -> exists fs cd, v = VObj c fs /\ find_class E c = Some cd /\ assoc c lib_classes = Some cd
  /\ map fst fs = map fst (c_fields cd) /\ NoDup (map fst fs).
Proof.
  intros HE Hv. destruct (shape_codec E c v HE Hv) as (fs & L & -> & _ & HL & Hf). pose proof (conforms_find lib_classes Y c library_conforms) as F. rewrite HL in F. destruct F as (cd & E1 & _ & E2 & _).
  exists fs, cd. unfold find_class. rewrite HE. split; [reflexivity|]. split; [exact E1|]. split; [exact E1|].
  assert (Q : map fst fs = map fst (c_fields cd)) by (rewrite (fields_ok_names _ _ _ Hf), E2; unfold types_of; rewrite map_map; reflexivity).
  split; [exact Q|]. rewrite Q. apply (library_method_names c cd E1).
Qed.

(* the getters of an object are exactly getF for its fields f, and return what the field holds *)
Theorem C55_getters : forall E c fs m x, classes E = lib_classes -> object_of E c (VObj c fs) = true ->
  (call_get E (VObj c fs) m = Some x <-> exists f, m = getter f /\ In (f, x) fs).
Proof.
  intros E c fs m x HE Hv. destruct (object_class E c _ HE Hv) as (fs' & cd & [= <-] & F & A & Nm & Nd). unfold call_get. rewrite F, (library_getters c cd A).
  destruct (library_method_names c cd A) as (_ & N & _). pose proof (fun f => assoc_method getter (c_fields cd) m f N) as K. split.
  - intros H. destruct (assoc m _) as [f|]; [|discriminate]. injection H as H. destruct (K f) as [K1 _]. destruct (K1 eq_refl) as [-> Hi]. exists f. split; [reflexivity|].
    apply get_in; auto. split; auto. rewrite Nm. exact Hi.
  - intros (f & -> & Hi). apply get_in in Hi as [Hi Q]; auto. rewrite (proj2 (K f)); [rewrite Q; reflexivity|]. split; [reflexivity|]. rewrite <- Nm. exact Hi.
Qed.
(* the setters are exactly setF; setF changes field f and nothing else *)
Theorem C55_setters : forall E c fs, classes E = lib_classes -> object_of E c (VObj c fs) = true ->
  (forall f x, In f (map fst fs) -> exists gs, call_set E (VObj c fs) (setter f) x = Some (VObj c gs) /\ assigned f x fs gs)
  /\ (forall m x, (forall f, In f (map fst fs) -> m <> setter f) -> call_set E (VObj c fs) m x = None).
Proof.
  intros E c fs HE Hv. destruct (object_class E c _ HE Hv) as (fs' & cd & [= <-] & F & A & Nm & Nd). destruct (library_method_names c cd A) as (_ & _ & N). split.
  - intros f x Hi. unfold call_set. rewrite F, (library_setters c cd A). rewrite (proj2 (assoc_method setter (c_fields cd) (setter f) f N)) by (split; [reflexivity|]; rewrite <- Nm; exact Hi).
    exists (set f x fs). split; [reflexivity|]. apply set_assigned; auto.
  - intros m x H. unfold call_set. rewrite F, (library_setters c cd A). destruct (assoc m _) as [f|] eqn:Q; [|reflexivity]. exfalso.
    apply (assoc_method setter (c_fields cd) m f N) in Q as [-> Hi]. rewrite <- Nm in Hi. exact (H f Hi eq_refl).
Qed.
(* so a value set is the value got, other fields keep theirs, and the object stays one of its class if javac accepts the argument *)
Theorem C55_set_get : forall E c fs f x v', classes E = lib_classes -> object_of E c (VObj c fs) = true -> In f (map fst fs) ->
  call_set E (VObj c fs) (setter f) x = Some v' ->
  call_get E v' (getter f) = Some x
  /\ (forall m, m <> getter f -> call_get E v' m = call_get E (VObj c fs) m)
  /\ (forall cd t, find_class E c = Some cd -> assoc f (c_fields cd) = Some t -> typed (classes E) x t = true -> object_of E c v' = true).
Proof.
  intros E c fs f x v' HE Hv Hi H. destruct (object_class E c _ HE Hv) as (fs' & cd & [= <-] & F & A & Nm & Nd). destruct (library_method_names c cd A) as (_ & Ng & N).
  unfold call_set in H. rewrite F, (library_setters c cd A), (proj2 (assoc_method setter (c_fields cd) (setter f) f N)) in H by (split; [reflexivity|]; rewrite <- Nm; exact Hi).
  injection H as <-. assert (G : forall g, get g (set f x fs) = if String.eqb g f then x else get g fs).
  { clear - Hi. intros g. induction fs as [|[h y] fs IH]; [contradiction|]. cbn [set]. destruct (String.eqb_spec f h) as [->|D].
    - cbn [get]. destruct (String.eqb_spec g h); reflexivity.
    - destruct Hi as [Q|Hi]; [cbn in Q; congruence|]. cbn [get]. destruct (String.eqb_spec g h) as [->|]; [destruct (String.eqb_spec h f); [congruence|reflexivity]|apply IH; exact Hi]. }
  unfold call_get. rewrite F, (library_getters c cd A). pose proof (fun m g => assoc_method getter (c_fields cd) m g Ng) as K. split; [|split].
  - rewrite (proj2 (K (getter f) f)) by (split; [reflexivity|]; rewrite <- Nm; exact Hi). rewrite G, String.eqb_refl. reflexivity.
  - intros m Hm. destruct (assoc m _) as [g|] eqn:Q; [|reflexivity]. apply K in Q as [-> _]. rewrite G. destruct (String.eqb_spec g f) as [->|]; [congruence|reflexivity].
  - intros cd0 t H0 Ht Hx. injection H0 as <-. destruct (shape_codec E c _ HE Hv) as (fs' & L & [= <-] & Tv & HL & Hf).
    apply object_intro with (C := lib_classes); auto. cbn [typed] in *. rewrite String.eqb_refl in *. cbn [andb] in *. rewrite A in *. rewrite HE in Hx. clear - Tv Hx Ht.
    revert Tv. revert fs. induction (c_fields cd) as [|[h u] ts IH]; intros [|[g y] fs] Tv; try discriminate; auto. cbn [forall2b fst snd assoc set] in *.
    apply andb_true_iff in Tv as [Tv Tr]. apply andb_true_iff in Tv as [T1 T2]. apply String.eqb_eq in T1. subst g. destruct (String.eqb_spec f h) as [->|D].
    + injection Ht as ->. cbn [forall2b fst snd]. rewrite String.eqb_refl, Hx, Tr. reflexivity.
    + cbn [forall2b fst snd]. rewrite String.eqb_refl, T2. cbn [andb]. apply IH; auto.
Qed.
(* a new object: numbers are zero, strings, lists and objects are null *)
Theorem C55_new_object : forall E c cd f t, classes E = lib_classes -> find_class E c = Some cd -> In (f, t) (c_fields cd) ->
  call_get E (new_obj E c) (getter f) = Some (match t with TByte | TShort | TInt | TLong => VInt 0 | TFloat | TDouble => VFlt 0 | _ => VNull end).
Proof.
  intros E c cd f t HE F Hi. unfold new_obj. rewrite F. unfold call_get. rewrite F. assert (A : assoc c lib_classes = Some cd) by (rewrite <- HE; exact F).
  destruct (library_method_names c cd A) as (Nd & Ng & _). rewrite (library_getters c cd A).
  rewrite (proj2 (assoc_method getter (c_fields cd) (getter f) f Ng)) by (split; [reflexivity|]; change f with (fst (f, t)); apply in_map; exact Hi). f_equal.
  clear - Nd Hi. induction (c_fields cd) as [|[g u] ts IH]; [contradiction|]. cbn [map get fst snd] in *. inversion Nd as [|? ? N1 N2]; subst. destruct (String.eqb_spec f g) as [->|D].
  - destruct Hi as [[= <-]|Hi]; [destruct u; reflexivity|]. exfalso. apply N1. change g with (fst (g, t)). apply in_map. exact Hi.
  - destruct Hi as [Q|Hi]; [congruence|]. apply IH; auto.
Qed.
Example C55_meets : call_get lib_env s_sse "getBody" = Some s_logon /\ call_get lib_env s_sse "getbody" = None
  /\ (match call_set lib_env s_sse "setMsgSeqNum" (VInt 8) with Some v => call_get lib_env v "getMsgSeqNum" = Some (VInt 8) /\ object_of lib_env "sse.SseBinary" v = true | None => False end).
Proof. vm_compute. repeat split. Qed.

Print Assumptions C54_to_string.
Print Assumptions C54_equal_same_text.
Print Assumptions C54_text_tells.
Print Assumptions C54_ambiguous_refuted.
Print Assumptions C55_getters.
Print Assumptions C55_setters.
Print Assumptions C55_set_get.
Print Assumptions C55_new_object.
