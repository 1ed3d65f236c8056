(* The classes of the library in the program of its files: what the theorems about encode, decode, equals, ... ask of a class. *)
From Coq Require Import ZArith List Bool String Ascii Lia.
From Verif.Model Require Import JavaPrim ByteBuf Utf8 Codec Ast Interp Show Heap Library.
From Verif.Spec Require Import Bytes Wire Sharing.
From Verif.Proofs Require Import BytesFacts HeapFacts HeapOwn HeapFrame HeapTypes HeapEncTypes HeapCycle JavaSem JavaEncode JavaDecode JavaValues.
From Verif.Java Require Import Lex Syntax Source Sources Sem CodecTrees Init Program.
Import ListNotations.
Open Scope Z_scope.
Open Scope list_scope.

(* ---------- names ---------- *)
Fixpoint no_dot (s : string) : bool := match s with EmptyString => true | String a r => negb (Ascii.eqb a ".") && no_dot r end.
Lemma str_app_assoc (a b c : string) : ((a ++ b) ++ c = a ++ (b ++ c))%string.
Proof. induction a; cbn [append]; congruence. Qed.
Lemma simple_no_dot x : no_dot x = true -> forall acc, simple_from x acc = (acc ++ x)%string.
Proof.
  induction x as [|a x IH]; intros H acc; cbn [simple_from no_dot] in *; [induction acc; cbn [append] in *; congruence|].
  apply andb_true_iff in H. destruct H as [A B]. apply negb_true_iff in A.
  assert (E : simple_from (String a x) acc = simple_from x (acc ++ String a EmptyString)).
  { cbn [simple_from]. destruct a as [[|] [|] [|] [|] [|] [|] [|] [|]]; try reflexivity; discriminate A. }
  cbn [simple_from] in E. rewrite E, IH by exact B. rewrite str_app_assoc. reflexivity.
Qed.
Lemma simple_app c x : no_dot x = true -> simple (c ++ "." ++ x) = x.
Proof.
  intros H. unfold simple. enough (G : forall acc, simple_from (c ++ "." ++ x) acc = x) by apply G. induction c as [|a c IH]; intros acc.
  - change (simple_from ("" ++ "." ++ x) acc) with (simple_from x EmptyString). now rewrite simple_no_dot.
  - assert (Q : exists acc', simple_from (String a (c ++ "." ++ x)) acc = simple_from (c ++ "." ++ x) acc').
    { change (simple_from (String a (c ++ "." ++ x)) acc) with (match a with "."%char => simple_from (c ++ "." ++ x) EmptyString | _ => simple_from (c ++ "." ++ x) (acc ++ String a EmptyString) end).
      destruct a as [[|] [|] [|] [|] [|] [|] [|] [|]]; eexists; reflexivity. }
    change ((String a c ++ "." ++ x)%string) with (String a (c ++ "." ++ x)). destruct Q as (acc' & ->). apply IH.
Qed.
Lemma str_length_app a b : String.length (a ++ b) = (String.length a + String.length b)%nat.
Proof. induction a; cbn [append String.length]; lia. Qed.
Lemma longer c x : (c ++ "." ++ x)%string <> x.
Proof. intros H. apply (f_equal String.length) in H. rewrite !str_length_app in H. cbn in H. lia. Qed.
(* no key is c.x *)
Definition unused (ks : list string) (x : string) : bool := no_dot x && forallb (fun k => negb (String.eqb (simple k) x) || String.eqb k x) ks.
Lemma unused_not_in ks x c : unused ks x = true -> ~ In (c ++ "." ++ x)%string ks.
Proof.
  unfold unused. rewrite andb_true_iff, forallb_forall. intros [N H] I. specialize (H _ I). rewrite simple_app, String.eqb_refl in H by exact N. cbn [negb orb] in H. apply String.eqb_eq in H. exact (longer _ _ H).
Qed.
Lemma assoc_not_in {A} (l : list (string * A)) x : ~ In x (map fst l) -> assoc x l = None.
Proof. induction l as [|[k a] l IH]; cbn [map fst In assoc]; intros H; [reflexivity|]. destruct (String.eqb_spec x k) as [->|D]; [tauto|]. apply IH. tauto. Qed.
Lemma assoc_of_in {A} (l : list (string * A)) x a : NoDup (map fst l) -> In (x, a) l -> assoc x l = Some a.
Proof.
  induction l as [|[k b] l IH]; cbn [map fst In assoc]; intros N H; [contradiction|]. inversion N; subst. destruct H as [H|H].
  - injection H as -> ->. now rewrite String.eqb_refl.
  - destruct (String.eqb_spec x k) as [->|D]; [|auto]. exfalso. apply H2. apply (in_map fst) in H. exact H.
Qed.
Lemma assoc_none_not_in {A} (l : list (string * A)) x : assoc x l = None -> ~ In x (map fst l).
Proof. induction l as [|[k a] l IH]; cbn [map fst In assoc]; intros H; [tauto|]. destruct (String.eqb_spec x k) as [->|D]; [discriminate|]. intros [Q|Q]; [congruence|exact (IH H Q)]. Qed.
Lemma resolve_unused P c x : unused (map fst P) x = true -> resolve P c x = x.
Proof.
  intros H. assert (N : forall c, assoc (c ++ "." ++ x)%string P = None) by (intros; apply assoc_not_in, unused_not_in, H). unfold resolve. cbn [resolve_in]. rewrite !N. reflexivity.
Qed.
(* resolve needs the names only *)
Fixpoint resolve_k (n : nat) (ks : list string) (c x : string) : string :=
  match n with O => x | S k => let q := (c ++ "." ++ x)%string in if mem q ks then q else resolve_k k ks (parent c) x end.
Lemma mem_keys {A} (l : list (string * A)) x : mem x (map fst l) = match assoc x l with Some _ => true | None => false end.
Proof. induction l as [|[k a] l IH]; cbn [map fst mem existsb assoc]; [reflexivity|]. destruct (String.eqb x k); [reflexivity|exact IH]. Qed.
Lemma resolve_keys P n : forall c x, resolve_in n P c x = resolve_k n (map fst P) c x.
Proof. induction n as [|n IH]; intros c x; cbn [resolve_in resolve_k]; [reflexivity|]. rewrite mem_keys. destruct (assoc _ P); auto. Qed.

(* ---------- classes in files ---------- *)
Lemma flatten_self q c : In (q, c) (flatten q c).
Proof. destruct c. now left. Qed.
Lemma flatten_in q c d e : In (MClass d) (members c) -> In e (flatten (q ++ "." ++ class_name d) d) -> In e (flatten q c).
Proof.
  destruct c as [mods kind name tps ss cs ms]. cbn [members flatten]. intros H He. right. induction ms as [|m ms IH]; [contradiction|]. destruct H as [->|H].
  - apply in_or_app. now left.
  - specialize (IH H). destruct m; auto. apply in_or_app. now right.
Qed.
Lemma file_classes : map sc_def (flat_map (fun s => s_main s :: s_nested s) message_files) = all_classes.
Proof. reflexivity. Qed.
Definition lib_keys : list string := map fst lib_program.
Fixpoint nodupb (l : list string) : bool := match l with [] => true | x :: r => negb (mem x r) && nodupb r end.
Lemma nodupb_ok l : nodupb l = true -> NoDup l.
Proof.
  induction l as [|x l IH]; cbn [nodupb]; intros H; constructor; apply andb_true_iff in H; destruct H as [A B]; auto. intros I. apply negb_true_iff in A. unfold mem in A.
  assert (Q : existsb (String.eqb x) l = true) by (apply existsb_exists; exists x; split; auto; apply String.eqb_refl). congruence.
Qed.
Lemma lib_keys_nodup : NoDup lib_keys.
Proof. apply nodupb_ok. vm_compute. reflexivity. Qed.
Lemma lib_assoc q c : In (q, c) lib_program -> assoc q lib_program = Some c.
Proof. apply assoc_of_in, lib_keys_nodup. Qed.
Lemma nested_names : forallb (fun s => forallb (fun n => String.eqb (c_name (sc_def n)) (key_of s ++ "." ++ simple (c_name (sc_def n))) && negb (is_own (sc_form n)) && match sc_form n with FNone => true | _ => false end) (s_nested s)) message_files = true.
Proof. vm_compute. reflexivity. Qed.
Definition in_file (c : string) (cd : class_def) (sc : source_class) (nested : list jclass) : Prop :=
  sc_def sc = cd /\ c = c_name cd /\ In (c, tree_of nested sc) lib_program /\ (forall d, In (MClass d) (members (tree_of nested sc)) -> In (c ++ "." ++ class_name d, d)%string lib_program) /\
  Forall (fun d => match d with Class _ _ _ _ _ _ _ => True end) nested.
Lemma members_flat q c d : In (MClass d) (members c) -> In (q ++ "." ++ class_name d, d)%string (flatten q c).
Proof. intros H. eapply flatten_in; [exact H|apply flatten_self]. Qed.
Lemma class_name_tree nested sc : class_name (tree_of nested sc) = simple (c_name (sc_def sc)).
Proof. unfold tree_of, j_class. destruct (create_of (sc_def sc)). reflexivity. Qed.
Lemma members_tree nested sc : members (tree_of nested sc) =
    let cd := sc_def sc in let fs := c_fields cd in let name := simple (c_name cd) in let f := fst (create_of cd) in let k := snd (create_of cd) in let kt := ftype_of fs k in let ff := sc_form sc in
    map (fun g => MField ["private"]%string (type_name (snd g)) (fst g) None) fs ++
     weave (map (j_getter fs) (c_get cd)) (map (j_setter fs) (c_set cd)) ++
     [override (T0 "void") "encode" [(T0 "ByteBuf", "byteBuf"%string)] (flat_map (j_estmt (sc_flip sc)) (c_enc cd));
      override (T0 "void") "decode" [(T0 "ByteBuf", "byteBuf"%string)] (flat_map (j_dstmt (is_own ff)) (c_dec cd))] ++
     match ff with
     | FOwn es => [new_map ["private"; "static"; "final"]%string (T0 "String") (f ++ "Map");
                   MStatic (map (fun e => put_s (f ++ "Map") (key_lit kt (fst e)) (ERef (simple (snd e)))) es);
                   j_create ["private"]%string ("create" ++ capital f) (key_type kt) (f ++ "Map") k]
     | _ => []
     end ++
     [override (T0 "int") "hashCode" [] (j_hash (c_hash cd));
      override (T0 "boolean") "equals" [(T0 "Object", "obj"%string)] (j_eq name (c_eq cd));
      override (T0 "String") "toString" [] (j_show (c_tag cd) (c_str cd))] ++
     map MClass nested ++
     match ff with
     | FEnum es => [MClass (j_factory f kt k es)]
     | FEnumRev es vs => [MClass (j_factory_rev f k es vs)]
     | _ => []
     end.
Proof. unfold tree_of, j_class. destruct (create_of (sc_def sc)). reflexivity. Qed.
Lemma tree_class nested sc : exists mods ms, tree_of nested sc = Class mods "class" (simple (c_name (sc_def sc))) [] [T0 "BinaryCodec"] [] ms.
Proof. unfold tree_of, j_class. destruct (create_of (sc_def sc)). eauto. Qed.
Lemma assoc_in_lib c cd : assoc c lib_classes = Some cd -> In cd all_classes /\ c = c_name cd.
Proof.
  unfold lib_classes. induction all_classes as [|x l IH]; cbn [map assoc]; intros H; [discriminate|]. destruct (String.eqb_spec c (c_name x)) as [->|D].
  - injection H as <-. split; [now left|reflexivity].
  - destruct (IH H). split; [now right|assumption].
Qed.
Lemma file_tree sc : In sc (flat_map (fun s => s_main s :: s_nested s) message_files) -> exists nested, in_file (c_name (sc_def sc)) (sc_def sc) sc nested.
Proof.
  intros H. pose proof H as H0. apply in_flat_map in H. destruct H as (s & Hs & H).
  assert (MP : forall e, In e (flatten (key_of s) (f_class (tree s))) -> In e lib_program) by (intros e He; unfold lib_program, message_program; apply in_or_app; right; apply in_flat_map; eauto).
  destruct H as [<-|H].
  - exists (map (tree_of []) (s_nested s)). repeat split.
    + apply MP. change (tree_of (map (tree_of []) (s_nested s)) (s_main s)) with (f_class (tree s)). apply flatten_self.
    + intros d Hd. apply MP. apply (members_flat (key_of s) (f_class (tree s))). exact Hd.
    + apply Forall_forall. intros d _. now destruct d.
  - exists []. pose proof nested_names as NN. rewrite forallb_forall in NN. specialize (NN s Hs). rewrite forallb_forall in NN. specialize (NN sc H). rewrite !andb_true_iff, String.eqb_eq in NN. destruct NN as [[NN _] _].
    assert (M : In (MClass (tree_of [] sc)) (members (f_class (tree s)))).
    { cbn [tree f_class]. rewrite members_tree. cbv zeta. rewrite !in_app_iff. do 5 right. left. apply in_map, in_map, H. }
    assert (Q : forall e, In e (flatten (c_name (sc_def sc)) (tree_of [] sc)) -> In e lib_program).
    { intros e He. apply MP. eapply flatten_in; [exact M|]. rewrite class_name_tree, <- NN. exact He. }
    repeat split.
    + apply Q, flatten_self.
    + intros d Hd. apply Q, members_flat, Hd.
    + constructor.
Qed.
Lemma in_some_file c cd : assoc c lib_classes = Some cd -> exists sc nested, In sc (flat_map (fun s => s_main s :: s_nested s) message_files) /\ in_file c cd sc nested.
Proof.
  intros H. apply assoc_in_lib in H. destruct H as [H ->]. rewrite <- file_classes in H. apply in_map_iff in H. destruct H as (sc & <- & H). destruct (file_tree sc H) as (nested & Q). exists sc, nested. auto.
Qed.
Lemma lib_tree c cd sc nested : in_file c cd sc nested -> assoc c lib_program = Some (tree_of nested sc).
Proof. intros (_ & _ & H & _). apply lib_assoc, H. Qed.

(* ---------- methods and fields of a message class ---------- *)
Lemma find_app {A} (p : A -> bool) l m : List.find p (l ++ m) = match List.find p l with Some x => Some x | None => List.find p m end.
Proof. induction l as [|x l IH]; cbn [List.app List.find]; [reflexivity|]. destruct (p x); auto. Qed.
Lemma find_none_all {A} (p : A -> bool) l : (forall x, In x l -> p x = false) -> List.find p l = None.
Proof. induction l as [|x l IH]; intros H; cbn [List.find]; [reflexivity|]. rewrite H by now left. apply IH. intros y Hy. apply H. now right. Qed.
Lemma find_weave {A} (p : A -> bool) : forall l m, (forall y, In y m -> p y = false) -> List.find p (weave l m) = List.find p l.
Proof.
  induction l as [|x l IH]; intros [|y m] H; cbn [weave List.app List.find].
  - reflexivity.
  - rewrite (H y) by now left. apply find_none_all. intros z Hz. apply H. now right.
  - rewrite app_nil_r. reflexivity.
  - destruct (p x); [reflexivity|]. rewrite (H y) by now left. apply IH. intros z Hz. apply H. now right.
Qed.
Lemma find_weave' {A} (p : A -> bool) : forall l m, (forall y, In y l -> p y = false) -> List.find p (weave l m) = List.find p m.
Proof.
  induction l as [|x l IH]; intros [|y m] H; cbn [weave List.app List.find]; try reflexivity.
  - rewrite (H x) by now left. apply find_none_all. intros z Hz. apply in_app_or in Hz. destruct Hz as [Hz|[]]. apply H. now right.
  - rewrite (H x) by now left. destruct (p y); [reflexivity|]. apply IH. intros z Hz. apply H. now right.
Qed.
Definition meth (m : string) (n : nat) (d : member) : bool := match d with MMethod _ _ _ _ m' ps (Some _) => String.eqb m m' && Nat.eqb n (List.length ps) | _ => false end.
Definition body_of (d : option member) : option (list (ty * string) * list stmt) := match d with Some (MMethod _ _ _ _ _ ps (Some b)) => Some (ps, b) | _ => None end.
Lemma method_in_eq ms m n : method_in ms m n = body_of (List.find (meth m n) ms). Proof. reflexivity. Qed.
Definition accessors (cd : class_def) : list member := weave (map (j_getter (c_fields cd)) (c_get cd)) (map (j_setter (c_fields cd)) (c_set cd)).
Lemma find_get0 cd m : List.find (meth m 0) (accessors cd) = option_map (fun f => j_getter (c_fields cd) (m, f)) (assoc m (c_get cd)).
Proof.
  unfold accessors. rewrite find_weave by (intros y Hy; apply in_map_iff in Hy; destruct Hy as ([a f] & <- & _); cbn; apply andb_false_r).
  induction (c_get cd) as [|[a f] l IH]; cbn [map List.find assoc option_map]; [reflexivity|]. unfold meth at 1, j_getter at 1, public. cbn [fst snd List.length Nat.eqb]. rewrite andb_true_r.
  destruct (String.eqb_spec m a) as [->|D]; [reflexivity|]. exact IH.
Qed.
Lemma find_set1 cd m : List.find (meth m 1) (accessors cd) = option_map (fun f => j_setter (c_fields cd) (m, f)) (assoc m (c_set cd)).
Proof.
  unfold accessors. rewrite find_weave' by (intros y Hy; apply in_map_iff in Hy; destruct Hy as ([a f] & <- & _); cbn; apply andb_false_r).
  induction (c_set cd) as [|[a f] l IH]; cbn [map List.find assoc option_map]; [reflexivity|]. unfold meth at 1, j_setter at 1, public. cbn [fst snd List.length Nat.eqb]. rewrite andb_true_r.
  destruct (String.eqb_spec m a) as [->|D]; [reflexivity|]. exact IH.
Qed.
Lemma find_acc2 cd m n : (2 <= n)%nat -> List.find (meth m n) (accessors cd) = None.
Proof.
  intros H. unfold accessors. assert (B : forall b, b && Nat.eqb n 0 = false /\ b && Nat.eqb n 1 = false) by (intros []; destruct n as [|[|]]; try lia; auto). rewrite find_weave; [apply find_none_all|]; intros y Hy; apply in_map_iff in Hy; destruct Hy as ([a f] & <- & _); apply B.
Qed.
Lemma find_fields m n fs : List.find (meth m n) (map (fun g : string * ftype => MField ["private"]%string (type_name (snd g)) (fst g) None) fs) = None.
Proof. apply find_none_all. intros x Hx. apply in_map_iff in Hx. destruct Hx as (g & <- & _). reflexivity. Qed.
Lemma find_classes m n (l : list jclass) : List.find (meth m n) (map MClass l) = None.
Proof. apply find_none_all. intros x Hx. apply in_map_iff in Hx. destruct Hx as (g & <- & _). reflexivity. Qed.
Lemma find_tree nested sc m n : List.find (meth m n) (members (tree_of nested sc)) =
  let cd := sc_def sc in let f := fst (create_of cd) in let k := snd (create_of cd) in
  match List.find (meth m n) (accessors cd) with
  | Some x => Some x
  | None => List.find (meth m n) ([override (T0 "void") "encode" [(T0 "ByteBuf", "byteBuf"%string)] (flat_map (j_estmt (sc_flip sc)) (c_enc cd));
      override (T0 "void") "decode" [(T0 "ByteBuf", "byteBuf"%string)] (flat_map (j_dstmt (is_own (sc_form sc))) (c_dec cd))] ++
     (if is_own (sc_form sc) then [j_create ["private"]%string ("create" ++ capital f) (key_type (ftype_of (c_fields cd) k)) (f ++ "Map") k] else []) ++
     [override (T0 "int") "hashCode" [] (j_hash (c_hash cd));
      override (T0 "boolean") "equals" [(T0 "Object", "obj"%string)] (j_eq (simple (c_name cd)) (c_eq cd));
      override (T0 "String") "toString" [] (j_show (c_tag cd) (c_str cd))])
  end.
Proof.
  rewrite members_tree. cbv zeta. rewrite !find_app, find_fields. fold (accessors (sc_def sc)). destruct (List.find (meth m n) (accessors (sc_def sc))); [reflexivity|].
  destruct (List.find (meth m n) [override (T0 "void") "encode" _ _; _]); [reflexivity|]. rewrite find_classes.
  assert (T : List.find (meth m n) match sc_form sc with FEnum es => [MClass (j_factory (fst (create_of (sc_def sc))) (ftype_of (c_fields (sc_def sc)) (snd (create_of (sc_def sc)))) (snd (create_of (sc_def sc))) es)]
                              | FEnumRev es vs => [MClass (j_factory_rev (fst (create_of (sc_def sc))) (snd (create_of (sc_def sc))) es vs)] | _ => [] end = None) by (destruct (sc_form sc); reflexivity).
  rewrite T. clear T. destruct (sc_form sc); cbn [is_own]; match goal with |- context [List.find (meth m n) [override (T0 "int") ?a ?b ?c; ?d; ?e]] => destruct (List.find (meth m n) [override (T0 "int") a b c; d; e]) end; reflexivity.
Qed.
Lemma codec_class q c : In (q, c) codec_classes -> assoc q lib_program = Some c.
Proof. intros H. apply lib_assoc. unfold lib_program. apply in_or_app. now left. Qed.
Lemma inherited_codec m n : inherited lib_program [T0 "BinaryCodec"] m n = method_in (members class_BinaryCodec) m n.
Proof. cbn [inherited T0]. rewrite (codec_class "BinaryCodec" class_BinaryCodec) by (cbn; tauto). destruct (method_in (members class_BinaryCodec) m n); reflexivity. Qed.
Lemma find_lib c cd sc nested m n : in_file c cd sc nested ->
  find_method lib_program c m n = match body_of (List.find (meth m n) (members (tree_of nested sc))) with Some x => Some x | None => method_in (members class_BinaryCodec) m n end.
Proof.
  intros H. unfold find_method. rewrite (lib_tree _ _ _ _ H). rewrite method_in_eq. destruct (body_of _); [reflexivity|]. destruct (tree_class nested sc) as (mods & ms & ->). apply inherited_codec.
Qed.
(* names that are methods of their own, not accessors *)
Definition clean_names (cd : class_def) : bool :=
  forallb (fun m => negb (mem m (map fst (c_set cd)))) ["encode"; "decode"; "equals"; ("create" ++ capital (fst (create_of cd)))%string]%string && forallb (fun m => negb (mem m (map fst (c_get cd)))) ["hashCode"; "toString"]%string &&
  forallb (fun g => negb (mem (fst g) ["readFixedString"; "writeFixedString"; "padChar"; "trimByChar"]%string) && match assoc (snd g) (c_fields cd) with Some _ => true | None => false end) (c_get cd ++ c_set cd).
Definition lib_all (p : class_def -> bool) : bool := forallb p all_classes.
Lemma lib_all_ok p : lib_all p = true -> forall c cd, assoc c lib_classes = Some cd -> p cd = true.
Proof. unfold lib_all. rewrite forallb_forall. intros H c cd A. apply assoc_in_lib in A. apply H, A. Qed.
Lemma lib_clean : lib_all clean_names = true. Proof. vm_compute. reflexivity. Qed.
Lemma not_mem_assoc {A} (l : list (string * A)) x : negb (mem x (map fst l)) = true -> assoc x l = None.
Proof. rewrite negb_true_iff, mem_keys. destruct (assoc x l); [discriminate|reflexivity]. Qed.

Lemma assoc_In0 {A} x (l : list (string * A)) v : assoc x l = Some v -> In (x, v) l.
Proof. induction l as [|[k w] l IH]; cbn [assoc]; [discriminate|]. destruct (String.eqb_spec x k) as [->|]; [intros H; injection H as ->; now left|intros H; right; apply IH, H]. Qed.
Section Class.
  Variable c : string.
  Variable cd : class_def.
  Hypothesis Hc : assoc c lib_classes = Some cd.
  Variable sc : source_class.
  Variable nested : list jclass.
  Hypothesis IF : in_file c cd sc nested.
  Let clean : clean_names cd = true := lib_all_ok _ lib_clean c cd Hc.
  Lemma set_free m : In m ["encode"; "decode"; "equals"; ("create" ++ capital (fst (create_of cd)))%string]%string -> assoc m (c_set cd) = None.
  Proof. intros H. apply not_mem_assoc. pose proof clean as K. unfold clean_names in K. rewrite !andb_true_iff in K. destruct K as [[K _] _]. rewrite forallb_forall in K. exact (K _ H). Qed.
  Lemma get_free m : In m ["hashCode"; "toString"]%string -> assoc m (c_get cd) = None.
  Proof. intros H. apply not_mem_assoc. pose proof clean as K. unfold clean_names in K. rewrite !andb_true_iff in K. destruct K as [[_ K] _]. rewrite forallb_forall in K. exact (K _ H). Qed.
  Lemma Hsc : sc_def sc = cd. Proof. apply IF. Qed.
  Ltac find_it := erewrite find_lib by exact IF; rewrite find_tree; cbv zeta; rewrite Hsc;
    first [rewrite find_set1, set_free by (cbn; tauto) | rewrite find_get0, get_free by (cbn; tauto)]; cbn [option_map]; destruct (is_own (sc_form sc)); reflexivity.
  Lemma m_encode : find_method lib_program c "encode" 1 = Some ([(T0 "ByteBuf", "byteBuf"%string)], flat_map (j_estmt (sc_flip sc)) (c_enc cd)).
  Proof. find_it. Qed.
  Lemma m_decode : find_method lib_program c "decode" 1 = Some ([(T0 "ByteBuf", "byteBuf"%string)], flat_map (j_dstmt (is_own (sc_form sc))) (c_dec cd)).
  Proof. find_it. Qed.
  Lemma m_hash : find_method lib_program c "hashCode" 0 = Some ([], j_hash (c_hash cd)).
  Proof. find_it. Qed.
  Lemma m_equals : find_method lib_program c "equals" 1 = Some ([(T0 "Object", "obj"%string)], j_eq (simple c) (c_eq cd)).
  Proof. assert (SC : simple c = simple (c_name cd)) by (f_equal; apply IF). rewrite SC. find_it. Qed.
  Lemma m_string : find_method lib_program c "toString" 0 = Some ([], j_show (c_tag cd) (c_str cd)).
  Proof. find_it. Qed.
  Lemma m_create : is_own (sc_form sc) = true -> find_method lib_program c ("create" ++ capital (fst (create_of cd))) 1 =
    Some ([(key_type (ftype_of (c_fields cd) (snd (create_of cd))), snd (create_of cd))], create_body (fst (create_of cd) ++ "Map") (snd (create_of cd))).
  Proof.
    intros O. erewrite find_lib by exact IF. rewrite find_tree. cbv zeta. rewrite Hsc, O, find_set1, set_free by (cbn; tauto). cbn [option_map]. rewrite !find_app.
    assert (N : List.find (meth ("create" ++ capital (fst (create_of cd))) 1) [override (T0 "void") "encode" [(T0 "ByteBuf", "byteBuf"%string)] (flat_map (j_estmt (sc_flip sc)) (c_enc cd)); override (T0 "void") "decode" [(T0 "ByteBuf", "byteBuf"%string)] (flat_map (j_dstmt true) (c_dec cd))] = None) by reflexivity.
    rewrite N. unfold j_create. cbn [List.find meth List.length Nat.eqb]. rewrite String.eqb_refl. reflexivity.
  Qed.
  Lemma m_two m n : (2 <= n)%nat -> find_method lib_program c m n = method_in (members class_BinaryCodec) m n.
  Proof.
    intros H. erewrite find_lib by exact IF. rewrite find_tree. cbv zeta. rewrite find_acc2 by exact H. rewrite find_none_all; [reflexivity|]. intros x Hx.
    assert (B : forall b, b && Nat.eqb n 0 = false /\ b && Nat.eqb n 1 = false) by (intros []; destruct n as [|[|]]; try lia; auto). rewrite !in_app_iff in Hx. destruct (is_own (sc_form sc)); cbn [In] in Hx;
      repeat (destruct Hx as [Hx|Hx]; [try contradiction; try (subst x; apply B)|]); try contradiction; subst x; apply B.
  Qed.
  Lemma m_getters : getters lib_program c cd.
  Proof.
    intros m f A. pose proof clean as K. unfold clean_names in K. rewrite !andb_true_iff in K. destruct K as [_ K]. rewrite forallb_forall in K. specialize (K (m, f)). cbn [fst snd] in K.
    rewrite andb_true_iff in K. destruct K as [_ K]; [apply in_or_app; left; apply assoc_In0; exact A|]. destruct (assoc f (c_fields cd)) as [t|]; [|discriminate]. exists t. split; [reflexivity|].
    erewrite find_lib by exact IF. rewrite find_tree. cbv zeta. rewrite Hsc, find_get0, A. reflexivity.
  Qed.
  Lemma field_type_assoc fs f t : assoc f fs = Some t -> field_type fs f = type_name t.
  Proof. unfold field_type. induction fs as [|[g u] fs IH]; cbn [assoc List.find fst]; [discriminate|]. rewrite (String.eqb_sym g f). destruct (String.eqb f g); [intros H; injection H as ->; reflexivity|exact IH]. Qed.
  Lemma m_setters : setters lib_program c cd.
  Proof.
    intros m f A. pose proof clean as K. unfold clean_names in K. rewrite !andb_true_iff in K. destruct K as [_ K]. rewrite forallb_forall in K. specialize (K (m, f)). cbn [fst snd] in K.
    rewrite andb_true_iff in K. destruct K as [_ K]; [apply in_or_app; right; apply assoc_In0; exact A|]. destruct (assoc f (c_fields cd)) as [t|] eqn:F; [|discriminate]. exists t. split; [reflexivity|].
    erewrite find_lib by exact IF. rewrite find_tree. cbv zeta. rewrite Hsc, find_set1, A. cbn [option_map body_of]. unfold j_setter, public. cbn [fst snd]. rewrite (field_type_assoc _ _ _ F). reflexivity.
  Qed.
  (* fields *)
  Lemma fields_lib f : field_ty lib_program c f = option_map type_name (assoc f (c_fields cd)).
  Proof.
    unfold field_ty. rewrite (lib_tree _ _ _ _ IF). unfold field_in. rewrite members_tree. cbv zeta. rewrite Hsc. rewrite find_app.
    set (p := fun m : member => match m with MField mods _ y _ => String.eqb f y && negb (is_static mods) | _ => false end).
    assert (F : List.find p (map (fun g : string * ftype => MField ["private"]%string (type_name (snd g)) (fst g) None) (c_fields cd)) = option_map (fun t => MField ["private"]%string (type_name t) f None) (assoc f (c_fields cd))).
    { induction (c_fields cd) as [|[g t] l IH]; cbn [map List.find assoc option_map fst snd]; [reflexivity|]. unfold p at 1. cbn [is_static existsb String.eqb Ascii.eqb Bool.eqb orb negb]. rewrite andb_true_r. destruct (String.eqb_spec f g) as [->|D]; [reflexivity|exact IH]. }
    rewrite F. destruct (assoc f (c_fields cd)) as [t|]; [reflexivity|]. cbn [option_map].
    rewrite find_none_all; [reflexivity|]. intros x Hx. rewrite !in_app_iff in Hx. destruct Hx as [Hx|[Hx|[Hx|[Hx|[Hx|Hx]]]]].
    - assert (W : forall (l m : list member), In x (weave l m) -> In x l \/ In x m). { induction l as [|y l IH]; intros [|z m] H; cbn [weave List.app] in H; auto. - rewrite app_nil_r in H. auto. - destruct H as [H|[H|H]]; [left; now left|right; now left|]. destruct (IH m H); [left|right]; now right. }
      destruct (W _ _ Hx) as [Y|Y]; apply in_map_iff in Y; destruct Y as (g & <- & _); reflexivity.
    - destruct Hx as [<-|[<-|[]]]; reflexivity.
    - destruct (sc_form sc); try contradiction. destruct Hx as [<-|[<-|[<-|[]]]]; cbn; apply andb_false_r || reflexivity.
    - destruct Hx as [<-|[<-|[<-|[]]]]; reflexivity.
    - apply in_map_iff in Hx. destruct Hx as (g & <- & _). reflexivity.
    - destruct (sc_form sc); try contradiction; destruct Hx as [<-|[]]; reflexivity.
  Qed.
  Lemma no_instance (l : list member) : (forall x, In x l -> match x with MField mods _ _ _ => is_static mods = true | _ => True end) -> instance_fields l = [].
  Proof.
    unfold instance_fields. induction l as [|x l IH]; intros H; cbn [flat_map]; [reflexivity|]. pose proof (H x (or_introl eq_refl)) as K. rewrite IH by (intros y Hy; apply H; now right). destruct x; try reflexivity. rewrite K. reflexivity.
  Qed.
  Lemma instance_lib : instance_fields (members (tree_of nested sc)) = map (fun g => (fst g, type_name (snd g))) (c_fields cd).
  Proof.
    rewrite members_tree. cbv zeta. rewrite Hsc. unfold instance_fields. rewrite flat_map_app. fold (instance_fields (map (fun g : string * ftype => MField ["private"]%string (type_name (snd g)) (fst g) None) (c_fields cd))).
    match goal with |- _ ++ flat_map _ ?l = _ => fold (instance_fields l) end. rewrite (no_instance (weave _ _ ++ _)).
    - rewrite app_nil_r. unfold instance_fields. induction (c_fields cd) as [|g l IH]; cbn [map flat_map List.app]; [reflexivity|]. rewrite IH. reflexivity.
    - intros x Hx. rewrite !in_app_iff in Hx. destruct Hx as [Hx|[Hx|[Hx|[Hx|[Hx|Hx]]]]].
      + assert (W : forall (l m : list member), In x (weave l m) -> In x l \/ In x m). { induction l as [|y l IH]; intros [|z m] H; cbn [weave List.app] in H; auto. - rewrite app_nil_r in H. auto. - destruct H as [H|[H|H]]; [left; now left|right; now left|]. destruct (IH m H); [left|right]; now right. }
        destruct (W _ _ Hx) as [Y|Y]; apply in_map_iff in Y; destruct Y as (g & <- & _); exact I.
      + destruct Hx as [<-|[<-|[]]]; exact I.
      + destruct (sc_form sc); try contradiction. destruct Hx as [<-|[<-|[<-|[]]]]; cbn; auto.
      + destruct Hx as [<-|[<-|[<-|[]]]]; exact I.
      + apply in_map_iff in Hx. destruct Hx as (g & <- & _). exact I.
      + destruct (sc_form sc); try contradiction; destruct Hx as [<-|[]]; exact I.
  Qed.
End Class.
