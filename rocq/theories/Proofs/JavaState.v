(* The methods of the registry and of the factories, run as Java, against the model. *)
From Coq Require Import ZArith NArith List Bool String Ascii Lia.
From Verif.Model Require Import JavaPrim ByteBuf Checksum Utf8 Codec Ast Interp Factory Show Heap GenSse Library.
From Verif.Spec Require Import JavaState.
From Verif.Proofs Require Import BytesFacts HeapFacts JavaSem JavaEncode JavaDecode JavaClasses JavaLibrary JavaServices JavaStart.
From Verif.Java Require Import Lex Syntax Source Sources Sem CodecTrees Init Program.
Import ListNotations.
Open Scope Z_scope.
Open Scope list_scope.

(* ---------- maps ---------- *)
Lemma mkey_eqb_eq a b : mkey_eqb a b = true <-> a = b.
Proof.
  destruct a as [|x|x], b as [|y|y]; cbn [mkey_eqb]; try (split; discriminate || reflexivity).
  - split; [intros H; f_equal|intros H; injection H as ->]; [destruct x, y; cbn [key_eqb] in H; try discriminate; [apply Z.eqb_eq in H; now subst|destruct (list_eq_dec Z.eq_dec s s0); [now subst|discriminate]]|].
    destruct y; cbn [key_eqb]; [apply Z.eqb_refl|destruct (list_eq_dec Z.eq_dec s s); congruence].
  - rewrite String.eqb_eq. split; [now intros ->|intros H; now injection H].
Qed.
Lemma m_set_same m k v : m_set m k v k = v.
Proof. unfold m_set. now rewrite (proj2 (mkey_eqb_eq k k) eq_refl). Qed.
Lemma m_set_other m k v k' : k' <> k -> m_set m k v k' = m k'.
Proof. intros N. unfold m_set. destruct (mkey_eqb k' k) eqn:Q; [|reflexivity]. apply mkey_eqb_eq in Q. contradiction. Qed.
Lemma key_eqb_eq0 a b : key_eqb a b = true <-> a = b.
Proof. pose proof (mkey_eqb_eq (MKey a) (MKey b)) as H. cbn [mkey_eqb] in H. rewrite H. split; [intros Q; now injection Q|now intros ->]. Qed.
Lemma m_set_key m k v k' : m_set m (MKey k) v (MKey k') = if key_eqb k' k then v else m (MKey k').
Proof. reflexivity. Qed.
Lemma f_get_remove m k k' : f_get (f_remove m k) k' = if key_eqb k' k then None else f_get m k'.
Proof.
  induction m as [|[k0 c] m IH]; cbn [f_remove filter f_get fst]; [now destruct (key_eqb k' k)|]. fold (f_remove m k). destruct (key_eqb k k0) eqn:Q; cbn [negb].
  - rewrite IH. apply key_eqb_eq0 in Q. subst k0. destruct (key_eqb k' k) eqn:Q'; reflexivity.
  - cbn [f_get]. rewrite IH. destruct (key_eqb k' k0) eqn:Q'; [|reflexivity]. apply key_eqb_eq0 in Q'. subst k0. destruct (key_eqb k' k) eqn:Q2; [|reflexivity]. apply key_eqb_eq0 in Q2. subst k. rewrite (proj2 (key_eqb_eq0 k' k') eq_refl) in Q. discriminate.
Qed.
Lemma f_get_put m k c k' : f_get (f_put m k c) k' = if key_eqb k' k then Some c else f_get m k'.
Proof. unfold f_put. cbn [f_get]. rewrite f_get_remove. destruct (key_eqb k' k); reflexivity. Qed.
Lemma supplier_map_init es : forall k, supplier_map es (MKey k) = option_map JSup (f_get (static_init es) k).
Proof.
  unfold supplier_map, static_init. assert (G : forall m0 F, (forall k, m0 (MKey k) = option_map JSup (f_get F k)) -> forall k,
    fold_left (fun m e => m_set m (MKey (fst e)) (Some (JSup (snd e)))) es m0 (MKey k) = option_map JSup (f_get (fold_left (fun m e => register m (fst e) (snd e)) es F) k)).
  { induction es as [|[k0 c] es IH]; intros m0 F H k; [apply H|]. cbn [fold_left fst snd]. apply IH. intros k'. rewrite m_set_key. unfold register. rewrite f_get_put, H. now destruct (key_eqb k' k0). }
  apply G. reflexivity.
Qed.
Lemma supplier_map_null es : supplier_map es MNull = None.
Proof. unfold supplier_map. assert (G : forall m0, m0 MNull = None -> fold_left (fun m e => m_set m (MKey (fst e)) (Some (JSup (snd e)))) es m0 MNull = None) by (induction es as [|e es IH]; intros m0 H; [exact H|]; cbn [fold_left]; apply IH; exact H). apply G. reflexivity. Qed.
Lemma assoc_r_put m c z c' : assoc c' (r_put m c z) = if String.eqb c' c then Some z else assoc c' m.
Proof.
  induction m as [|[d y] m IH]; cbn [r_put assoc]; [reflexivity|]. destruct (String.eqb_spec c d) as [->|N]; cbn [assoc]; [destruct (String.eqb c' d); reflexivity|]. rewrite IH. destruct (String.eqb_spec c' d) as [->|]; [|reflexivity]. destruct (String.eqb_spec d c); [congruence|reflexivity].
Qed.
Lemma lookup_on W o f o' k : lookup_factory (on_factory W o f) o' k = if String.eqb o' o then match assoc o W with Some m => f_get (f m) k | None => None end else lookup_factory W o' k.
Proof.
  unfold lookup_factory. induction W as [|[p m] W IH]; cbn [on_factory assoc]; [now destruct (String.eqb o' o)|]. destruct (String.eqb_spec o p) as [->|N]; cbn [assoc].
  - destruct (String.eqb_spec o' p); reflexivity.
  - destruct (String.eqb_spec o' p) as [->|]; [destruct (String.eqb_spec p o); [congruence|reflexivity]|exact IH].
Qed.
Lemma on_owners W o f : map fst (on_factory W o f) = map fst W.
Proof. induction W as [|[p m] W IH]; cbn [on_factory map fst]; [reflexivity|]. destruct (String.eqb o p); cbn [map fst]; [reflexivity|now rewrite IH]. Qed.
Lemma assoc_put {A} (l : list (string * A)) x y v : assoc x (put_assoc y v l) = if String.eqb x y then option_map (fun _ => v) (assoc y l) else assoc x l.
Proof.
  induction l as [|[k a] l IH]; cbn [put_assoc assoc]; [now destruct (String.eqb x y)|]. destruct (String.eqb_spec y k) as [->|N]; cbn [assoc].
  - destruct (String.eqb_spec x k); reflexivity.
  - rewrite IH. destruct (String.eqb_spec x k) as [->|]; [|reflexivity]. destruct (String.eqb_spec k y); [congruence|reflexivity].
Qed.
Lemma keys_put {A} (l : list (string * A)) y v : map fst (put_assoc y v l) = map fst l.
Proof. induction l as [|[k a] l IH]; cbn [put_assoc map fst]; [reflexivity|]. destruct (String.eqb y k); cbn [map fst]; [reflexivity|now rewrite IH]. Qed.
Lemma chars_inj a : forall b, chars a = chars b -> a = b.
Proof.
  induction a as [|x a IH]; intros [|y b] H; cbn [chars] in H; try discriminate; [reflexivity|]. injection H as H1 H2. apply N2Z.inj in H1. f_equal; [|apply IH, H2]. rewrite <- (ascii_N_embedding x), <- (ascii_N_embedding y). now rewrite H1.
Qed.
Lemma chars_eqb a b : key_eqb (KStr (chars a)) (KStr (chars b)) = String.eqb a b.
Proof. cbn [key_eqb]. destruct (list_eq_dec Z.eq_dec (chars a) (chars b)) as [E|E], (String.eqb_spec a b) as [Q|Q]; try reflexivity; [apply chars_inj in E; contradiction|subst; contradiction]. Qed.
Lemma cache_get_remove c a n : cache_get (cache_remove c n) a = if String.eqb a n then None else cache_get c a.
Proof.
  induction c as [|[k s] c IH]; cbn [cache_remove filter cache_get fst]; [now destruct (String.eqb a n)|]. fold (cache_remove c n). destruct (String.eqb_spec k n) as [->|N]; cbn [negb cache_get].
  - rewrite IH. destruct (String.eqb_spec a n) as [->|]; [reflexivity|]. destruct (String.eqb_spec n a); [congruence|reflexivity].
  - rewrite IH. destruct (String.eqb_spec k a) as [->|]; [|reflexivity]. destruct (String.eqb_spec a n); [congruence|reflexivity].
Qed.
Lemma cache_get_put c a n s : cache_get (cache_put c n s) a = if String.eqb a n then Some s else cache_get c a.
Proof. unfold cache_put. cbn [cache_get]. rewrite cache_get_remove, (String.eqb_sym n a). destruct (String.eqb a n); reflexivity. Qed.

(* what the start leaves *)
Lemma assoc_start x : mem x (stat_keys lib_program) = true -> assoc x after_start = Some (start_value x).
Proof.
  unfold after_start. generalize (stat_keys lib_program) as l. induction l as [|y l IH]; intros H; [discriminate|]. cbn [map assoc mem existsb] in *. destruct (String.eqb_spec x y) as [->|]; [reflexivity|]. exact (IH H).
Qed.
Definition makers : list source_class := filter (fun sc => creating (sc_def sc)) (flat_map (fun s => s_main s :: s_nested s) message_files).
Lemma makers_in sc : file_class sc -> creating (sc_def sc) = true -> In sc makers.
Proof. intros A B. apply filter_In. auto. Qed.

Definition other_keys : list string :=
  ["ChecksumServiceFactory.CACHE"; "Crc16ChecksumService.CRC_TABLE"; "Crc32ChecksumService.CRC_TABLE"; "sse.SseBinary.BodyMessageFactory.reverseMap"]%string
  ++ map (fun a => ("ChecksumAlgorithms." ++ a)%string) [CRC16; CRC32; SSE_BIN; SZSE_BIN]
  ++ map (fun nz => (type_place ++ "." ++ fst nz ++ ".value")%string) sse_SseBinary_msgtypes.
Fixpoint distinct (l : list string) : bool := match l with [] => true | x :: r => negb (mem x r) && distinct r end.
Lemma distinct_NoDup l : distinct l = true -> NoDup l.
Proof.
  induction l as [|x l IH]; intros H; constructor; cbn [distinct] in H; apply andb_true_iff in H; [|apply IH, H]. destruct H as [H _]. intros C. apply negb_true_iff in H. unfold mem in H.
  assert (existsb (String.eqb x) l = true) by (apply existsb_exists; exists x; split; [exact C|apply String.eqb_refl]). congruence.
Qed.
Lemma keys_distinct : distinct (map map_key makers ++ other_keys) = true.
Proof. vm_compute. reflexivity. Qed.
Lemma owners_distinct : distinct (map (fun sc => c_name (sc_def sc)) makers) = true.
Proof. vm_compute. reflexivity. Qed.
Lemma keys_there : (let ks := stat_keys lib_program in forallb (fun x => mem x ks) (map map_key makers ++ other_keys)) = true.
Proof. vm_compute. reflexivity. Qed.
Lemma key_there x : In x (map map_key makers ++ other_keys) -> mem x (stat_keys lib_program) = true.
Proof. pose proof keys_there as H. cbv zeta in H. rewrite forallb_forall in H. apply H. Qed.
Lemma assoc_nodup {A} (l : list (string * A)) x v : NoDup (map fst l) -> In (x, v) l -> assoc x l = Some v.
Proof.
  induction l as [|[y w] l IH]; intros N I; [destruct I|]. cbn [assoc map fst] in *. inversion N as [|? ? Ny N']; subst. destruct I as [Q|I]; [injection Q as -> ->; now rewrite String.eqb_refl|].
  destruct (String.eqb_spec x y) as [->|]; [|apply IH; assumption]. exfalso. apply Ny. apply in_map_iff. exists (y, v). auto.
Qed.
Lemma NoDup_app_1 {A} (l l' : list A) : NoDup (l ++ l') -> NoDup l.
Proof. induction l as [|x l IH]; intros H; constructor; cbn [app] in H; inversion H; subst; [|auto]. intros C. apply H2. apply in_or_app. auto. Qed.
Lemma NoDup_app_in {A} (l l' : list A) x : NoDup (l ++ l') -> In x l -> In x l' -> False.
Proof. induction l as [|y l IH]; intros H I I'; [destruct I|]. cbn [app] in H. inversion H; subst. destruct I as [->|I]; [|auto]. apply H2. apply in_or_app. auto. Qed.
Lemma makers_map : flat_map (fun sc => if creating (sc_def sc) then [(map_key sc, JMap (supplier_map (match assoc (c_name (sc_def sc)) all_registrations with Some es => es | None => [] end)))] else []) (flat_map (fun s => s_main s :: s_nested s) message_files)
  = map (fun sc => (map_key sc, JMap (supplier_map (match assoc (c_name (sc_def sc)) all_registrations with Some es => es | None => [] end)))) makers.
Proof. unfold makers. generalize (flat_map (fun s => s_main s :: s_nested s) message_files) as l. induction l as [|sc l IH]; [reflexivity|]. cbn [flat_map filter]. destruct (creating (sc_def sc)); cbn [app map]; now rewrite IH. Qed.
Lemma none_assoc {A} (l : list (string * A)) x : ~ In x (map fst l) -> assoc x l = None.
Proof. induction l as [|[y w] l IH]; intros N; cbn [assoc]; [reflexivity|]. cbn [map fst In] in N. destruct (String.eqb_spec x y) as [->|]; [exfalso; auto|]. apply IH. auto. Qed.
Lemma maker_key sc : In sc makers -> In (map_key sc) (map map_key makers ++ other_keys).
Proof. intros I. apply in_or_app. left. now apply in_map. Qed.
Lemma start_maker sc : In sc makers -> start_value (map_key sc) = JMap (supplier_map (match assoc (c_name (sc_def sc)) all_registrations with Some es => es | None => [] end)).
Proof.
  intros I. pose proof (distinct_NoDup _ keys_distinct) as N. assert (O : ~ In (map_key sc) other_keys) by (intros C; eapply NoDup_app_in; [exact N|apply in_map, I|exact C]).
  unfold start_value. rewrite makers_map. unfold other_keys in O. rewrite !in_app_iff in O.
  rewrite none_assoc by (intros C; apply O; left; exact C). rewrite none_assoc by (intros C; apply O; right; left; rewrite map_map in C; exact C). rewrite none_assoc by (intros C; apply O; right; right; rewrite map_map in C; exact C).
  rewrite (assoc_nodup _ _ (JMap (supplier_map (match assoc (c_name (sc_def sc)) all_registrations with Some es => es | None => [] end)))); [reflexivity| |].
  - rewrite map_map. apply NoDup_app_1 in N. exact N.
  - apply in_map_iff. exists sc. auto.
Qed.
Lemma lookup_start c k : lookup_factory lib_factories c k = f_get (static_init (match assoc c all_registrations with Some es => es | None => [] end)) k.
Proof.
  unfold lookup_factory, lib_factories. induction all_registrations as [|[o es] l IH]; [reflexivity|]. cbn [map assoc fst snd]. destruct (String.eqb c o); [reflexivity|exact IH].
Qed.
Lemma other_there x : In x other_keys -> mem x (stat_keys lib_program) = true.
Proof. intros I. apply key_there, in_or_app. auto. Qed.
Lemma reverse_initial : forall c, reverse_start sse_SseBinary_reverse (MCls c) = option_map (fun z => JT (T1 "Integer") (HInt z)) (assoc c (reverse_map sse_initial)).
Proof.
  unfold reverse_start, sse_initial.
  assert (G : forall vs ss m s, List.length vs = List.length ss -> (forall c, m (MCls c) = option_map (fun z => JT (T1 "Integer") (HInt z)) (assoc c (reverse_map s))) ->
    forall c, fold_left (fun m e => m_set m (MCls (fst e)) (Some (JT (T1 "Integer") (HInt (snd e))))) vs m (MCls c)
      = option_map (fun z => JT (T1 "Integer") (HInt z)) (assoc c (reverse_map (fold_left (fun s e => sse_register s (fst (fst e)) (snd (fst e)) (snd e)) (combine vs ss) s)))).
  { induction vs as [|[c0 z] vs IH]; intros [|c1 ss] m s LE H c; try discriminate; [apply H|]. cbn [fold_left combine fst snd]. apply IH; [now injection LE|]. intros c'. unfold sse_register. cbn [reverse_map]. rewrite assoc_r_put. unfold m_set. cbn [mkey_eqb]. rewrite H. now destruct (String.eqb c' c0). }
  apply G; reflexivity.
Qed.
Theorem agrees_start : agrees after_start initial_cache lib_factories (reverse_map sse_initial).
Proof.
  split.
  - unfold after_start. rewrite map_map. apply map_id.
  - reflexivity.
  - rewrite assoc_start by (apply other_there; cbn; tauto). reflexivity.
  - rewrite assoc_start by (apply other_there; cbn; tauto). reflexivity.
  - intros a I. rewrite assoc_start by (apply other_there; unfold other_keys; apply in_or_app; right; apply in_or_app; left; exact (in_map (fun a => ("ChecksumAlgorithms." ++ a)%string) _ _ I)).
    cbn [In] in I. destruct I as [<-|[<-|[<-|[<-|[]]]]]; reflexivity.
  - intros n z I. rewrite assoc_start by (apply other_there; unfold other_keys; apply in_or_app; right; apply in_or_app; right; exact (in_map (fun nz => (type_place ++ "." ++ fst nz ++ ".value")%string) _ _ I)).
    unfold sse_SseBinary_msgtypes in I. cbn [In] in I. repeat (destruct I as [Q|I]; [injection Q as <- <-; vm_compute; reflexivity|]). destruct I.
  - exists (cache_map [(CRC16, JOne "Crc16ChecksumService"); (CRC32, JOne "Crc32ChecksumService")]). split; [rewrite assoc_start by (apply other_there; cbn; tauto); reflexivity|].
    intros a. change initial_cache with (cache_put (cache_put [] CRC16 crc16_service) CRC32 crc32_service). rewrite !cache_get_put. unfold cache_map. cbn [fold_left fst snd]. rewrite !m_set_key, !chars_eqb.
    destruct (String.eqb a CRC32); [eexists; split; [reflexivity|]; unfold is_service; tauto|]. destruct (String.eqb a CRC16); [eexists; split; [reflexivity|]; unfold is_service; tauto|]. reflexivity.
  - intros sc A B. pose proof (makers_in sc A B) as I. eexists. split; [rewrite assoc_start by (apply key_there, maker_key, I); rewrite (start_maker sc I); reflexivity|]. split; [apply supplier_map_null|].
    intros k. rewrite supplier_map_init, lookup_start. reflexivity.
  - exists (reverse_start sse_SseBinary_reverse). split; [rewrite assoc_start by (apply other_there; cbn; tauto); reflexivity|]. exact reverse_initial.
Qed.
