(* C18-C21, C45: the checksum registry and the message factories. *)
From Coq Require Import ZArith List Bool String Lia.
From Verif.Model Require Import JavaPrim ByteBuf Checksum Ast Interp Factory Concurrent Library GenSse.
From Verif.Spec Require Import Bytes Registry Wire Reading Layouts Tags.
From Verif.Proofs Require Import RegistryFacts.
Import ListNotations.
Open Scope Z_scope.

(* two more services under one name *)
Definition svc_a := {| algorithm := "X"; calc := fun _ => 1 |}.
Definition svc_b := {| algorithm := "X"; calc := fun _ => 2 |}.

(* ---- C18 ---- *)
(* h: any history of calls on a registry that starts out empty *)
Theorem C18_first_registration_wins : forall h n s, get_service (reg_run [] h) n = Some s <-> holder h n s.
Proof. exact get_iff_holder. Qed.
Theorem C18_null_if_none : forall h n, get_service (reg_run [] h) n = None <-> forall s, ~ holder h n s.
Proof.
  intros h n. unfold get_service. split.
  - intros G s H. apply holder_get in H. congruence.
  - intros H. pose proof (get_holder h n) as G. destruct (cache_get (reg_run [] h) n); auto. destruct (H s G).
Qed.
Theorem C18_answer : forall h s, fst (registry (reg_run [] h) s) = true <-> forall t, ~ holder h (algorithm s) t.
Proof. intros h s. rewrite registry_answer. apply C18_null_if_none. Qed.
(* the library's registry is one that starts with the registrations of CRC16 and CRC32, and then holds exactly these *)
Theorem C18_initially : initial_cache = reg_run [] [Reg crc16_service; Reg crc32_service]
  /\ forall n s, get_service initial_cache n = Some s <-> (n = "CRC16"%string /\ s = crc16_service) \/ (n = "CRC32"%string /\ s = crc32_service).
Proof.
  split; [reflexivity|]. intros n s. unfold get_service, initial_cache. rewrite !get_registry. cbn [cache_get algorithm crc16_service crc32_service].
  unfold CRC16, CRC32. destruct (String.eqb_spec "CRC16" n) as [<-|N1]; [split; [intros [= <-]; auto|intros [[_ ->]|[H _]]; [auto|discriminate]]|].
  destruct (String.eqb_spec "CRC32" n) as [<-|N2]; [split; [intros [= <-]; auto|intros [[H _]|[_ ->]]; [discriminate|auto]]|].
  split; [discriminate|intros [[-> _]|[-> _]]; congruence].
Qed.
(* queries, and calls about other names, do not matter *)
Theorem C18_other_names : forall h n o, ~ registers n o -> ~ frees n o -> get_service (reg_run [] (h ++ [o])) n = get_service (reg_run [] h) n.
Proof.
  intros h n o R F. unfold get_service. rewrite run_app. cbn. fold (reg_run [] h). destruct (cache_get (reg_run [] h) n) as [s|] eqn:G.
  - apply exec_not_frees; auto.
  - apply exec_not_registers; auto.
Qed.
Example C18_meets :
  let h := [Reg crc16_service; Reg svc_a; Reg svc_b; Rem "X"; Reg svc_b; Reg svc_a; Rem "CRC16"] in
  get_service (reg_run [] h) "X" = Some svc_b /\ holder h "X" svc_b /\ get_service (reg_run [] h) "CRC16" = None
  /\ fst (registry (reg_run [] h) svc_a) = false /\ fst (registry (reg_run [] h) crc16_service) = true /\ svc_a <> svc_b.
Proof.
  assert (G : get_service (reg_run [] [Reg crc16_service; Reg svc_a; Reg svc_b; Rem "X"; Reg svc_b; Reg svc_a; Rem "CRC16"]) "X" = Some svc_b) by reflexivity.
  split; [exact G|]. split; [apply get_iff_holder; exact G|]. split; [reflexivity|]. split; [reflexivity|]. split; [reflexivity|].
  intros E. apply (f_equal (fun s => calc s [])) in E. discriminate.
Qed.

(* ---- C19 ---- *)
(* called one after the other: of the calls registering n, at most one answers true, namely the first, if n was free *)
Fixpoint answers (c : cache) (ss : list service) : list bool :=
  match ss with [] => [] | s :: r => fst (registry c s) :: answers (snd (registry c s)) r end.
Theorem C19_one_after_the_other : forall c n s ss, algorithm s = n -> (forall t, In t ss -> algorithm t = n) ->
  answers c (s :: ss) = (match get_service c n with Some _ => false | None => true end) :: repeat false (List.length ss).
Proof.
  intros c n s ss E H. cbn [answers]. f_equal.
  - unfold registry, get_service. rewrite E. destruct (cache_get c n); auto.
  - assert (G : exists t, cache_get (snd (registry c s)) n = Some t).
    { rewrite get_registry. destruct (cache_get c n); eauto. rewrite E, String.eqb_refl. eauto. }
    destruct G as [t G]. revert G. generalize (snd (registry c s)) as c'. induction ss as [|u ss IH]; intros c' G; cbn; auto.
    unfold registry. rewrite (H u (or_introl eq_refl)), G. cbn. f_equal. apply IH; auto. intros; apply H; right; auto.
Qed.
(* the expected guarantee fails: two threads both get true, and the first service is replaced *)
Theorem C19_refuted : exists sched c' ts',
  steps sched initial_cache [Calling svc_a; Calling svc_b] = (c', ts')
  /\ ts' = [Answered svc_a true; Answered svc_b true] /\ get_service c' "X" = Some svc_b /\ svc_a <> svc_b.
Proof.
  exists [0; 1; 0; 1]%nat. eexists. eexists. split; [reflexivity|]. split; [reflexivity|]. split; [reflexivity|].
  intros E. apply (f_equal (fun s => calc s [])) in E. discriminate.
Qed.
(* it can happen to any number of threads, whatever else the registry holds *)
Theorem C19_all_may_get_true : forall c n ss s, get_service c n = None -> (forall t, In t (ss ++ [s]) -> algorithm t = n) ->
  exists sched c', steps sched c (map Calling (ss ++ [s])) = (c', map (fun t => Answered t true) (ss ++ [s])) /\ get_service c' n = Some s.
Proof.
  intros c n ss s G H. set (k := List.length (ss ++ [s])). exists (seq 0 k ++ seq 0 k)%list. eexists. split.
  - rewrite steps_app. pose proof (pass_all c (ss ++ [s]) n [] G H) as P. cbn [List.length map app] in P. fold k in P. rewrite P.
    exact (put_all c (ss ++ [s]) []).
  - unfold get_service. rewrite <- (H s) by (apply in_or_app; right; left; auto). apply get_put_all.
Qed.
(* what still holds in every interleaving of any number of threads, finished or not *)
Theorem C19_every_interleaving : forall sched c n ss c' ts', steps sched c (map Calling ss) = (c', ts') ->
  map service_of ts' = ss
  /\ (forall s0, get_service c n = Some s0 ->
        get_service c' n = Some s0 /\ forall t, In t ts' -> algorithm (service_of t) = n -> said_true t = false)
  /\ (get_service c n = None ->
        (forall s, get_service c' n = Some s -> In (Answered s true) ts')
        /\ (forall t, In t ts' -> algorithm (service_of t) = n -> finished t = true ->
              exists s, algorithm s = n /\ In (Answered s true) ts' /\ get_service c' n = Some s)).
Proof.
  intros sched c n ss c' ts' E. pose proof (steps_inv n c sched c (map Calling ss) (start_inv n c ss)) as I.
  pose proof (steps_services sched c (map Calling ss)) as S. rewrite E in I, S. cbn in I, S. rewrite map_map, map_id in S. split; auto.
  unfold inv in I. unfold get_service. split.
  - intros s0 G. rewrite G in I. destruct I as [I1 I2]. split; auto. intros t Hin Et. apply (I2 t Hin Et).
  - intros G. rewrite G in I. split.
    + intros s Gs. rewrite Gs in I. auto.
    + intros t Hin Et Ft. destruct (cache_get c' n) as [s|] eqn:Gs; [|rewrite (I t Hin Et) in Ft; discriminate].
      exists s. split; [|auto]. apply (steps_keys sched c (map Calling ss) n s); [congruence|rewrite E; exact Gs].
Qed.
(* the trouble is only the gap between the two steps: if each thread runs its two steps in one go, at most one gets true *)
Theorem C19_atomic_calls : forall order c n ss c' ts', steps (flat_map (fun i => [i; i]) order) c (map Calling ss) = (c', ts') ->
  (forall s, In s ss -> algorithm s = n) -> (List.length (filter said_true ts') <= 1)%nat.
Proof. exact atomic_calls. Qed.
Example C19_meets :
  answers initial_cache [svc_a; svc_b; svc_a] = [true; false; false]
  /\ get_service initial_cache "X" = None
  /\ snd (steps [0; 1; 0; 1]%nat initial_cache [Calling svc_a; Calling svc_b]) = [Answered svc_a true; Answered svc_b true]
  /\ snd (steps [1; 1; 0; 0]%nat initial_cache [Calling svc_a; Calling svc_b]) = [Answered svc_a false; Answered svc_b true].
Proof. repeat split. Qed.

(* ---- C20 ---- *)
(* h: any history of register/remove calls on a factory with content m *)
Theorem C20_last_registration_wins : forall m h k c,
  create (fac_run m h) k = inr c <-> current h k c \/ (untouched h k /\ create m k = inr c).
Proof.
  intros m h k c. unfold create. pose proof (fac_get_iff m h k c) as I. destruct (f_get (fac_run m h) k) as [x|].
  - split; [intros [= <-]|intros H; f_equal]; [|apply proj2 in I].
    + destruct (proj1 I eq_refl) as [H|[U ->]]; auto.
    + destruct H as [H|[U H]]; [specialize (I (or_introl H)); congruence|]. destruct (f_get m k) as [y|] eqn:G; [|discriminate].
      injection H as ->. specialize (I (or_intror (conj U eq_refl))). congruence.
  - split; [discriminate|intros H; exfalso]. apply proj2 in I. destruct H as [H|[U H]]; [discriminate (I (or_introl H))|].
    destruct (f_get m k) as [y|]; [|discriminate]. injection H as ->. discriminate (I (or_intror (conj U eq_refl))).
Qed.
Theorem C20_otherwise_illegal_argument : forall m h k,
  create (fac_run m h) k = inl IAE <-> forall c, ~ (current h k c \/ (untouched h k /\ create m k = inr c)).
Proof.
  intros m h k. split.
  - intros E c H. apply C20_last_registration_wins in H. congruence.
  - intros H. destruct (create (fac_run m h) k) as [e|c] eqn:E.
    + unfold create in E. destruct (f_get (fac_run m h) k); congruence.
    + destruct (H c). apply C20_last_registration_wins. auto.
Qed.
Theorem C20_remove_answers_presence : forall m k, fst (unregister m k) = true <-> exists c, create m k = inr c.
Proof. intros m k. unfold unregister, create. cbn. destruct (f_get m k); split; try discriminate; eauto. intros [c H]. discriminate. Qed.
(* the factories seen by decode: an operation on the factory of class o *)
Theorem C20_factories_independent : forall cs W R o o' f k, o <> o' ->
  factory (env_of cs (on_factory W o f) R) o' k = factory (env_of cs W R) o' k.
Proof. intros cs W R o o' f k N. apply on_factory_other. exact N. Qed.
Theorem C20_factory_changes : forall cs W R o m op k, assoc o W = Some m ->
  factory (env_of cs (on_factory W o (fun m => exec_fac m op)) R) o k = f_get (exec_fac m op) k.
Proof. intros cs W R o m op k A. apply (on_factory_same W o (fun m => exec_fac m op) m k A). Qed.
Example C20_meets :
  let h := [Put (KInt 7) "a.A"; Put (KInt 8) "a.B"; Put (KInt 7) "a.C"; Del (KInt 8); Put (KInt 9) "a.A"]%string in
  create (fac_run [] h) (KInt 7) = inr "a.C"%string /\ create (fac_run [] h) (KInt 8) = inl IAE
  /\ current h (KInt 7) "a.C" /\ create (fac_run (static_init sse_SseBinary_factory) h) (KInt 40) = inr "sse.Logon"%string
  /\ untouched h (KInt 40) /\ assoc "sse.SseBinary" lib_factories = Some (static_init sse_SseBinary_factory).
Proof.
  split; [reflexivity|]. split; [reflexivity|]. split; [|split; [reflexivity|]; split; [|vm_compute; reflexivity]].
  - exists [Put (KInt 7) "a.A"; Put (KInt 8) "a.B"]%string, [Del (KInt 8); Put (KInt 9) "a.A"]%string. split; [reflexivity|].
    repeat constructor; intros [(c & E)|E]; discriminate.
  - repeat constructor; intros [(c & E)|E]; discriminate.
Qed.

(* ---- C21 ---- *)
Theorem C21_initially_one_to_one : forall clazz t, sse_get_msg_type sse_initial clazz = Some t <-> sse_create sse_initial t = inr clazz.
Proof.
  intros clazz t. split.
  - intros H. apply assoc_in in H.
    assert (A : forallb (fun ct => match sse_create sse_initial (snd ct) with inr c => String.eqb c (fst ct) | inl _ => false end) (reverse_map sse_initial) = true) by (vm_compute; reflexivity).
    rewrite forallb_forall in A. specialize (A _ H). cbn [fst snd] in A. destruct (sse_create sse_initial t); [discriminate|]. apply String.eqb_eq in A. congruence.
  - intros H. unfold sse_create, create in H. destruct (f_get (body_map sse_initial) (KInt t)) as [c|] eqn:G; [|discriminate]. injection H as ->.
    apply f_get_in in G.
    assert (A : forallb (fun kc => match fst kc with KInt z => match sse_get_msg_type sse_initial (snd kc) with Some u => Z.eqb u z | None => false end | _ => false end) (body_map sse_initial) = true) by (vm_compute; reflexivity).
    rewrite forallb_forall in A. specialize (A _ G). cbn [fst snd] in A. destruct (sse_get_msg_type sse_initial clazz) as [u|]; [|discriminate].
    apply Z.eqb_eq in A. congruence.
Qed.
Theorem C21_message_types : forall name t, In (name, t) sse_SseBinary_msgtypes ->
  from_value sse_SseBinary_msgtypes t = inr name /\ exists clazz, sse_create sse_initial t = inr clazz /\ find clazz lib_layouts <> None.
Proof.
  intros name t H.
  assert (A : forallb (fun nt => match from_value sse_SseBinary_msgtypes (snd nt), sse_create sse_initial (snd nt) with
                                 | inr n, inr c => String.eqb n (fst nt) && match find c lib_layouts with Some _ => true | None => false end
                                 | _, _ => false end) sse_SseBinary_msgtypes = true) by (vm_compute; reflexivity).
  rewrite forallb_forall in A. specialize (A _ H). cbn [fst snd] in A. destruct (from_value sse_SseBinary_msgtypes t) as [|n]; [discriminate|].
  destruct (sse_create sse_initial t) as [|c]; [discriminate|]. apply andb_true_iff in A. destruct A as [A1 A2]. apply String.eqb_eq in A1. subst. split; auto.
  exists c. split; auto. destruct (find c lib_layouts); discriminate.
Qed.
Theorem C21_from_value_otherwise : forall v, from_value sse_SseBinary_msgtypes v = inl IAE <-> ~ exists c, sse_create sse_initial v = inr c.
Proof.
  intros v. rewrite from_value_other. split.
  - intros N [c H]. apply N. unfold sse_create, create in H. destruct (f_get (body_map sse_initial) (KInt v)) eqn:G; [|discriminate]. apply f_get_in in G.
    assert (A : forallb (fun kc => match fst kc with KInt z => existsb (Z.eqb z) (map snd sse_SseBinary_msgtypes) | _ => false end) (body_map sse_initial) = true) by (vm_compute; reflexivity).
    rewrite forallb_forall in A. specialize (A _ G). cbn [fst] in A. apply existsb_exists in A. destruct A as (x & Hx & E). apply Z.eqb_eq in E. subst. exact Hx.
  - intros N H. apply N. apply in_map_iff in H. destruct H as ([n t] & <- & H). destruct (C21_message_types n t H) as [_ (c & Hc & _)]. exists c. exact Hc.
Qed.
(* after any history h of register/remove calls the two maps answer independently: create looks at what was done to the tag,
   getMsgType at what was registered for the class, and remove never reaches it *)
Theorem C21_after_any_history : forall h t c clazz,
  (sse_create (sse_run sse_initial h) t = inr c <->
     current_tag h t c \/ (Forall (fun o => ~ names_tag t o) h /\ sse_create sse_initial t = inr c))
  /\ (sse_get_msg_type (sse_run sse_initial h) clazz = Some t <->
     current_class h clazz t \/ (Forall (fun o => ~ names_class clazz o) h /\ sse_get_msg_type sse_initial clazz = Some t)).
Proof.
  intros h t c clazz. split; [|apply sse_get_class]. pose proof (sse_get_tag sse_initial h t c) as I. unfold sse_create, create.
  destruct (f_get (body_map (sse_run sse_initial h)) (KInt t)) as [x|]; destruct (f_get (body_map sse_initial) (KInt t)) as [y|]; split; intros H.
  - injection H as ->. destruct (proj1 I eq_refl) as [H|[U [= ->]]]; auto.
  - f_equal. assert (E : Some x = Some c) by (apply I; destruct H as [H|[U [= ->]]]; auto). congruence.
  - injection H as ->. destruct (proj1 I eq_refl) as [H|[U H]]; [auto|discriminate].
  - f_equal. assert (E : Some x = Some c) by (apply I; destruct H as [H|[U H]]; [auto|discriminate]). congruence.
  - discriminate.
  - assert (E : None = Some c) by (apply I; destruct H as [H|[U [= ->]]]; auto). discriminate.
  - discriminate.
  - assert (E : None = Some c) by (apply I; destruct H as [H|[U H]]; [auto|discriminate]). discriminate.
Qed.
(* so the correspondence is lost by every remove of a registered tag *)
Theorem C21_remove_refuted : forall t clazz, sse_create sse_initial t = inr clazz ->
  let s := snd (sse_unregister sse_initial t) in sse_get_msg_type s clazz = Some t /\ sse_create s t = inl IAE.
Proof.
  intros t clazz H. cbv zeta. split; [exact (proj2 (C21_initially_one_to_one clazz t) H)|].
  unfold sse_create, create. change (body_map (snd (sse_unregister sse_initial t))) with (f_remove (body_map sse_initial) (KInt t)). rewrite f_get_remove. destruct (key_eqb_spec (KInt t) (KInt t)); congruence.
Qed.
(* and by every registration of a used tag for another class *)
Theorem C21_register_refuted : forall t clazz clazz', sse_create sse_initial t = inr clazz -> clazz' <> clazz ->
  let s := sse_register sse_initial clazz' t clazz' in sse_get_msg_type s clazz = Some t /\ sse_create s t = inr clazz'.
Proof.
  intros t clazz clazz' H N. cbv zeta. split.
  - unfold sse_get_msg_type. unfold sse_register. cbn [reverse_map]. rewrite assoc_r_put. destruct (String.eqb_spec clazz clazz'); [congruence|]. exact (proj2 (C21_initially_one_to_one clazz t) H).
  - unfold sse_create, create. unfold sse_register. cbn [body_map]. rewrite f_get_put. destruct (key_eqb_spec (KInt t) (KInt t)); congruence.
Qed.
Example C21_meets :
  sse_create sse_initial 58 = inr "sse.NewOrderSingle"%string /\ sse_get_msg_type sse_initial "sse.NewOrderSingle" = Some 58
  /\ sse_get_msg_type (snd (sse_unregister sse_initial 58)) "sse.NewOrderSingle" = Some 58
  /\ fst (sse_unregister sse_initial 58) = true /\ fst (sse_unregister sse_initial 57) = false
  /\ from_value sse_SseBinary_msgtypes 58 = inr "NEW_ORDER_SINGLE"%string /\ from_value sse_SseBinary_msgtypes 57 = inl IAE.
Proof. vm_compute. repeat split. Qed.

(* ---- C45 ---- *)
Fixpoint no_repeat (ks : list key) : bool :=
  match ks with [] => true | k :: r => negb (existsb (key_eqb k) r) && no_repeat r end.
Lemma no_repeat_NoDup ks : no_repeat ks = true -> NoDup ks.
Proof.
  induction ks as [|k r IH]; cbn; intros H; constructor; apply andb_true_iff in H; destruct H as [H1 H2]; auto.
  intros Hin. apply negb_true_iff in H1. assert (E : existsb (key_eqb k) r = true); [|congruence].
  apply existsb_exists. exists k. split; auto. destruct (key_eqb_spec k k); congruence.
Qed.
Theorem C45_tables_unambiguous : forall o es, In (o, es) all_registrations -> es <> [] /\ NoDup (map fst es).
Proof.
  intros o es H.
  assert (A : forallb (fun oe => no_repeat (map fst (snd oe)) && negb (match snd oe with [] => true | _ => false end)) all_registrations = true) by (vm_compute; reflexivity).
  rewrite forallb_forall in A. specialize (A _ H). cbn [snd] in A. apply andb_true_iff in A. destruct A as [A1 A2].
  split; [destruct es; [discriminate|discriminate]|apply no_repeat_NoDup; auto].
Qed.
Theorem C45_one_table_per_class : NoDup (map fst all_registrations)
  /\ (forall o es, In (o, es) all_registrations -> exists L, find o lib_layouts = Some L /\ exists f kf, In (f, WBody kf) L)
  /\ (forall o L f kf, In (o, L) lib_layouts -> In (f, WBody kf) L -> exists es, In (o, es) all_registrations).
Proof.
  split; [|split].
  - apply (NoDup_map_inv (fun o => KStr (chars o))). apply no_repeat_NoDup. vm_compute. reflexivity.
  - intros o es H.
    assert (A : forallb (fun oe => match find (fst oe) lib_layouts with Some L => existsb (fun fw => match snd fw with WBody _ => true | _ => false end) L | None => false end) all_registrations = true) by (vm_compute; reflexivity).
    rewrite forallb_forall in A. specialize (A _ H). cbn [fst] in A. destruct (find o lib_layouts) as [L|]; [|discriminate]. exists L. split; auto.
    apply existsb_exists in A. destruct A as ([f w] & Hin & E). destruct w; try discriminate. exists f, key. exact Hin.
  - intros o L f kf H Hin.
    assert (A : forallb (fun oL => negb (existsb (fun fw => match snd fw with WBody _ => true | _ => false end) (snd oL)) || existsb (fun oe => String.eqb (fst oe) (fst oL)) all_registrations) lib_layouts = true) by (vm_compute; reflexivity).
    rewrite forallb_forall in A. specialize (A _ H). cbn [fst snd] in A. apply orb_true_iff in A. destruct A as [A|A].
    + apply negb_true_iff in A. assert (E : existsb (fun fw : string * wire => match snd fw with WBody _ => true | _ => false end) L = true); [|congruence].
      apply existsb_exists. exists (f, WBody kf). auto.
    + apply existsb_exists in A. destruct A as ([o' es] & H' & E). apply String.eqb_eq in E. cbn in E. subst. exists es. exact H'.
Qed.
(* every entry: the class exists, and some value of the declared type of the selecting field is read back as the key *)
Theorem C45_tags_can_be_read : forall o es k c, In (o, es) all_registrations -> In (k, c) es ->
  create (static_init es) k = inr c
  /\ (exists cd, assoc c lib_classes = Some cd)
  /\ exists cd L f kf w v, assoc o lib_classes = Some cd /\ find o lib_layouts = Some L /\ In (f, WBody kf) L /\ find kf L = Some w
       /\ typed lib_classes v (type_of kf (c_fields cd)) = true /\ tag_of v w = Some k.
Proof. exact tags_can_be_read. Qed.
(* the tables themselves: after class loading a tag creates the class Spec/Tags.v has for it, and no other tag creates anything *)
Theorem C45_dispatch : forall o k c, lookup_factory lib_factories o k = Some c <-> exists es, In (o, es) dispatch /\ In (k, c) es.
Proof.
  intros o k c. split.
  - unfold lookup_factory. destruct (assoc o lib_factories) as [m|] eqn:A; [|discriminate]. intros G. apply assoc_in in A. apply f_get_in in G.
    assert (Q : forallb (fun om => forallb (fun kc => existsb (fun oe => String.eqb (fst oe) (fst om) && existsb (fun e => key_eqb (fst e) (fst kc) && String.eqb (snd e) (snd kc)) (snd oe)) dispatch) (snd om)) lib_factories = true) by (vm_compute; reflexivity).
    rewrite forallb_forall in Q. specialize (Q _ A). cbn [fst snd] in Q. rewrite forallb_forall in Q. specialize (Q _ G). apply existsb_exists in Q. destruct Q as ([o' es] & I & Q). cbn [fst snd] in Q.
    apply andb_true_iff in Q. destruct Q as [Q1 Q2]. apply String.eqb_eq in Q1. subst o'. apply existsb_exists in Q2. destruct Q2 as ([k' c'] & J & Q2). cbn [fst snd] in Q2. apply andb_true_iff in Q2. destruct Q2 as [Q3 Q4].
    apply String.eqb_eq in Q4. subst c'. destruct (key_eqb_spec k' k) as [->|]; [|discriminate]. eauto.
  - intros (es & I & J).
    assert (Q : forallb (fun oe => forallb (fun e => match lookup_factory lib_factories (fst oe) (fst e) with Some c => String.eqb c (snd e) | None => false end) (snd oe)) dispatch = true) by (vm_compute; reflexivity).
    rewrite forallb_forall in Q. specialize (Q _ I). cbn [fst snd] in Q. rewrite forallb_forall in Q. specialize (Q _ J). cbn [fst snd] in Q. destruct (lookup_factory lib_factories o k); [|discriminate]. apply String.eqb_eq in Q. congruence.
Qed.
(* the constants of SseBinary.MessageType, their values and classes *)
Theorem C21_values : (forall n t, In (n, t) sse_SseBinary_msgtypes <-> exists c, In (n, t, c) sse_types)
  /\ forall c t, sse_get_msg_type sse_initial c = Some t <-> exists n, In (n, t, c) sse_types.
Proof.
  assert (M : map fst sse_types = sse_SseBinary_msgtypes) by (vm_compute; reflexivity). split.
  - intros n t. rewrite <- M, in_map_iff. split; [intros ([[n' t'] c] & E & I); cbn in E; injection E as -> ->; eauto|intros (c & I); exists (n, t, c); auto].
  - intros c t. split.
    + intros G. unfold sse_get_msg_type in G. apply assoc_in in G.
      assert (Q : forallb (fun ct => existsb (fun e => String.eqb (snd e) (fst ct) && Z.eqb (snd (fst e)) (snd ct)) sse_types) (reverse_map sse_initial) = true) by (vm_compute; reflexivity).
      rewrite forallb_forall in Q. specialize (Q _ G). apply existsb_exists in Q. destruct Q as ([[n t'] c'] & I & Q). cbn [fst snd] in Q. apply andb_true_iff in Q. destruct Q as [Q1 Q2]. apply String.eqb_eq in Q1. apply Z.eqb_eq in Q2. subst. eauto.
    + intros (n & I).
      assert (Q : forallb (fun e => match sse_get_msg_type sse_initial (snd e) with Some t => Z.eqb t (snd (fst e)) | None => false end) sse_types = true) by (vm_compute; reflexivity).
      rewrite forallb_forall in Q. specialize (Q _ I). cbn [fst snd] in Q. destruct (sse_get_msg_type sse_initial c); [|discriminate]. apply Z.eqb_eq in Q. congruence.
Qed.
Example C45_meets : List.length all_registrations = 19%nat /\ List.length (flat_map snd all_registrations) = 231%nat.
Proof. vm_compute. repeat split. Qed.
Print Assumptions C18_first_registration_wins.
Print Assumptions C18_null_if_none.
Print Assumptions C18_answer.
Print Assumptions C18_initially.
Print Assumptions C18_other_names.
Print Assumptions C19_one_after_the_other.
Print Assumptions C19_refuted.
Print Assumptions C19_all_may_get_true.
Print Assumptions C19_every_interleaving.
Print Assumptions C19_atomic_calls.
Print Assumptions C20_last_registration_wins.
Print Assumptions C20_otherwise_illegal_argument.
Print Assumptions C20_remove_answers_presence.
Print Assumptions C20_factories_independent.
Print Assumptions C20_factory_changes.
Print Assumptions C45_dispatch.
Print Assumptions C21_values.
Print Assumptions C21_initially_one_to_one.
Print Assumptions C21_message_types.
Print Assumptions C21_from_value_otherwise.
Print Assumptions C21_after_any_history.
Print Assumptions C21_remove_refuted.
Print Assumptions C21_register_refuted.
Print Assumptions C45_tables_unambiguous.
Print Assumptions C45_one_table_per_class.
Print Assumptions C45_tags_can_be_read.
