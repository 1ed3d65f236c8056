(* Classes are initialised when they are first used: that changes nothing a program can see. *)
From Coq Require Import ZArith List Bool String Ascii Lia.
From Verif.Model Require Import JavaPrim ByteBuf Checksum Utf8 Codec Ast Interp Factory Show Heap GenSse Library.
From Verif.Spec Require Import Bytes Buffers Wire Reading Layouts Equality Sharing JavaState JavaRun JavaLazy.
From Verif.Java Require Import Lex Syntax Source Sources Sem CodecTrees Init Lazy Program.
From Verif.Proofs Require Import RegistryFacts JavaSem JavaEncode JavaClasses JavaState JavaStart JavaLazyInit JavaLazy JavaLazySim.
From Verif.Props Require Import Samples MessageProps TextProps JavaStaticProps JavaMessageProps.
Import ListNotations.
Open Scope Z_scope.
Open Scope list_scope.

Definition initialised (pr : printers) (first : list (string * jval)) : Prop :=
  forall vcall h b, init_all lib_program pr vcall 304 (at_rest h b (start_stat lib_program)) = Ret tt (at_rest h b first).
Lemma initialised_start pr first : initialised pr first -> first = after_start.
Proof. intros H. specialize (H (fun _ _ _ _ => Bad) [] used_buf). unfold at_rest in H. rewrite starts in H. injection H as <-. reflexivity. Qed.
Lemma touching pr k d0 n : (304 <= k)%nat -> forall q s ls, behind after_start (s_stat s) ls ->
  exists ls', lazy_touch pr k d0 (3 + n) q (set_stat s ls) = Ret tt (set_stat s ls') /\ behind after_start (s_stat s) ls' /\ (assoc q lib_program <> None -> ~ untouched q ls').
Proof. intros K q s ls B. destruct (touch_ok (s_stat s) pr k d0 n q (s_h s) (s_b s) (s_loc s) ls K B) as (ls' & E & [B' _] & U). exists ls'. split; [exact E|]. auto. Qed.

(* ---- C93: classes initialised when first used ---- *)
(* before anything ran *)
Theorem C93_start : forall pr first, initialised pr first -> behind first first (all_untouched lib_program)
  /\ forall q c, assoc q lib_program = Some c -> is_interface (q, c) = false -> untouched q (all_untouched lib_program).
Proof. intros pr first H. rewrite (initialised_start pr first H). split; [apply start_behind|exact start_untouched]. Qed.
(* initialisation of a class at any time *)
Theorem C93_touch : forall pr first k d0 n q s ls, initialised pr first -> (304 <= k)%nat -> behind first (s_stat s) ls ->
  exists ls', lazy_touch pr k d0 (3 + n) q (set_stat s ls) = Ret tt (set_stat s ls') /\ behind first (s_stat s) ls' /\ (assoc q lib_program <> None -> ~ untouched q ls').
Proof. intros pr first k d0 n q s ls H K. rewrite (initialised_start pr first H). exact (touching pr k d0 n K q s ls). Qed.
Theorem C93_call : forall pr first k d0 n d l m args s ls, initialised pr first -> (304 <= k)%nat -> behind first (s_stat s) ls ->
  same_end first (invoke pr k d l m args s) (lazy_invoke pr k d0 (3 + n) d l m args (set_stat s ls)).
Proof. intros pr first k d0 n d l m args s ls H K. rewrite (initialised_start pr first H). intros B. apply lag_vcalls; [exact (touching pr k d0 n K)|exact B]. Qed.
Theorem C93_static : forall pr first k d0 n d c m args s ls, initialised pr first -> (304 <= k)%nat -> behind first (s_stat s) ls ->
  same_end first (invoke_on pr k d c m args s) (lazy_invoke_on pr k d0 (3 + n) d c m args (set_stat s ls)).
Proof.
  intros pr first k d0 n d c m args s ls H K. rewrite (initialised_start pr first H). intros B. unfold lazy_invoke_on. apply lag_touch; [exact (touching pr k d0 n K)|exact B|]. clear ls B. intros ls B.
  apply lag_run; [apply lag_vcalls, (touching pr k d0 n K)|exact (touching pr k d0 n K)|exact B].
Qed.
Theorem C93_new : forall pr first k d0 n c s ls, initialised pr first -> (304 <= k)%nat -> behind first (s_stat s) ls ->
  same_end first (create_new c s) (lazy_create_new pr k d0 (3 + n) c (set_stat s ls)).
Proof.
  intros pr first k d0 n c s ls H K. rewrite (initialised_start pr first H). intros B. unfold lazy_create_new. apply lag_touch; [exact (touching pr k d0 n K)|exact B|]. clear ls B. intros ls B. apply lag_new, B.
Qed.
(* whole programs, from the start of the JVM *)
Lemma session_behind pr first k d0 n u : initialised pr first -> (304 <= k)%nat -> forall steps past stat ls xs stat', behind first stat ls ->
  session (eager_act pr k) u steps past stat = Some (xs, stat') -> exists ls', session (lazy_act pr k d0 (3 + n)) u steps past ls = Some (xs, ls') /\ behind first stat' ls'.
Proof.
  intros H K. induction steps as [|steps IH]; intros past stat ls xs stat' B S; cbn [session] in *; [injection S as <- <-; eauto|].
  destruct (u past) as [[[[d x] h] b]|]; [|injection S as <- <-; eauto].
  assert (R : same_end first (eager_act pr k d x (at_rest h b stat)) (lazy_act pr k d0 (3 + n) d x (at_rest h b ls))).
  { destruct x as [c|l m args|c m args]; [apply (C93_new pr first k d0 n c (at_rest h b stat) ls)|apply (C93_call pr first k d0 n d l m args (at_rest h b stat) ls)|apply (C93_static pr first k d0 n d c m args (at_rest h b stat) ls)]; assumption. }
  destruct (eager_act pr k d x (at_rest h b stat)) as [v s|e s|]; [| |discriminate S]; destruct R as (ls1 & -> & B1); exact (IH _ _ _ _ _ B1 S).
Qed.
Theorem C93_session : forall pr first k d0 n u steps xs stat, initialised pr first -> (304 <= k)%nat -> session (eager_act pr k) u steps [] first = Some (xs, stat) ->
  exists ls, session (lazy_act pr k d0 (3 + n)) u steps [] (all_untouched lib_program) = Some (xs, ls) /\ behind first stat ls.
Proof. intros pr first k d0 n u steps xs stat H K S. apply (session_behind pr first k d0 n u H K steps [] first _ xs stat); [apply (C93_start pr first H)|exact S]. Qed.
(* the order of initialisation does not matter *)
Lemma touch_all_ok pr k d0 n : (304 <= k)%nat -> forall qs s ls, behind after_start (s_stat s) ls ->
  exists ls', touch_all pr k d0 (3 + n) qs (set_stat s ls) = Ret tt (set_stat s ls') /\ behind after_start (s_stat s) ls' /\ later ls ls' /\ forall q, In q qs -> assoc q lib_program <> None -> ~ untouched q ls'.
Proof.
  intros K. induction qs as [|q qs IH]; intros s ls B.
  { exists ls. split; [reflexivity|]. split; [exact B|]. split; [intros q c _ U; exact U|intros q []]. }
  cbn [touch_all]. destruct (touch_ok (s_stat s) pr k d0 n q (s_h s) (s_b s) (s_loc s) ls K B) as (l1 & E & [B1 L1] & U). change (lazy_touch pr k d0 (3 + n) q (set_stat s ls) = Ret tt (set_stat s l1)) in E. rewrite E. cbn [bind].
  destruct (IH s l1 B1) as (l2 & E2 & B2 & L2 & U2). exists l2. split; [exact E2|]. split; [exact B2|]. split; [intros q' c A Z; exact (L2 q' c A (L1 q' c A Z))|].
  intros q' [<-|J] A; [|exact (U2 q' J A)]. destruct (assoc q lib_program) as [c|] eqn:Q; [|congruence]. exact (L2 q c Q (U A)).
Qed.
Theorem C93_any_order : forall pr first k d0 n qs h b, initialised pr first -> (304 <= k)%nat -> (forall q c, In (q, c) lib_program -> In q qs) ->
  exists ls, touch_all pr k d0 (3 + n) qs (at_rest h b (all_untouched lib_program)) = Ret tt (at_rest h b ls) /\ forall x, In x (stat_keys lib_program) -> assoc x ls = assoc x first.
Proof.
  intros pr first k d0 n qs h b H K I. rewrite (initialised_start pr first H). destruct (touch_all_ok pr k d0 n K qs (at_rest h b after_start) (all_untouched lib_program) start_behind) as (ls & E & B & _ & U).
  exists ls. split; [exact E|]. intros x Ix. destruct (key_owner x Ix) as (q & O). apply (bh_same _ _ _ B x q O). destruct (owner_inv x q O) as (c & A & _). apply U; [apply (I q c), assoc_in, A|congruence].
Qed.
(* the first thing a program does is to encode a message *)
Theorem C93_first_message : forall pr first k d0 n d h l c t b, initialised pr first -> enough k -> heap_ok lib_classes h -> small h -> Sharing.fits h (HRef l) (TObj c) -> shows h (HRef l) t -> buf_wf b = true ->
  let E := holding initial_cache lib_factories in
  let bs := ser Y (fill_in Y (checksum E) (readable b) t (WObj c)) (WObj c) in
  complete Y t (WObj c) = true -> (nesting t <= d)%nat -> Buffers.fits b (List.length bs) ->
  exists h1 b1 ls, lazy_invoke pr k d0 (3 + n) d l "encode"%string [JBuf] (at_rest h b (all_untouched lib_program)) = Ret JVoid (at_rest h1 b1 ls) /\ appended b bs b1.
Proof.
  intros pr first k d0 n d h l c t b H K OK SM F SH Hb E bs CO NE FI. destruct (C73_classes_initialise pr (fun _ _ _ _ => Bad) h b) as (stat & HI & RN). rewrite (H (fun _ _ _ _ => Bad) h b) in HI. injection HI as <-.
  destruct (C77_encode pr k d first _ _ _ h l c t b K RN OK SM F SH Hb) as (e & h1 & b1 & EQ & _ & _ & _ & _ & M). fold E in M. change (ser Y (fill_in Y (checksum E) (readable b) t (WObj c)) (WObj c)) with bs in M.
  assert (K3 : (304 <= k)%nat) by (unfold enough in K; lia).
  pose proof (C93_call pr first k d0 n d l "encode"%string [JBuf] (at_rest h b first) (all_untouched lib_program) H K3 (proj1 (C93_start pr first H))) as R. rewrite EQ in R.
  destruct e as [x|]; [exfalso|destruct R as (ls & R & _); exists h1, b1, ls; split; [exact R|apply M]]. destruct M as [M _]. destruct x; try exact M; try congruence; try lia. exact (M FI).
Qed.

(* a program that asks for a checksum service, takes one away, and asks again; the factory of SSE is then still not initialised *)
Definition asking : user := fun past =>
  match List.length past with
  | 0%nat => Some (5%nat, DStatic "ChecksumServiceFactory" "getChecksumService" [jstr (chars "CRC16")], [], used_buf)
  | 1%nat => Some (5%nat, DStatic "ChecksumServiceFactory" "removeChecksumService" [jstr (chars "CRC16")], [], used_buf)
  | 2%nat => Some (5%nat, DStatic "ChecksumServiceFactory" "getChecksumService" [jstr (chars "CRC16")], [], used_buf)
  | 3%nat => Some (5%nat, DNew "sample.RootPacket", [], used_buf)
  | _ => None
  end.
Definition kinds (xs : list happened) : list bool := map (fun x => match x with (inr (JSvc _ _), _, _) | (inr (JOne _), _, _) | (inr (JT _ (HRef _)), _, _) => true | _ => false end) xs.
Lemma asks : exists xs stat, session (eager_act some_printers 304) asking 9 [] after_start = Some (xs, stat) /\ kinds xs = [true; false; false; true].
Proof.
  destruct (session (eager_act some_printers 304) asking 9 [] after_start) as [[xs stat]|] eqn:E; [exists xs, stat; split; [reflexivity|]|exfalso].
  - apply (f_equal (option_map (fun r => kinds (fst r)))) in E. cbn [option_map fst] in E. assert (Q : option_map (fun r => kinds (fst r)) (session (eager_act some_printers 304) asking 9 [] after_start) = Some [true; false; false; true]) by (vm_compute; reflexivity). congruence.
  - apply (f_equal (option_map (fun r => kinds (fst r)))) in E. cbn [option_map fst] in E. assert (Q : option_map (fun r => kinds (fst r)) (session (eager_act some_printers 304) asking 9 [] after_start) = Some [true; false; false; true]) by (vm_compute; reflexivity). congruence.
Qed.
Lemma asked : match session (lazy_act some_printers 304 5 3) asking 9 [] (all_untouched lib_program) with
  | Some (xs, ls) => kinds xs = [true; false; false; true] /\ assoc (mark "ChecksumServiceFactory") ls = Some (JB true) /\ assoc (mark sse_place) ls = Some JVoid
  | None => False
  end.
Proof. vm_compute. split; [reflexivity|split; reflexivity]. Qed.
Example C93_meets : initialised some_printers after_start
  /\ (exists xs stat, session (eager_act some_printers 304) asking 9 [] after_start = Some (xs, stat) /\ kinds xs = [true; false; false; true])
  /\ (exists q c, assoc q lib_program = Some c /\ is_interface (q, c) = false /\ q = sse_place).
Proof.
  split; [intros vcall h b; apply starts|]. split; [exact asks|]. exists sse_place. destruct (assoc sse_place lib_program) as [c|] eqn:A.
  - exists c. split; [reflexivity|]. split; [|reflexivity]. pose proof names_there as T. rewrite forallb_forall in T. specialize (T sse_place (or_intror (or_introl eq_refl))). rewrite A in T. now apply negb_true_iff.
  - exfalso. pose proof names_there as T. rewrite forallb_forall in T. specialize (T sse_place (or_intror (or_introl eq_refl))). rewrite A in T. discriminate T.
Qed.

Print Assumptions C93_start.
Print Assumptions C93_touch.
Print Assumptions C93_call.
Print Assumptions C93_static.
Print Assumptions C93_new.
Print Assumptions C93_session.
Print Assumptions C93_any_order.
Print Assumptions C93_first_message.
