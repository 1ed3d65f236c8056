(* C88: the library inside a larger program. *)
From Coq Require Import ZArith List Bool String Ascii Lia.
From Verif.Model Require Import JavaPrim ByteBuf Checksum Ast Interp Factory Show Heap GenSse Library.
From Verif.Spec Require Import JavaState Bytes Buffers Wire Reading Layouts Equality Text Access Sharing JavaRun JavaWorld.
From Verif.Java Require Import Lex Syntax Source Sources Sem Init Program.
From Verif.Proofs Require Import HeapFacts HeapCheck HeapTypes JavaSem JavaEncode JavaNames JavaEmbed JavaEmbedInit.
From Verif.Props Require Import Samples HeapProps MessageProps TextProps JavaStaticProps JavaMessageProps.
Import ListNotations.
Open Scope list_scope.
Open Scope nat_scope.

(* ---- which programs, which static fields ---- *)
Theorem C88_extends : forall U, Forall (fun qc => known (fst qc) = false) U -> extends (U ++ lib_program).
Proof.
  intros U F c K. induction F as [|[q d] U N _ IH]; [reflexivity|]. cbn [app assoc fst] in *. destruct (String.eqb_spec c q) as [->|]; [congruence|exact IH].
Qed.
Fixpoint dots (s : string) : nat := match s with EmptyString => 0 | String a r => (if Ascii.eqb a "." then 1 else 0) + dots r end.
Lemma dots_app a b : dots (a ++ b)%string = dots a + dots b. Proof. induction a as [|x a IH]; cbn; [reflexivity|]. rewrite IH. lia. Qed.
Lemma dotless_dots s : dotless s = true -> dots s = 0.
Proof. induction s as [|a s IH]; cbn; [auto|]. intros H. apply andb_true_iff in H. destruct H as [A H]. destruct (Ascii.eqb a "."); [discriminate|]. cbn. auto. Qed.
Lemma assoc_none {A} (x : string) (l : list (string * A)) : (forall y v, In (y, v) l -> y <> x) -> assoc x l = None.
Proof. intros H. induction l as [|[y v] l IH]; cbn; [reflexivity|]. destruct (String.eqb_spec x y) as [->|]; [exfalso; exact (H y v (or_introl eq_refl) eq_refl)|]. apply IH. intros z w I. apply (H z w). now right. Qed.
(* package.Class.field with another package *)
Theorem C88_foreign : forall ext, Forall (fun xv => library_name (fst xv) = false /\ 2 <= dots (fst xv)) ext -> foreign ext.
Proof.
  intros ext F. rewrite Forall_forall in F. split.
  - intros c y L. apply assoc_none. intros z v I ->. destruct (F _ I) as [N _]. cbn [fst] in N. rewrite name_below in N by exact L. discriminate.
  - intros c x K D. apply assoc_none. intros z v I ->. destruct (F _ I) as [N M]. cbn [fst] in N, M. unfold known in K. destruct (library_name c) eqn:L; [rewrite name_below in N by exact L; discriminate|]. cbn in K.
    rewrite !dots_app, (dotless_dots _ K), (dotless_dots _ D) in M. cbn in M. lia.
Qed.

(* ---- calls ---- *)
Theorem C88_method : forall P ext pr k d f m l l' args args' s t, extends P -> foreign ext -> inside ext f s t -> nth_error f l = Some l' -> Forall2 (jval_in f) args args' ->
  ends_in jval_in ext f (s_h t) (invoke pr k d l m args s) (vcalls P pr k d m l' args' t).
Proof. intros P ext pr k d f m l l' args args' s t E F I N A. unfold invoke. apply vcalls_in; auto. apply library_class. Qed.
Theorem C88_static : forall P ext pr k d f c m args args' s t, extends P -> foreign ext -> inside ext f s t -> known c = true -> Forall2 (jval_in f) args args' ->
  ends_in jval_in ext f (s_h t) (invoke_on pr k d c m args s) (run P pr (vcalls P pr k d) k None c m args' t).
Proof. intros P ext pr k d f c m args args' s t E F I K A. unfold invoke_on. apply static_in; auto. apply library_class. Qed.
Theorem C88_new : forall P ext f c s t, extends P -> foreign ext -> inside ext f s t -> ends_in jval_in ext f (s_h t) (create_new c s) (new_object P c t).
Proof. intros P ext f c s t E F I. unfold create_new. apply new_in; auto. apply library_class. Qed.
(* the locals of the caller play no part *)
Theorem C88_locals : forall P pr k d m args s L,
  (forall l, vcalls P pr k d m l args (set_loc s L) = with_loc L (vcalls P pr k d m l args s))
  /\ forall c, run P pr (vcalls P pr k d) k None c m args (set_loc s L) = with_loc L (run P pr (vcalls P pr k d) k None c m args s).
Proof. intros. split; intros; [apply vcalls_loc|apply run_loc]. Qed.

(* ---- between the calls ---- *)
(* what the rest of the program does to its own objects and static fields *)
Theorem C88_others : forall ext ext' f s t own H, inside ext f s t -> s_stat t = own ++ ext -> (forall m, In m f -> nth_error H m = nth_error (s_h t) m) ->
  inside ext' f s {| s_h := H; s_b := s_b t; s_loc := s_loc t; s_stat := own ++ ext' |}.
Proof.
  intros ext ext' f s t own H ((Le & ND & C) & B & L & own' & E & F) E' K. rewrite E in E'. apply app_inv_tail in E'. subst own'. split; [|split; [exact B|split; [exact L|]]].
  - split; [exact Le|]. split; [exact ND|]. cbn. intros l m N. rewrite K by (eapply nth_error_In; exact N). now apply C.
  - exists own. auto.
Qed.
Lemma library_members : Forall (fun qc => library_name (fst qc) = true /\ plain_class (snd qc) = true) lib_program.
Proof. apply Forall_forall. intros qc In. pose proof library_plain as A. rewrite forallb_forall in A. apply andb_true_iff. now apply A. Qed.
(* the library's classes are initialised as in the library alone, whatever else there is *)
Theorem C88_start : forall P ext pr k d H b, extends P -> foreign ext -> exists stat own,
  over (init_class P pr (vcalls P pr k d) 304) (init_order lib_program) (at_rest H b (start_stat lib_program ++ ext)) = Ret tt (at_rest H b (own ++ ext))
  /\ running stat initial_cache lib_factories (reverse_map sse_initial) /\ inside ext [] (at_rest [] b stat) (at_rest H b (own ++ ext)).
Proof.
  intros P ext pr k d H b E F. destruct (C73_classes_initialise pr (vcalls lib_program pr k d) [] b) as (stat & Q & R).
  destruct (start_in P lib_program pr ext E library_class F _ _ (vcalls_in P lib_program pr ext E library_class F k d) 304 library_members H b stat Q) as (own & A & B). eauto.
Qed.
(* any set of library objects and lists closed under their references is such a part *)
Theorem C88_view : forall f H, whole f H -> exists h, heap_in f h H.
Proof. exact heap_view. Qed.

(* ---- so a message is encoded in the larger program as C77 says ---- *)
Theorem C88_encode : forall P ext pr k d f stat R W V h l l' c v b t L, extends P -> foreign ext -> enough k -> running stat R W V ->
  heap_ok lib_classes h -> small h -> Sharing.fits h (HRef l) (TObj c) -> shows h (HRef l) v -> buf_wf b = true -> inside ext f (at_rest h b stat) t -> nth_error f l = Some l' ->
  let v1 := fill_in Y (checksum (holding R W)) (readable b) v (WObj c) in
  exists e t1, vcalls P pr k d "encode"%string l' [JBuf] (set_loc t L) = match e with None => Ret JVoid (set_loc t1 L) | Some x => Exc x (set_loc t1 L) end
  /\ (forall m, m < List.length (s_h t) -> ~ In m f -> nth_error (s_h t1) m = nth_error (s_h t) m)
  /\ (exists own own', s_stat t = own ++ ext /\ s_stat t1 = own' ++ ext)
  /\ match e with
     | None => complete Y v (WObj c) = true /\ nesting v <= d /\ appended b (ser Y v1 (WObj c)) (s_b t1)
     | Some NPE => complete Y v (WObj c) = false
     | Some IOOBE => ~ Buffers.fits b (List.length (ser Y v1 (WObj c)))
     | Some SOE => d < nesting v
     | _ => False
     end.
Proof.
  intros P ext pr k d f stat R W V h l l' c v b t L E F K Rn OK S Fi Sh Hb I N v1.
  destruct (C77_encode pr k d stat R W V h l c v b K Rn OK S Fi Sh Hb) as (e & h1 & b1 & Q & _ & _ & _ & _ & M & _).
  pose proof (C88_method P ext pr k d f "encode" l l' [JBuf] [JBuf] _ t E F I N (Forall2_cons _ _ (in_plain _ JBuf eq_refl) (Forall2_nil _))) as J. rewrite Q in J.
  rewrite (proj1 (C88_locals P pr k d "encode"%string [JBuf] t L)). pose proof I as (_ & _ & _ & own & So & _).
  exists e. destruct e as [x|].
  - destruct J as (f' & t1 & -> & (G1 & G2 & G3) & I1). exists t1. split; [reflexivity|]. split; [exact G3|]. pose proof I1 as (_ & B1 & _ & own' & So' & _). split; [eauto|]. exact M.
  - destruct J as (f' & a & t1 & -> & (G1 & G2 & G3) & I1 & Ja). exists t1. pose proof I1 as (_ & B1 & _ & own' & So' & _). inversion Ja; subst. split; [reflexivity|]. split; [exact G3|]. split; [eauto|]. cbn in B1. rewrite B1. tauto.
Qed.

(* a program with a class of its own, an object of it that refers to a message, and a counter; the message's five objects lie behind it in another order *)
Definition app_class : jclass := Class [] "class" "App" [] [] [] [MField ["static"%string] (T1 "int") "count" None; MField [] (T1 "RootPacket") "msg" None].
Definition world : program := [("user.App"%string, app_class)] ++ lib_program.
Definition counter : list (string * jval) := [("user.App.count"%string, JT (T1 "int") (HInt 3))].
Definition spots : list nat := [3; 5; 1; 4; 2].
Definition shift (v : hval) : hval := match v with HRef l => HRef (nth l spots 0) | _ => v end.
Definition shifted (c : cell) : cell := match c with CObj n fs => CObj n (map (fun x => (fst x, shift (snd x))) fs) | CList vs => CList (map shift vs) end.
Definition whole_heap : heap := CObj "user.App" [("msg"%string, HRef 2)] :: map (fun i => shifted (nth i h_alias (CList []))) [2; 4; 0; 3; 1].
Example C88_meets : extends world /\ assoc "user.App" world = Some app_class /\ foreign counter /\ whole spots whole_heap
  /\ exists stat own, inside counter spots (at_rest h_alias used_buf stat) (at_rest whole_heap used_buf (own ++ counter)) /\ running stat initial_cache lib_factories (reverse_map sse_initial)
     /\ nth_error spots 4 = Some 2 /\ nth_error whole_heap 0 <> None /\ ~ In 0 spots.
Proof.
  assert (Ex : extends world) by (apply C88_extends; constructor; [reflexivity|constructor]). assert (Fo : foreign counter) by (apply C88_foreign; constructor; [split; [reflexivity|cbn; lia]|constructor]).
  split; [exact Ex|]. split; [reflexivity|]. split; [exact Fo|].
  assert (ND : NoDup spots) by (repeat (constructor; [cbn; intuition discriminate|]); constructor).
  split.
  { split; [exact ND|]. intros m I. cbn in I. do 5 (destruct I as [<-|I]; [eexists; split; [vm_compute; reflexivity|]; cbn; try (split; [reflexivity|]); repeat (constructor; [cbn; intros l E; try discriminate E; injection E as <-; cbn; tauto|]); constructor|]). contradiction. }
  destruct (C88_start world counter some_printers 9 9 whole_heap used_buf Ex Fo) as (stat & own & _ & R & I). exists stat, own. split; [|split; [exact R|split; [reflexivity|split; [discriminate|cbn; intuition discriminate]]]].
  destruct I as (_ & _ & _ & own' & E & F). cbn [at_rest s_stat] in E. apply app_inv_tail in E. subst own'. split; [|split; [reflexivity|split; [constructor|exists own; split; [reflexivity|]]]].
  - split; [reflexivity|]. split; [exact ND|]. intros l m N. do 5 (destruct l as [|l]; [cbn in N; injection N as <-; eexists; eexists; split; [reflexivity|]; split; [vm_compute; reflexivity|]; vm_compute; repeat split; repeat constructor|]). cbn in N. destruct l; discriminate N.
  - eapply stat_mono; [|exact F]. exists spots. reflexivity.
Qed.

Print Assumptions C88_extends.
Print Assumptions C88_foreign.
Print Assumptions C88_method.
Print Assumptions C88_static.
Print Assumptions C88_new.
Print Assumptions C88_locals.
Print Assumptions C88_others.
Print Assumptions C88_start.
Print Assumptions C88_view.
Print Assumptions C88_encode.
