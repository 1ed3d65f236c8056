(* register and getMsgType of SseBinary.BodyMessageFactory (SseBinary.java:209-220) in a larger program, with any class. *)
From Coq Require Import ZArith NArith List Bool String Ascii Lia.
From Verif.Model Require Import JavaPrim ByteBuf Checksum Utf8 Codec Ast Interp Factory Show Heap GenSse Library.
From Verif.Proofs Require Import BytesFacts HeapFacts JavaSem JavaEncode JavaDecode JavaClasses JavaLibrary JavaServices JavaStart RegistryFacts JavaState JavaRegistry JavaFactories JavaNames JavaEmbed JavaUser.
From Verif.Java Require Import Lex Syntax Source Sources FilesSse Sem CodecTrees Init Program.
From Verif.Spec Require Import JavaState JavaRun JavaWorld.
Import ListNotations.
Open Scope Z_scope.
Open Scope list_scope.

Definition body_key : string := map_key main_sse_SseBinary.
Lemma sse_known : known sse_place = true.
Proof. pose proof (factory_there main_sse_SseBinary sse_maker eq_refl) as T. change (known (map_place main_sse_SseBinary) = true). unfold known. now rewrite (proj1 (library_class _ _ T)). Qed.
Lemma sse_method_in P m n x : extends P -> method_in (members (factory_class main_sse_SseBinary)) m n = Some x -> find_method P sse_place m n = Some x.
Proof. intros E H. rewrite (find_method_same P lib_program E library_class sse_place m n sse_known). exact (sse_method m n x H). Qed.
Lemma sse_name P x m s : assoc x (s_loc s) = None -> assoc (sse_place ++ "." ++ x)%string (s_stat s) = Some (JMap m) -> name_val P {| x_this := None; x_class := sse_place |} x s = Ret (JMap m) s.
Proof. intros A B. unfold name_val. rewrite A. cbn [x_this x_class]. rewrite B. reflexivity. Qed.

Section Sse.
  Variable P : program.
  Hypothesis EX : extends P.
  Variable pr : printers.
  Variable vcall : string -> nat -> list jval -> st -> res jval.
  Variable stat : list (string * jval).
  Variable m mr : mkey -> option jval.
  Hypothesis Qm : assoc body_key stat = Some (JMap m).
  Hypothesis Qr : assoc reverse_key stat = Some (JMap mr).
  Variable h : heap.
  Variable b : bytebuf.
  Variable L : list (string * (ty * jval)).
  Notation mk L0 := {| s_h := h; s_b := b; s_loc := L0; s_stat := stat |}.
  Lemma keys_apart : body_key <> reverse_key.
  Proof. intros Q. apply (maker_not main_sse_SseBinary reverse_key sse_maker); [rewrite others; do 3 right; now left|exact Q]. Qed.
  Lemma sse_register_runs k clazz t z c' :
    run P pr vcall (S k) None sse_place "register" [JCls clazz; JT t (HInt z); JSup c'] (mk L)
    = Ret JVoid {| s_h := h; s_b := b; s_loc := L; s_stat := put_assoc reverse_key (JMap (m_set mr (MCls clazz) (Some (JT (T1 "Integer") (HInt z))))) (put_assoc body_key (JMap (m_set m (MKey (KInt z)) (Some (JSup c')))) stat) |}.
  Proof.
    erewrite run_eq by (apply sse_method_in; [exact EX|reflexivity]). cbn [bind_params conv bind]. set (s1 := set_loc (mk L) _).
    assert (B1 : name_val P {| x_this := None; x_class := sse_place |} "bodyMap" s1 = Ret (JMap m) s1) by (apply sse_name; [reflexivity|exact Qm]).
    rewrite all_cons. unfold put_s at 1, call_s. rewrite ex_expr. cbn [eval]. change (fst (create_of (sc_def main_sse_SseBinary)) ++ "Map")%string with "bodyMap"%string. rewrite B1. cbn [bind].
    erewrite (name_loc _ _ (snd (create_of (sc_def main_sse_SseBinary)))) by reflexivity. cbn [bind]. erewrite (name_loc _ _ "supplier") by reflexivity. cbn [bind dispatch var_of x_class]. unfold map_call. cbn [mkey_of String.eqb Ascii.eqb Bool.eqb bind seq_st].
    change (sse_place ++ "." ++ "bodyMap")%string with body_key. set (s2 := put_stat s1 _ _).
    assert (B2 : name_val P {| x_this := None; x_class := sse_place |} "reverseMap" s2 = Ret (JMap mr) s2).
    { apply sse_name; [reflexivity|]. unfold s2, put_stat, set_stat, s1, set_loc. cbn [s_stat]. change (sse_place ++ "." ++ "reverseMap")%string with reverse_key. rewrite put_other; [exact Qr|]. exact (fun Q => keys_apart (eq_sym Q)). }
    rewrite all_cons. unfold put_s, call_s. rewrite ex_expr. cbn [eval]. rewrite B2. cbn [bind]. erewrite (name_loc _ _ "clazz") by reflexivity. cbn [bind]. erewrite (name_loc _ _ (snd (create_of (sc_def main_sse_SseBinary)))) by reflexivity.
    cbn [bind dispatch var_of x_class]. unfold map_call. cbn [mkey_of String.eqb Ascii.eqb Bool.eqb bind seq_st]. rewrite all_nil. reflexivity.
  Qed.
  Lemma sse_type_runs k clazz : run P pr vcall (S k) None sse_place "getMsgType" [JCls clazz] (mk L) = Ret (or_null (mr (MCls clazz))) (mk L).
  Proof.
    erewrite run_eq by (apply sse_method_in; [exact EX|reflexivity]). cbn [bind_params conv bind]. set (s1 := set_loc (mk L) _).
    assert (B2 : name_val P {| x_this := None; x_class := sse_place |} "reverseMap" s1 = Ret (JMap mr) s1) by (apply sse_name; [reflexivity|exact Qr]).
    rewrite all_cons, ex_return. cbn [eval]. rewrite B2. cbn [bind]. erewrite (name_loc _ _ "clazz") by reflexivity. cbn [bind dispatch var_of x_class]. unfold map_call. cbn [mkey_of String.eqb Ascii.eqb Bool.eqb bind seq_st]. reflexivity.
  Qed.
End Sse.
Lemma put_app x (v : jval) : forall own ext, In x (map fst own) -> put_assoc x v (own ++ ext) = put_assoc x v own ++ ext.
Proof. induction own as [|[k a] own IH]; intros ext I; [destruct I|]. cbn [app put_assoc]. destruct (String.eqb_spec x k) as [->|N]; [reflexivity|]. cbn [app]. rewrite IH; [reflexivity|]. destruct I as [<-|I]; [now destruct N|exact I]. Qed.
Lemma assoc_app x (v : jval) : forall own ext, assoc x own = Some v -> assoc x (own ++ ext) = Some v.
Proof. induction own as [|[k a] own IH]; intros ext; cbn; [discriminate|]. destruct (String.eqb x k); auto. Qed.
Lemma put_named f x v w : jval_in f v w -> forall stat own, Forall2 (named_in (jval_in f)) stat own -> Forall2 (named_in (jval_in f)) (put_assoc x v stat) (put_assoc x w own).
Proof. intros J. induction 1 as [|[a c] [a' c'] stat own [Q R] F IH]; cbn [put_assoc]; [constructor|]. cbn [fst snd] in *. subst a'. destruct (String.eqb x a); constructor; auto; split; auto. Qed.
Lemma set_in f m n x v w : jval_in f (JMap m) (JMap n) -> jval_in f v w -> jval_in f (JMap (m_set m x (Some v))) (JMap (m_set n x (Some w))).
Proof.
  intros J V. inversion J as [| | | | | | |? ? A B]; subst; [discriminate|]. constructor; unfold m_set.
  - intros k. destruct (mkey_eqb k x); [split; discriminate|apply A].
  - intros k a c. destruct (mkey_eqb k x); [intros [= <-] [= <-]; exact V|apply B].
Qed.
Lemma sse_agrees stat R W V clazz z c' : agrees stat R W V -> exists m mr, assoc body_key stat = Some (JMap m) /\ assoc reverse_key stat = Some (JMap mr)
  /\ agrees (put_assoc reverse_key (JMap (m_set mr (MCls clazz) (Some (JT (T1 "Integer") (HInt z))))) (put_assoc body_key (JMap (m_set m (MKey (KInt z)) (Some (JSup c')))) stat))
       R (on_factory W sse_owner (fun M => register M (KInt z) c')) (r_put V clazz z).
Proof.
  intros AG. destruct (the_map stat R W V AG main_sse_SseBinary sse_maker) as (m & M & Qm & N & HM & H). destruct (ag_reverse _ _ _ _ AG) as (mr & Qr & Hr).
  exists m, mr. split; [exact Qm|]. split; [exact Qr|]. unfold sse_register. cbn [body_map reverse_map]. apply (agrees_reverse _ R _ V).
  - apply (agrees_map stat R W V main_sse_SseBinary _ _ AG sse_maker); [exact N|]. intros y. change (c_name (sc_def main_sse_SseBinary)) with sse_owner in *. rewrite lookup_on, String.eqb_refl, HM, m_set_key. unfold register. rewrite f_get_put, H. now destruct (key_eqb y (KInt z)).
  - intros x. rewrite assoc_r_put. unfold m_set. cbn [mkey_eqb]. rewrite Hr. now destruct (String.eqb x clazz).
Qed.
Lemma in_names x (v : jval) : forall own, assoc x own = Some v -> In x (map fst own).
Proof. induction own as [|[k a] own IH]; cbn; [discriminate|]. destruct (String.eqb_spec x k) as [->|N]; [now left|right; auto]. Qed.
Lemma named_at f x v w : forall stat own, Forall2 (named_in (jval_in f)) stat own -> assoc x stat = Some v -> assoc x own = Some w -> jval_in f v w.
Proof. induction 1 as [|[a c] [a' c'] stat own [Q R] F IH]; cbn; [discriminate|]. cbn [fst snd] in *. subst a'. destruct (String.eqb x a); [|auto]. intros [= <-] [= <-]. exact R. Qed.
