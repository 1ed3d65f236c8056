(* C87: a call has one outcome, and the size of the stack matters only where it is exceeded. *)
From Coq Require Import ZArith List Bool String Lia.
From Verif.Model Require Import JavaPrim ByteBuf Ast Interp Factory Show Heap Library.
From Verif.Java Require Import Lex Syntax Source Sem Program.
From Verif.Spec Require Import Bytes Sharing JavaState JavaRun JavaOutcome.
From Verif.Proofs Require Import JavaMono JavaSem HeapTypes.
From Verif.Props Require Import Samples HeapProps JavaStaticProps JavaMessageProps TextProps.
Import ListNotations.
Open Scope list_scope.
Open Scope nat_scope.

Lemma above {A} (r r' : res A) : below false r r' -> r <> Bad -> r' = r.
Proof. intros [B|[[W _]|E]] N; [contradiction|discriminate|congruence]. Qed.
Lemma above_soe {r r' : res jval} : below true r r' -> r <> Bad -> ~ overflowed r -> r' = r.
Proof. intros [B|[(_ & s & E)|E]] N O; [contradiction| |congruence]. destruct O. exists s. exact E. Qed.

(* any program, any state: two runs of the same call that end, end alike *)
Theorem C87_one_outcome : forall P pr d m args s r r',
  (forall l, outcome P pr d l m args s r -> outcome P pr d l m args s r' -> r = r')
  /\ forall c, outcome_on P pr d c m args s r -> outcome_on P pr d c m args s r' -> r = r'.
Proof.
  intros P pr d m args s r r'. split; intros x (N & k & E) (N' & k' & E'); destruct (Nat.le_ge_cases k k') as [L|L].
  - pose proof (mono_vcalls P pr k k' L d m x args s) as B. rewrite E, E' in B. symmetry. exact (above _ _ B N).
  - pose proof (mono_vcalls P pr k' k L d m x args s) as B. rewrite E, E' in B. exact (above _ _ B N').
  - pose proof (mono_static P pr k k' L d None x m args s) as B. rewrite E, E' in B. symmetry. exact (above _ _ B N).
  - pose proof (mono_static P pr k' k L d None x m args s) as B. rewrite E, E' in B. exact (above _ _ B N').
Qed.
(* from some bound on, the interpreter finds it *)
Theorem C87_found : forall P pr d m args s r,
  (forall l, outcome P pr d l m args s r -> exists K, forall k, K <= k -> vcalls P pr k d m l args s = r)
  /\ forall c, outcome_on P pr d c m args s r -> exists K, forall k, K <= k -> run P pr (vcalls P pr k d) k None c m args s = r.
Proof.
  intros P pr d m args s r. split; intros x (N & K & E); exists K; intros k L.
  - pose proof (mono_vcalls P pr K k L d m x args s) as B. rewrite E in B. exact (above _ _ B N).
  - pose proof (mono_static P pr K k L d None x m args s) as B. rewrite E in B. exact (above _ _ B N).
Qed.
(* a larger stack changes nothing where the smaller one was enough *)
Theorem C87_larger_stack : forall P pr d d' m args s r, d <= d' -> ~ overflowed r ->
  (forall l, outcome P pr d l m args s r -> outcome P pr d' l m args s r)
  /\ forall c, outcome_on P pr d c m args s r -> outcome_on P pr d' c m args s r.
Proof.
  intros P pr d d' m args s r D O. split; intros x (N & k & E); split; auto; exists k.
  - pose proof (mono_frames P pr k k (le_n k) d d' D m x args s) as B. rewrite E in B. exact (above_soe B N O).
  - pose proof (mono_static_frames P pr k k d d' (le_n k) D None x m args s) as B. rewrite E in B. exact (above_soe B N O).
Qed.
(* and where it was not enough, no smaller one is *)
Theorem C87_smaller_stack : forall P pr d d' m args s r r', d <= d' -> overflowed r' ->
  (forall l, outcome P pr d' l m args s r' -> outcome P pr d l m args s r -> overflowed r)
  /\ forall c, outcome_on P pr d' c m args s r' -> outcome_on P pr d c m args s r -> overflowed r.
Proof.
  intros P pr d d' m args s r r' D O. destruct (C87_one_outcome P pr d' m args s r r') as [U U'].
  assert (Q : (exists s, r = Exc SOE s) \/ ~ overflowed r).
  { destruct r as [| [] s'|]; try (right; intros (y & H); discriminate H). left. eauto. }
  split; intros x H' H; (destruct Q as [Q|Q]; [exact Q|]); destruct (C87_larger_stack P pr d d' m args s r D Q) as [L L'].
  - rewrite (U x (L x H) H'). exact O.
  - rewrite (U' x (L' x H) H'). exact O.
Qed.

(* a program whose method needs four frames on a chain of four objects *)
Definition chain_class : jclass :=
  Class [] "class" "C" [] [] [] [MField [] (T1 "C") "next" None;
    MMethod [] [] [] (T1 "int") "m" [] (Some [SIf (EBin OEq ENull (EField EThis "next")) (SReturn (Some (EInt false 7))) None; SReturn (Some (ECall (EField EThis "next") "m" []))])].
Definition chain_state : st :=
  at_rest [CObj "C" [("next", HRef 1)]; CObj "C" [("next", HRef 2)]; CObj "C" [("next", HRef 3)]; CObj "C" [("next", HNull)]]%string used_buf [].
Example C87_meets : outcome [("C"%string, chain_class)] some_printers 4 0 "m" [] chain_state (Ret (jint 7) chain_state) /\ ~ overflowed (Ret (jint 7) chain_state)
  /\ (exists s, outcome [("C"%string, chain_class)] some_printers 3 0 "m" [] chain_state (Exc SOE s))
  /\ exists stat r, outcome lib_program some_printers 9 4 "encode" [JBuf] (at_rest h_alias used_buf stat) r.
Proof.
  split; [split; [discriminate|exists 5; vm_compute; reflexivity]|]. split; [intros (s & H); discriminate H|].
  split; [eexists; split; [discriminate|exists 5; vm_compute; reflexivity]|].
  destruct C77_meets as ((stat & V & Rn) & H1 & H2 & H3 & _ & H5 & _).
  destruct C74_meets as (_ & _ & _ & _ & _ & K). revert K. generalize (Z.to_nat (2 ^ 31 + 4)). intros k K.
  destruct (C77_any_graph some_printers k 9 stat _ _ V _ _ _ _ K Rn H1 H2 H3 H5) as (e & h1 & b1 & E & _).
  exists stat. eexists. split; [|exists k; exact E]. destruct e; discriminate.
Qed.

Print Assumptions C87_one_outcome.
Print Assumptions C87_found.
Print Assumptions C87_larger_stack.
Print Assumptions C87_smaller_stack.
